(** CBOR as the passkey code reads it: internal/passkeys/webauthn.go with
    github.com/fxamacker/cbor, after RFC 8949.

    Simplified: items of indefinite length, which authenticators must not use (CTAP2
    canonical form), are refused; the limits of the library (32 levels, 131072 elements)
    and its check that texts are UTF-8 are left out. *)
From Verif Require Import Base PasskeyModel SignModel.
Open Scope list_scope.
Open Scope N_scope.

(** RFC 8949, section 3.1: data items.  [CNint n] is -1-n. *)
Inductive cbor :=
| CUint (n : N) | CNint (n : N) | CByt (s : str) | CTxt (s : str) | CArr (l : list cbor) | CMap (l : list (cbor * cbor))
| CTag (n : N) (v : cbor) | CSimple (n : N) | CFloat (width : N) (bits : N).

(** Artefact: the first [n] characters, if there are as many.  The number is compared
    first, so that huge numbers are not counted out. *)
Definition cut_at (n : N) (s : str) : option (str * str) :=
  if n <=? N.of_nat (List.length s) then Some (firstn (N.to_nat n) s, skipn (N.to_nat n) s) else None.

(** RFC 8949, section 3: the major type, the additional information, the argument. *)
Definition read_head (s : str) : option (N * N * N * str) :=
  match s with
  | [] => None
  | c :: r =>
      let m := N_of_ascii c / 32 in
      let ai := N_of_ascii c mod 32 in
      if ai <? 24 then Some (m, ai, ai, r)
      else if ai <? 28 then match cut_at (2 ^ (ai - 24)) r with Some (b, r') => Some (m, ai, set_bytes b, r') | None => None end
      else None
  end.

(** RFC 8949, section 3: one item, and what follows it. *)
Fixpoint read_item (fuel : nat) (s : str) : option (cbor * str) :=
  match fuel with
  | O => None
  | S f =>
      match read_head s with
      | None => None
      | Some (m, ai, n, r) =>
          if m =? 0 then Some (CUint n, r)
          else if m =? 1 then Some (CNint n, r)
          else if m =? 2 then match cut_at n r with Some (b, r') => Some (CByt b, r') | None => None end
          else if m =? 3 then match cut_at n r with Some (b, r') => Some (CTxt b, r') | None => None end
          else if m =? 4 then match read_items f n r with Some (l, r') => Some (CArr l, r') | None => None end
          else if m =? 5 then match read_pairs f n r with Some (l, r') => Some (CMap l, r') | None => None end
          else if m =? 6 then match read_item f r with Some (v, r') => Some (CTag n v, r') | None => None end
          else if ai <? 24 then Some (CSimple n, r)
          else if ai =? 24 then if n <? 32 then None else Some (CSimple n, r)
          else Some (CFloat (2 ^ (ai - 24)) n, r)
      end
  end
(** ... the items of an array *)
with read_items (fuel : nat) (n : N) (s : str) : option (list cbor * str) :=
  match fuel with
  | O => None
  | S f =>
      if n =? 0 then Some ([], s)
      else match read_item f s with
           | Some (v, r) => match read_items f (n - 1) r with Some (l, r') => Some (v :: l, r') | None => None end
           | None => None
           end
  end
(** ... the pairs of a map *)
with read_pairs (fuel : nat) (n : N) (s : str) : option (list (cbor * cbor) * str) :=
  match fuel with
  | O => None
  | S f =>
      if n =? 0 then Some ([], s)
      else match read_item f s with
           | None => None
           | Some (k, r0) =>
               match read_item f r0 with
               | Some (v, r) => match read_pairs f (n - 1) r with Some (l, r') => Some ((k, v) :: l, r') | None => None end
               | None => None
               end
           end
  end.
(** Artefact: the first item of a text. *)
Definition read_cbor (s : str) : option (cbor * str) := read_item (2 * List.length s) s.

(** cbor.UnmarshalFirst into cbor.RawMessage (library): the text of the first item, and the
    rest. *)
Definition first_item (s : str) : option (str * str) :=
  match read_cbor s with Some (_, r) => Some (firstn (List.length s - List.length r) s, r) | None => None end.
(** cbor.Unmarshal (library): nothing may follow the item. *)
Definition whole_item (s : str) : option cbor :=
  match read_cbor s with Some (v, []) => Some v | _ => None end.

(** cbor.Unmarshal (library): a label of a struct with keyasint *)
Definition int_of (v : cbor) : option Z :=
  match v with CUint n => Some (Z.of_N n) | CNint n => Some (-1 - Z.of_N n)%Z | _ => None end.
(** cbor.Unmarshal (library): a value for a field; integers have 64 bits. *)
Definition item_of (v : cbor) : citem :=
  match v with
  | CUint n => if n <? 2 ^ 63 then CInt (Z.of_N n) else COther
  | CNint n => if n <? 2 ^ 63 then CInt (-1 - Z.of_N n) else COther
  | CByt s => CBytes s
  | _ => COther
  end.
(** webauthn.go:290-295, 298-307 and 330-338: a key as labels and values.  Simplified: null
    for a field is an error instead of nothing; such keys do not work either way. *)
Definition key_labels (s : str) : option (list (Z * citem)) :=
  match whole_item s with
  | Some (CMap l) => Some (List.concat (map (fun kv => match int_of (fst kv) with Some k => [(k, item_of (snd kv))] | None => [] end) l))
  | _ => None
  end.

(** Artefact: the value with this name in a map; the first one counts. *)
Fixpoint named (k : str) (l : list (cbor * cbor)) : option cbor :=
  match l with
  | [] => None
  | (CTxt k', v) :: r => if str_eqb k k' then Some v else named k r
  | _ :: r => named k r
  end.
(** webauthn.go:178-184 and 210-214 parseAttestationObject, up to the authenticator data.
    Simplified: names are compared exactly. *)
Definition attested_data (s : str) : option str :=
  match whole_item s with
  | Some (CMap l) =>
      match named (lit "fmt") l, named (lit "authData") l with
      | (None | Some (CTxt _)), Some (CByt raw) => Some raw
      | (None | Some (CTxt _)), None => Some []
      | _, _ => None
      end
  | _ => None
  end.
