(** Specification for CBOR: RFC 8949, the keys of RFC 9053, and what authenticators write. *)
From Verif Require Import Base LoginModel PasskeyModel PasskeySpec CborModel.
Open Scope list_scope.
Open Scope N_scope.

(** The first bytes of an item: major type [m], additional information [ai], argument [n]. *)
Definition head_text (m ai n : N) (h : str) : Prop :=
  exists c b, h = c :: b /\ N_of_ascii c = 32 * m + ai /\ m < 8 /\
    ((ai < 24 /\ n = ai /\ b = []) \/
     (exists k, In (ai, k) [(24, 1%nat); (25, 2%nat); (26, 4%nat); (27, 8%nat)] /\ List.length b = k /\ n = big_endian b)).

Definition count {A} (l : list A) : N := N.of_nat (List.length l).

(** The texts of items. *)
Inductive cbor_text : str -> cbor -> Prop :=
| ct_uint ai n h : head_text 0 ai n h -> cbor_text h (CUint n)
| ct_nint ai n h : head_text 1 ai n h -> cbor_text h (CNint n)
| ct_bytes ai h s : head_text 2 ai (count s) h -> cbor_text (h ++ s) (CByt s)
| ct_text ai h s : head_text 3 ai (count s) h -> cbor_text (h ++ s) (CTxt s)
| ct_array ai h t l : head_text 4 ai (count l) h -> items_text t l -> cbor_text (h ++ t) (CArr l)
| ct_map ai h t l : head_text 5 ai (count l) h -> pairs_text t l -> cbor_text (h ++ t) (CMap l)
| ct_tag ai n h t v : head_text 6 ai n h -> cbor_text t v -> cbor_text (h ++ t) (CTag n v)
| ct_simple n h : head_text 7 n n h -> n < 24 -> cbor_text h (CSimple n)
| ct_simple8 n h : head_text 7 24 n h -> 32 <= n -> cbor_text h (CSimple n)
| ct_float ai w n h : head_text 7 ai n h -> In (ai, w) [(25, 2); (26, 4); (27, 8)] -> cbor_text h (CFloat w n)
with items_text : str -> list cbor -> Prop :=
| it_nil : items_text [] []
| it_cons t v t' l : cbor_text t v -> items_text t' l -> items_text (t ++ t') (v :: l)
with pairs_text : str -> list (cbor * cbor) -> Prop :=
| pt_nil : pairs_text [] []
| pt_cons s k t v t' l : cbor_text s k -> cbor_text t v -> pairs_text t' l -> pairs_text (s ++ t ++ t') ((k, v) :: l).

(** An integer as an item. *)
Definition cint (z : Z) : cbor := if (z <? 0)%Z then CNint (Z.to_N (-1 - z)) else CUint (Z.to_N z).

(** RFC 9053: keys for ES256 and RS256.  The labels may be in any order, and there may be
    others. *)
Definition value_at (l : list (cbor * cbor)) (k : Z) (v : cbor) : Prop :=
  exists before after, l = before ++ (cint k, v) :: after /\ Forall (fun kv => int_of (fst kv) <> Some k) before.
Definition es256_key (key : str) (x y : str) : Prop :=
  exists l, cbor_text key (CMap l) /\ value_at l 1 (cint 2) /\ value_at l 3 (cint (-7)) /\ value_at l (-1) (cint 1) /\ value_at l (-2) (CByt x) /\ value_at l (-3) (CByt y).
Definition rs256_key (key : str) (n : str) (e : Z) : Prop :=
  exists l, cbor_text key (CMap l) /\ value_at l 1 (cint 3) /\ value_at l 3 (cint (-257)) /\ value_at l (-1) (CByt n) /\ value_at l (-2) (cint e) /\ (Z.abs e < 2 ^ 63)%Z.

(** W3C WebAuthn, 6.5.4: an attestation object, with any format and any statement. *)
Definition text_at (l : list (cbor * cbor)) (k : str) (v : cbor) : Prop :=
  exists before after, l = before ++ (CTxt k, v) :: after /\ Forall (fun kv => fst kv <> CTxt k) before.
Definition attestation_text (att auth : str) : Prop :=
  exists l format, cbor_text att (CMap l) /\ text_at l (lit "fmt") (CTxt format) /\ text_at l (lit "authData") (CByt auth).

(** W3C WebAuthn, 6.1: authenticator data with the user present and verified; [more]: the
    extensions. *)
Definition auth_data_text (raw rp : str) (creds : option (str * str * str)) (more : str) : Prop :=
  exists flags count, List.length rp = 32%nat /\ List.length count = 4%nat /\
    N.testbit (N_of_ascii flags) 0 = true /\ N.testbit (N_of_ascii flags) 2 = true /\
    match creds with
    | None => N.testbit (N_of_ascii flags) 6 = false /\ raw = layout rp flags count None more
    | Some (aaguid, id, key) =>
        N.testbit (N_of_ascii flags) 6 = true /\ List.length aaguid = 16%nat /\ (List.length id <= 1023)%nat /\
        exists len, List.length len = 2%nat /\ big_endian len = N.of_nat (List.length id) /\ raw = layout rp flags count (Some (aaguid, len, id, key)) more
    end.
