(** The signatures of tokens with a key in the TPM: the TPM answers in DER, a token has the two
    numbers of an ECDSA signature side by side. *)
From Verif Require Import Base.
Open Scope N_scope.

(** math/big: Int.SetBytes, big-endian. *)
Definition set_bytes (s : str) : N := fold_left (fun a c => 256 * a + N_of_ascii c) s 0.
(** math/big: Int.FillBytes of the absolute value into n bytes; None is the panic for a value
    that does not fit. *)
Fixpoint fill_bytes (n : nat) (v : N) : option str :=
  match n with
  | O => if v =? 0 then Some [] else None
  | S n' => option_map (fun l => l ++ [ascii_of_N (v mod 256)]) (fill_bytes n' (v / 256))
  end.

(** encoding/asn1 parseTagAndLength: the bytes of a length in the long form. *)
Fixpoint long_length (n : nat) (s : str) (acc : N) : option (N * str) :=
  match n with
  | O => Some (acc, s)
  | S n' =>
      match s with
      | [] => None
      | c :: s' =>
          if 8388608 <=? acc then None
          else let acc' := 256 * acc + N_of_ascii c in
               if acc' =? 0 then None else long_length n' s' acc'
      end
  end.
(** encoding/asn1 parseTagAndLength: the length. *)
Definition length_of (s : str) : option (N * str) :=
  match s with
  | [] => None
  | c :: s' =>
      let b := N_of_ascii c in
      if b <? 128 then Some (b, s')
      else if b =? 128 then None
      else match long_length (N.to_nat (b - 128)) s' 0 with
           | Some (n, r) => if n <? 128 then None else Some (n, r)
           | None => None
           end
  end.
(** encoding/asn1 parseTagAndLength and parseField: an element that has to have this tag, and
    what is after it. *)
Definition element (tag : ascii) (s : str) : option (str * str) :=
  match s with
  | c :: s' =>
      if Ascii.eqb c tag then
        match length_of s' with
        | Some (n, r) =>
            if N.of_nat (List.length r) <? n then None
            else Some (firstn (N.to_nat n) r, skipn (N.to_nat n) r)
        | None => None
        end
      else None
  | [] => None
  end.
(** encoding/asn1 checkInteger *)
Definition check_integer (b : str) : bool :=
  match b with
  | [] => false
  | [_] => true
  | x :: y :: _ =>
      negb ((N_of_ascii x =? 0) && (N_of_ascii y <? 128) || (N_of_ascii x =? 255) && (128 <=? N_of_ascii y))
  end.
(** encoding/asn1 parseBigInt: two's complement. *)
Definition parse_big_int (b : str) : option Z :=
  if check_integer b then
    match b with
    | c :: _ =>
        if 128 <=? N_of_ascii c then Some (Z.of_N (set_bytes b) - 2 ^ (8 * Z.of_nat (List.length b)))%Z
        else Some (Z.of_N (set_bytes b))
    | [] => None
    end
  else None.
(** encoding/asn1 parseSequenceOf for []*big.Int; [fuel]: an element has two bytes or more. *)
Fixpoint integers (fuel : nat) (s : str) : option (list Z) :=
  match s with
  | [] => Some []
  | _ :: _ =>
      match fuel with
      | O => None
      | S f =>
          match element "002" s with
          | Some (b, r) =>
              match parse_big_int b, integers f r with
              | Some z, Some l => Some (z :: l)
              | _, _ => None
              end
          | None => None
          end
      end
  end.
(** encoding/asn1 Unmarshal(sig, &ss); what is after the sequence is returned and not looked
    at (tokenmanager.go:396). *)
Definition unmarshal (sig : str) : option (list Z) :=
  match element "048" sig with
  | Some (b, _) => integers (List.length b) b
  | None => None
  end.

(** Artefact: what a signing method answers. *)
Inductive answer := Signature (s : str) | Refused | Panics.

(** proxy/internal/tokenmanager/tokenmanager.go:378-408 tpmSigningMethod.Sign with an ECDSA
    method of [bits] and a key of the TPM.  [key_bits]: the size of its curve; [tpm]: what
    the TPM answers for the digest, None for an error. *)
Definition sign (bits key_bits : N) (tpm : option str) : answer :=
  if negb (bits =? key_bits) then Refused
  else match tpm with
  | None => Refused
  | Some sig =>
      match unmarshal sig with
      | Some [r; s] =>
          let sz := N.to_nat (bits / 8) in
          match fill_bytes sz (Z.abs_N r), fill_bytes sz (Z.abs_N s) with
          | Some a, Some b => Signature (a ++ b)
          | _, _ => Panics
          end
      | _ => Refused
      end
  end.
