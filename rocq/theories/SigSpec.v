(** Signatures in tokens and in DER, from the standards. *)
From Verif Require Import Base.
Open Scope N_scope.

(** A number, big-endian: the first byte counts most. *)
Fixpoint number (s : str) : N :=
  match s with
  | [] => 0
  | c :: r => N_of_ascii c * 256 ^ N.of_nat (List.length r) + number r
  end.

(** RFC 7518, section 3.4: a signature has R and S side by side, each with as many bytes as a
    number of the curve has.  So 32 for P-256, 48 for P-384, 66 for P-521. *)
Definition octets (bits : N) : nat := N.to_nat ((bits + 7) / 8).
Definition token_signature (bits : N) (sig : str) (r s : N) : Prop :=
  exists a b, sig = a ++ b /\ List.length a = octets bits /\ List.length b = octets bits /\ number a = r /\ number b = s.

(** X.690, section 10.1: a length in DER takes as few bytes as it can. *)
Definition der_length (n : N) (l : str) : Prop :=
  (n < 128 /\ l = [ascii_of_N n]) \/
  (128 <= n /\ exists c b, N_of_ascii c = 128 + N.of_nat (List.length b) /\ l = c :: b /\ number b = n /\
     match b with d :: _ => N_of_ascii d <> 0 | [] => False end).
(** An element: its tag, its length, its content. *)
Definition der_element (tag : ascii) (content s : str) : Prop :=
  exists l, der_length (N.of_nat (List.length content)) l /\ s = tag :: l ++ content.
(** X.690, section 8.3: an integer in two's complement, in as few bytes as it can: the first nine
    bits are not all the same. *)
Definition der_integer (z : Z) (b : str) : Prop :=
  match b with
  | [] => False
  | x :: r =>
      z = (Z.of_N (number b) - (if (128 <=? N_of_ascii x)%N then 256 ^ Z.of_nat (List.length b) else 0))%Z /\
      match r with
      | [] => True
      | y :: _ => ~ (N_of_ascii x = 0 /\ N_of_ascii y < 128) /\ ~ (N_of_ascii x = 255 /\ 128 <= N_of_ascii y)
      end
  end.
(** RFC 3279, section 2.2.3: Ecdsa-Sig-Value ::= SEQUENCE { r INTEGER, s INTEGER }. *)
Definition der_signature (r s : Z) (sig : str) : Prop :=
  exists a b ea eb, der_integer r a /\ der_integer s b /\ der_element "002" a ea /\ der_element "002" b eb /\
    der_element "048" (ea ++ eb) sig.
