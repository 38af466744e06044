(** What "the address is in the range" means, on bits. *)
From Verif Require Import Base.

(** Big-endian bits of a byte and of an address. *)
Definition byte_bits (b : N) : list bool :=
  map (fun i => N.testbit b i) [7;6;5;4;3;2;1;0]%N.

Definition bits (a : list N) : list bool := flat_map byte_bits a.

Definition is_bytes (a : list N) : Prop := Forall (fun b => (b < 256)%N) a.

(** An IPv4 address written in IPv6 form (::ffff:a.b.c.d) is the IPv4 address. *)
Definition family_view (a : list N) : list N :=
  match a with
  | [0;0;0;0;0;0;0;0;0;0;255;255;w;x;y;z]%N => [w;x;y;z]
  | _ => a
  end.

(** [a] is in the range of prefix length [ones] around [base]: same family and
    the same first [ones] bits. *)
Definition in_range (base : list N) (ones : nat) (a : list N) : Prop :=
  List.length (family_view a) = List.length base /\
  firstn ones (bits base) = firstn ones (bits (family_view a)).

(** An IPv4 address in IPv6 form. *)
Definition mapped (a : list N) : Prop :=
  exists w x y z, a = [0;0;0;0;0;0;0;0;0;0;255;255;w;x;y;z]%N.

(** Literals an operator writes: an IPv4 address or an IPv6 address (not in
    the ::ffff:a.b.c.d form) with a prefix length. *)
Definition cidr_ok (c : list N * nat) : Prop :=
  is_bytes (fst c) /\
  (List.length (fst c) = 4 \/ List.length (fst c) = 16 /\ ~ mapped (fst c)).
