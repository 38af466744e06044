(** When a certificate is good for a server name: crypto/x509 matchHostnames, for
    names that are host names.  ASCII letters compare without case, and the first
    label of the certificate's name may be a wildcard. *)
From Verif Require Import Base CleanupModel.

Definition labels_match (pattern host : list str) : bool :=
  match pattern, host with
  | p :: ps, h :: hs =>
      (str_eqb p !"*" || str_eqb p h) && if list_eq_dec str_eq_dec ps hs then true else false
  | _, _ => false
  end.

Definition covers (pattern host : str) : bool :=
  labels_match (split_on "."%char (to_lower pattern)) (split_on "."%char (to_lower host)).

(** The certificate covers one of the names. *)
Definition in_use (names : list str) (c : leaf) : Prop :=
  exists n p, In n names /\ In p (lfNames c) /\ covers p n = true.

(** One of its names is, letter by letter, one of the names. *)
Definition listed (names : list str) (c : leaf) : Prop :=
  exists n, In n names /\ In n (lfNames c).
