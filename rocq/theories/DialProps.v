(** C13: backend addresses are used in turn. *)
From Verif Require Import Base DialModel DialProofs.

(** C13.  Successive dials without failures use the addresses in cyclic order... *)
Theorem C13_cyclic_order : forall n next oks, next < n ->
  (forall ok k i, In ok oks -> ok k i = true) ->
  dials n next oks = map Some (map (fun k => (next + k) mod n) (seq 0 (List.length oks))).
Proof. exact dials_cyclic. Qed.
Print Assumptions C13_cyclic_order.

(** ... so over k*n of them each address is used exactly k times. *)
Theorem C13_equal_share : forall n k next i, i < n ->
  count_occ Nat.eq_dec (map (fun j => (next + j) mod n) (seq 0 (k * n))) i = k.
Proof. intros n k next i Hi. apply (cyclic_count n k next i); lia. Qed.
Print Assumptions C13_equal_share.

(** C13.  A dial that is not disturbed by others fails only after trying every
    address exactly once, each time in vain. *)
Theorem C13_error_after_all : forall n ok next nx tried, next < n ->
  dial n ok next = (None, nx, tried) ->
  (forall i, i < n -> count_occ Nat.eq_dec tried i = 1) /\
  (forall j, j < n -> ok j ((next + j) mod n) = false).
Proof. intros n ok next nx tried H1 H2. apply (dial_error n ok next nx tried H1 H2). Qed.
Print Assumptions C13_error_after_all.

(** C13.  Otherwise it uses the first address, in cyclic order, that answers, and
    the next dial starts with the one after it. *)
Theorem C13_first_that_answers : forall n ok next i nx tried, next < n ->
  dial n ok next = (Some i, nx, tried) ->
  exists t, t < n /\ i = (next + t) mod n /\
    tried = map (fun k => (next + k) mod n) (seq 0 (S t)) /\ nx = (i + 1) mod n /\
    ok t i = true /\ forall j, j < t -> ok j ((next + j) mod n) = false.
Proof. exact dial_success. Qed.
Print Assumptions C13_first_that_answers.

Example C13_example :
  dials 3 1 [(fun _ _ => true); (fun _ i => negb (i =? 2)); (fun _ _ => true); (fun _ _ => false); (fun _ _ => true)] =
    [Some 1; Some 0; Some 1; None; Some 2].
Proof. vm_compute. reflexivity. Qed.

(** C13.  With any interleaving of concurrent dials, the attempts taken together
    still go through the addresses in cyclic order, and each dial makes at most
    n attempts and fails only after n. *)
Theorem C13_concurrent_attempts_cyclic_partial : forall n evs s l, 0 < n ->
  crun n cinit evs = Some (s, l) ->
  l = map (fun k => k mod n) (seq 0 (List.length l)) /\
  (forall t seen, threads s t = Failed seen -> List.length seen = n).
Proof.
  intros n evs s l Hn H. split.
  - exact (crun_cyclic n evs Hn cinit s l Hn H).
  - intros t seen Ht. assert (H' := crun_tries n evs Hn cinit s l (fun _ => I) H t).
    rewrite Ht in H'. exact H'.
Qed.
Print Assumptions C13_concurrent_attempts_cyclic_partial.

(** C13 in full is false for concurrent dials: with two addresses, of which the
    second one works, a dial whose attempts are interleaved with another one
    tries the first address twice and fails without having tried the second. *)
Theorem C13_concurrent_dial_refuted :
  exists evs s, option_map fst (crun 2 cinit evs) = Some s /\
    threads s 0 = Failed [0; 0] /\ threads s 1 = Connected 1 [1].
Proof.
  exists [Begin 0; Begin 1; Try 0 false; Try 1 true; Try 0 false]. eexists. vm_compute. repeat split.
Qed.
Print Assumptions C13_concurrent_dial_refuted.
