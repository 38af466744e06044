(** What the bandwidth limits mean, in terms of what is seen on the connections. *)
From Coq Require Import ZArith List Bool.
From Verif Require Import LimitModel.
Import ListNotations.
Local Open Scope Z_scope.

(** The clock does not go back, and starts at [t0]. *)
Fixpoint in_order {A : Type} (t0 : Z) (h : list (Z * A)) : Prop :=
  match h with
  | [] => True
  | (t, _) :: h => t0 <= t /\ in_order t h
  end.

(** All the events are at time [T] or before. *)
Definition until {A : Type} (T : Z) (h : list (Z * A)) : Prop := Forall (fun x => fst x <= T) h.

(** The bytes that all the connections moved. *)
Fixpoint moved (out : list (Z * note)) : Z :=
  match out with
  | [] => 0
  | (_, Moved _ k) :: out => k + moved out
  | _ :: out => moved out
  end.

(** Nobody gives up a wait. *)
Definition patient (out : list (Z * note)) : Prop :=
  Forall (fun x => match snd x with GaveUp _ => False | _ => True end) out.

(** The buffers, in total, of the calls that satisfy [p]. *)
Fixpoint sizes (p : waiter -> bool) (w : list waiter) : Z :=
  match w with
  | [] => 0
  | x :: w => (if p x then wSize x else 0) + sizes p w
  end.

(** The calls that are past their wait at [S] and have not moved their bytes: they
    wait for the peer. *)
Definition prepaid (s : state) (t : Z) : Z := sizes (fun w => wAct w <=? t) (waiting s).

(** The calls that wait for the limiter at time [t]. *)
Definition queued (s : state) (t : Z) : Z := sizes (fun w => t <? wAct w) (waiting s).

(** The burst of a limit of [r] bytes per second. *)
Definition burst_of (r : Z) : Z := Z.max r 131072.

(** [b] bytes are no more than a burst and [d] nanoseconds at [r] bytes per second
    allow. *)
Definition within (r d b : Z) : Prop := b * 1000000000 <= burst_of r * 1000000000 + r * d.

(** Connection [i] was closed during [h]; a QUIC stream also by closing its write
    side, see C93_quic_half_close_refuted. *)
Definition ended (quic : nat -> bool) (i : nat) (h : list (Z * event)) : Prop :=
  exists t, In (t, CloseConn i) h \/ (quic i = true /\ In (t, HalfClose i) h).

(** The history [h] of a group with limit [r], up to time [t]. *)
Definition history (r : Z) (quic : nat -> bool) (t : Z) (h : list (Z * event))
    (s : state) (out : list (Z * note)) : Prop :=
  0 <= t /\ in_order 0 h /\ until t h /\ run quic (fresh r) h = Some (s, out).

(** What follows between [t1] and [t2]. *)
Definition sequel (quic : nat -> bool) (s1 : state) (t1 t2 : Z) (h : list (Z * event))
    (s2 : state) (out : list (Z * note)) : Prop :=
  t1 <= t2 /\ in_order t1 h /\ until t2 h /\ run quic s1 h = Some (s2, out).

(** No call begins during [h]. *)
Definition no_calls (h : list (Z * event)) : Prop :=
  Forall (fun x => match snd x with Call _ _ => False | _ => True end) h.

(** The buffers, in total, of the calls in progress in [s] that were given up in
    [out]. *)
Definition given_up (s : state) (out : list (Z * note)) : Z :=
  sizes (fun w => existsb (fun x => match snd x with GaveUp i => Nat.eqb i (wConn w) | _ => false end) out) (waiting s).
