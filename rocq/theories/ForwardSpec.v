(** What the forward rate limit means. *)
From Coq Require Import ZArith List Bool.
From Verif Require Import LimitModel LimitSpec ForwardModel.
Import ListNotations.
Local Open Scope Z_scope.

(** How many connections and requests on connections of the kinds [p] were forwarded. *)
Fixpoint forwarded (p : kind -> bool) (out : list (Z * fnote)) : Z :=
  match out with
  | [] => 0
  | (_, Forwarded k) :: out => (if p k then 1 else 0) + forwarded p out
  | _ :: out => forwarded p out
  end.

(** Connections that are forwarded as a whole. *)
Definition connections (k : kind) : bool :=
  match k with Tunnel | QuicTunnel => true | _ => false end.

(** The same, and the requests of HTTP/3. *)
Definition connections_and_h3 (k : kind) : bool :=
  match k with Tunnel | QuicTunnel | H3 => true | _ => false end.

(** All of them. *)
Definition anything (k : kind) : bool := true.

(** Nobody leaves while waiting for the limiter. *)
Definition all_wait (out : list (Z * fnote)) : Prop :=
  Forall (fun x => snd x <> Abandoned) out.

(** The history [h] of a backend with forwardRateLimit [r], up to time [t]. *)
Definition served (r t : Z) (h : list (Z * fevent)) (s : fw) (out : list (Z * fnote)) : Prop :=
  0 <= t /\ in_order 0 h /\ until t h /\ frun (new_backend r) h = Some (s, out).

(** What follows between [t1] and [t2]. *)
Definition then_served (s1 : fw) (t1 t2 : Z) (h : list (Z * fevent)) (s2 : fw)
    (out : list (Z * fnote)) : Prop :=
  t1 <= t2 /\ in_order t1 h /\ until t2 h /\ frun s1 h = Some (s2, out).

(** Those that may go ahead at time [t] and have not been forwarded. *)
Definition ready (s : fw) (t : Z) : Z := prepaid (gate s) t.

(** Those that have to wait at time [t]. *)
Definition in_queue (s : fw) (t : Z) : Z := queued (gate s) t.

(** [n] are no more than a burst of [r] and [d] nanoseconds at [r] per second allow. *)
Definition at_rate (r d n : Z) : Prop := n * 1000000000 <= r * 1000000000 + r * d.

(** No two requests of a connection look at its flag before one of them sets it. *)
Fixpoint one_at_a_time (s : fw) (h : list (Z * fevent)) : Prop :=
  Forall (fun c => (cLook c <= 1)%nat) (conns s) /\
  match h with
  | [] => True
  | (t, e) :: h => match fstep s t e with Some (s, _) => one_at_a_time s h | None => True end
  end.
