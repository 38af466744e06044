(** What joining streams should amount to. *)
From Verif Require Import Base QuicModel.

Definition prefix (a b : str) : Prop := exists c, b = a ++ c.

(** Stream i of connection x, opened by the peer, is joined to stream j of
    connection y: a goroutine of the proxy copies between them. *)
Definition joined (s : state) (x : side) (i : nat) (y : side) (j : nat) : Prop :=
  exists h v f b, hs s h = Some v /\ hx v = x /\ hsrc v = i /\ y = other x /\ hp v = HBridge j f b.

(** Nobody aborted this stream and no deadline passed on it. *)
Definition untouched (t : stream) : Prop := reset t = false /\ stopped t = false /\ rexp t = false.

(** Both connections are up. *)
Definition up (s : state) : Prop := gone s CL = None /\ gone s BE = None.

(** Events in which the proxy, and not a peer, the network or a clock, acts. *)
Definition by_proxy (e : event) : bool :=
  match e with
  | PeerOpen _ _ | PeerSend _ _ _ | PeerFin _ _ | PeerReset _ _ | PeerStop _ _ | Expire _ _ | ConnGone _ _ => false
  | _ => true
  end.
(** The proxy has nothing left to do until something else acts. *)
Definition at_rest (cwd : dir -> bool) (s : state) : Prop :=
  forall e, by_proxy e = true -> step cwd s e = None.

(** The backend has ended every bidirectional stream. *)
Definition backend_streams_over (s : state) : Prop :=
  forall i t, strs s BE i = Some t -> skd t = Bidi -> (fin t = true \/ reset t = true).
