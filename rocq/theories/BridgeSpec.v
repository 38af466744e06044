From Verif Require Import Base BridgeModel.

Definition prefix (a b : list ascii) : Prop := exists c, b = a ++ c.

(** The history contains something that is not a normal exchange: a peer that
    disappears, a half-close timeout, or a failing half-close. *)
Definition fault (e : event) : bool :=
  match e with
  | PeerReset _ | Expire _ => true
  | CloseWrite _ ok | CloseRead _ ok => negb ok
  | _ => false
  end.

(** Events in which the proxy, and not a peer or a clock, acts. *)
Definition by_proxy (e : event) : bool :=
  match e with
  | PeerSend _ _ | PeerFin _ | PeerReset _ | Expire _ => false
  | _ => true
  end.
(** The proxy has nothing left to do until a peer or a clock acts. *)
Definition at_rest (cwd : side -> bool) (s : state) : Prop :=
  forall e, by_proxy e = true -> step cwd s e = None.
