(** What the bookkeeping should amount to. *)
From Verif Require Import Base AccountModel.

(** The connection was counted on its backend and not yet uncounted. *)
Definition counted (c : conn) : bool :=
  match ckind c, cpc c with
  | _, (HAdded | HArmed | HLooked | HEnded) => false
  | KTCP, HFirst => false
  | KQUIC, HFirst => true
  | _, _ => true
  end.
Definition uncounted (c : conn) : bool :=
  match ccb c with CbDone => cann c | _ => false end.

(** Connections of backend [b] that are counted and not yet uncounted. *)
Definition active (b : nat) (l : list conn) : nat :=
  List.length (filter (fun c => (cbk c =? b) && counted c && negb (uncounted c)) l).

(** Every connection is closed: its close callback has finished. *)
Definition all_closed (s : state) : Prop :=
  forall c, In c (conns s) -> ccb c = CbDone.

(** Histories in which nobody closes a connection while its handler is between
    looking up the backend and having accounted for it, and a handler whose
    connection was closed earlier goes no further. *)
Definition busy (h : hpc) : bool := match h with HLooked | HFirst => true | _ => false end.
Definition orderly_event (s : state) (e : event) : Prop :=
  match e with
  | EClose i => forall c, nth_error (conns s) i = Some c -> busy (cpc c) = false
  | ELookup i => forall c, nth_error (conns s) i = Some c -> ccb c = CbSet
  | _ => True
  end.
Fixpoint orderly (s : state) (tr : list event) : Prop :=
  match tr with
  | [] => True
  | e :: tr' => orderly_event s e /\
                match step s e with Some s' => orderly s' tr' | None => False end
  end.

Definition event_eqb_remove (i : nat) (e : event) : bool :=
  match e with ECbRemove j => j =? i | _ => false end.
Definition event_eqb_dec (i : nat) (e : event) : bool :=
  match e with ECbDec j => j =? i | _ => false end.
(** How often the close callback of connection [i] ran in a history. *)
Definition callbacks (i : nat) (tr : list event) : nat := List.length (filter (event_eqb_remove i) tr).
Definition decrements (i : nat) (tr : list event) : nat := List.length (filter (event_eqb_dec i) tr).

(** The connection has not been given a backend. *)
Definition no_backend_yet (c : conn) : bool :=
  match cpc c with HAdded | HArmed | HEnded => true | _ => false end.
