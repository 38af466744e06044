(** What the list of streams should be. *)
From Verif Require Import Base StreamListModel.

(** Calls that have returned. *)
Definition returned (p : pc) : Prop := p = Done \/ (exists i, p = Opened i) \/ exists l, p = Listed l.
Definition quiet (s : state) : Prop := forall th, In th (threads s) -> returned (t_pc th).
(** A call of this kind has returned. *)
Definition has_returned (s : state) (c : call) : Prop := exists th, In th (threads s) /\ t_call th = c /\ returned (t_pc th).
Definition was_called (s : state) (c : call) : Prop := exists th, In th (threads s) /\ t_call th = c.
(** Stream [i] has been returned by one of the calls that return streams. *)
Definition open_returned (s : state) (i : nat) : Prop := exists th, In th (threads s) /\ t_pc th = Opened i.
(** Both halves have been ended: the calls have returned. *)
Definition ended (s : state) (i : nat) : Prop := has_returned s (EndRead i) /\ has_returned s (EndWrite i).
(** ... or have at least been made. *)
Definition ending (s : state) (i : nat) : Prop := was_called s (EndRead i) /\ was_called s (EndWrite i).
(** [i] comes before [j]. *)
Definition before (i j : nat) (l : list nat) : Prop := exists a b c, l = a ++ i :: b ++ j :: c.
