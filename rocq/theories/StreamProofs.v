From Verif Require Import Base StreamModel StreamSpec.

Lemma prefix_refl a : prefix a a. Proof. exists []. now rewrite app_nil_r. Qed.
Lemma prefix_app a b c : prefix a b -> prefix a (b ++ c).
Proof. intros [d ->]. exists (d ++ c). now rewrite app_assoc. Qed.
Lemma prefix_mid a b c : prefix a (a ++ b ++ c).
Proof. now exists (b ++ c). Qed.
Lemma prefix_firstn a b c n : prefix (a ++ firstn n b) (a ++ b ++ c).
Proof.
  exists (skipn n b ++ c). rewrite <- app_assoc, (app_assoc (firstn n b)), firstn_skipn. reflexivity.
Qed.

Definition up_ok (s : state) : Prop :=
  match up s with
  | Copying buf => sent (cl s) = bgot (be s) ++ buf ++ unread (cl s) /\ bended (be s) = false
  | CopyDone => fin (cl s) = true /\ bgot (be s) = sent (cl s) /\ bended (be s) = false
  | WriteClosed => fin (cl s) = true /\ bgot (be s) = sent (cl s) /\ bended (be s) = true
  | Finished => prefix (bgot (be s)) (sent (cl s)) /\
      (bended (be s) = true -> fin (cl s) = true /\ bgot (be s) = sent (cl s)) /\
      (bended (be s) = false -> bclosed (be s) = true)
  end.
Definition down_ok (s : state) : Prop :=
  match down s with
  | Copying buf => bsent (be s) = got (cl s) ++ buf ++ bunread (be s)
  | CopyDone => bfin (be s) = true /\ got (cl s) = bsent (be s)
  | WriteClosed => bfin (be s) = true /\ got (cl s) = bsent (be s) /\ wdown (cl s) = true
  | Finished => prefix (got (cl s)) (bsent (be s)) /\
      (bclosed (be s) = false -> bfin (be s) = true /\ got (cl s) = bsent (be s) /\ wdown (cl s) = true)
  end.

Ltac bools := repeat match goal with
  | H : _ || _ = false |- _ => apply orb_false_elim in H; destruct H
  | H : _ && _ = true |- _ => apply andb_prop in H; destruct H
  | H : negb _ = true |- _ => apply negb_true_iff in H
  | H : negb _ = false |- _ => apply negb_false_iff in H
  end.
Ltac inv_step H :=
  unfold step in H; cbv zeta in H;
  repeat match type of H with
    | match ?e with _ => _ end = Some _ => destruct e eqn:?; try discriminate H
    end; injection H as H; match type of H with _ = ?z => subst z end; bools.
Ltac fields :=
  cbn [ph cl be up down qrecv qsent crecv csent mk count_recv count_sent
       uni sent unread fin aborted stopped gone got ended refused rdl rexp wdown readDone writeDone listed
       upd c_send c_fin c_abort c_stop c_gone c_read mark_read_done mark_write_done close_stream close_read
       c_write c_deadline bsent bunread bfin bbroken bgot bended bclosed bdl bexp
       b_in b_out b_write b_end b_close b_deadline] in *.
Ltac ifs := repeat match goal with
  | |- context [if ?b then _ else _] => destruct b eqn:?; fields
  end; bools.

Lemma step_ok sc cc s e s' : up_ok s -> down_ok s -> step sc cc s e = Some s' -> up_ok s' /\ down_ok s'.
Proof.
  intros HU HD H. destruct e; inv_step H.
  all: unfold up_ok, down_ok in *; fields.
  all: repeat match goal with E : up ?s0 = _ |- _ => rewrite E in *; fields | E : down ?s0 = _ |- _ => rewrite E in *; fields end.
  all: ifs; fields.
  all: repeat match goal with E : up ?s0 = _ |- _ => rewrite E in *; fields | E : down ?s0 = _ |- _ => rewrite E in *; fields end.
  all: repeat match goal with
    | |- context [match up ?s0 with _ => _ end] => destruct (up s0) eqn:?; fields
    | |- context [match down ?s0 with _ => _ end] => destruct (down s0) eqn:?; fields
    end.
  all: try discriminate.
  all: intuition (try congruence; auto using prefix_app, prefix_refl).
  all: try (match goal with H : sent _ = _ |- _ => rewrite H end).
  all: try (match goal with H : bsent _ = _ |- _ => rewrite H end).
  all: try (match goal with H : unread _ = _ |- _ => rewrite H end).
  all: try (match goal with H : bunread _ = _ |- _ => rewrite H end).
  all: rewrite ?app_nil_r, ?app_nil_l, ?firstn_skipn, <- ?app_assoc; try reflexivity.
  all: try (match goal with H : got _ = _ |- _ => rewrite H end; apply prefix_refl).
  all: try (match goal with H : bgot _ = _ |- _ => rewrite H end; apply prefix_refl).
  all: try (eexists; reflexivity).
  all: try apply prefix_firstn.
  all: try (apply prefix_refl).
  all: try match goal with |- prefix (?g ++ firstn ?n (?a :: ?l)) (?g ++ ?a :: ?l ++ ?u) =>
         exact (prefix_firstn g (a :: l) u n) end.
  all: try (match goal with |- context [if ?b then _ else _] => idtac b end).
  all: idtac.
Qed.

(** The flags of the stream. *)
Definition flags_ok (s : state) : Prop :=
  listed (cl s) = negb (readDone (cl s) && writeDone (cl s)) /\
  writeDone (cl s) = wdown (cl s) /\
  (uni (cl s) = true -> ended (cl s) = false /\ got (cl s) = []) /\
  (ended (cl s) = true -> wdown (cl s) = true) /\
  (wdown (cl s) = true -> ended (cl s) = true \/ uni (cl s) = true \/ stopped (cl s) = true \/ gone (cl s) = true) /\
  (readDone (cl s) = true -> (fin (cl s) = true /\ unread (cl s) = []) \/ aborted (cl s) = true \/ gone (cl s) = true \/ rexp (cl s) = true) /\
  (match up s with CopyDone | WriteClosed => readDone (cl s) = true /\ fin (cl s) = true /\ unread (cl s) = [] | _ => True end) /\
  (up s = Finished -> bclosed (be s) = false -> bdl (be s) = true) /\
  (bclosed (be s) = true -> (up s = Finished \/ down s = Finished) /\ wdown (cl s) = true) /\
  (match down s with WriteClosed | Finished => wdown (cl s) = true | _ => True end) /\
  (ph s = Dialing -> up s = Copying [] /\ down s = Copying []) /\
  (ph s = Returned -> (up s = Finished /\ down s = Finished /\ bclosed (be s) = true) \/ (up s = Copying [] /\ down s = Copying [])) /\
  (refused (cl s) = true -> False).

Lemma flags_init u : flags_ok (init u).
Proof. unfold flags_ok. cbn. repeat split; intros; try discriminate; auto. Qed.

Lemma step_uni sc cc s e s' : step sc cc s e = Some s' -> uni (cl s') = uni (cl s).
Proof. intros H. destruct e; inv_step H; fields; repeat match goal with |- context [if ?b then _ else _] => destruct b; fields end; reflexivity. Qed.

Lemma end_uni (e u st g : bool) (l : list ascii) : (u = true -> e = false /\ l = []) -> u = true ->
  e || negb (u || st || g) = false /\ l = [].
Proof. intros H U. destruct (H U) as [-> ->]. subst u. auto. Qed.
Lemma end_or (e u st g : bool) : e || negb (u || st || g) = true \/ u = true \/ st = true \/ g = true.
Proof. destruct e, u, st, g; auto. Qed.

Lemma step_flags sc cc s e s' : flags_ok s -> step sc cc s e = Some s' -> flags_ok s'.
Proof.
  intros (F1 & F2 & F3 & F4 & F5 & F6 & F7 & F8 & F9 & F10 & F11 & F12 & F13) H.
  destruct e; inv_step H.
  all: unfold flags_ok, c_read_fails, c_write_fails in *; fields.
  all: repeat match goal with E : up ?s0 = _ |- _ => rewrite E in *; fields | E : down ?s0 = _ |- _ => rewrite E in *; fields | E : ph ?s0 = _ |- _ => rewrite E in *; fields end.
  all: ifs; fields.
  all: bools.
  all: repeat match goal with |- _ /\ _ => split end; try assumption; try (intros; discriminate).
  all: repeat match goal with
    | |- context [match up ?s0 with _ => _ end] => destruct (up s0) eqn:?; fields
    | |- context [match down ?s0 with _ => _ end] => destruct (down s0) eqn:?; fields
    end.
  all: repeat match goal with |- _ /\ _ => split end; intros; try assumption.
  all: try discriminate; auto.
  all: try solve [intuition (try congruence)].
  all: try solve [apply end_or|apply end_uni; assumption].
  all: repeat match goal with H : _ || _ = true |- _ => apply orb_prop in H; destruct H end; auto.
  all: try solve [rewrite F1; destruct (readDone (cl s)), (writeDone (cl s)); auto; discriminate].
  all: try solve [rewrite app_nil_r; apply end_uni; assumption].
  all: try solve [destruct (F6 H4) as [[X Y]|X]; [left; rewrite Y; split; [exact X|destruct n; reflexivity]|right; exact X]].
  all: destruct F7 as (_ & X & Y); rewrite X, Y in *; cbn in *; try discriminate; auto.
Qed.
