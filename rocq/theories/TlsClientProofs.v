From Verif Require Import Base HttpModel HeadersModel PasskeyHttpModel OcspModel HttpProofs2 TlsClientModel TlsClientSpec.
Open Scope nat_scope.

Lemma prefix_refl a : prefix a a. Proof. exists []. now rewrite app_nil_r. Qed.
Lemma prefix_app a b c : prefix a b -> prefix a (b ++ c).
Proof. intros [d ->]. exists (d ++ c). now rewrite app_assoc. Qed.

Ltac bools := repeat match goal with
  | H : _ || _ = false |- _ => apply orb_false_elim in H; destruct H
  | H : _ && _ = true |- _ => apply andb_prop in H; destruct H
  | H : negb _ = true |- _ => apply negb_true_iff in H
  | H : negb _ = false |- _ => apply negb_false_iff in H
  end.
Ltac inv_step H :=
  unfold step in H; cbv zeta in H;
  repeat match type of H with
    | match ?e with _ => _ end = Some _ => destruct e eqn:?; try discriminate H
    end; injection H as H; match type of H with _ = ?z => subst z end; bools.
Ltac fields :=
  cbn [s_in s_unread s_eof s_inerr up flight endq r_got r_end r_sent r_unread r_fin r_cut out down logged closed status
       with_in with_up with_net with_down] in *.

(** Everything that has come in is somewhere, in order. *)
Record inv (quic : bool) (s : state) : Prop := {
  i_up : match up s with
         | Copying buf => s_in s = r_got s ++ flight s ++ buf ++ s_unread s /\ endq s = false
         | Finished => exists lost, s_in s = r_got s ++ flight s ++ lost /\
             (lost = [] /\ (s_eof s = true \/ s_inerr s = true) \/ r_cut s = true)
         end;
  i_end : r_end s = true -> endq s = true /\ flight s = [];
  i_ended : r_end s = true -> s_in s = r_got s /\ (s_eof s = true \/ s_inerr s = true);
  i_down : exists rest, r_sent s = out s ++ (match down s with Copying buf => buf | Finished => [] end) ++ rest /\
             (down s <> Finished -> rest = r_unread s) /\ (down s = Finished -> (rest = [] /\ r_fin s = true) \/ (r_cut s = true /\ logged s = true));
  i_status : match down s with Finished => status s = Some 0 /\ closed s = negb quic | _ => status s = None /\ closed s = false end;
  i_eof : s_eof s = true -> s_inerr s = false;
  i_fin : r_fin s = true -> r_cut s = false;
  i_log : logged s = true -> s_inerr s = true \/ r_cut s = true
}.

Lemma inv_init q : inv q init.
Proof.
  constructor; cbn; try discriminate; auto. exists []. split; [reflexivity|]. split; [reflexivity|discriminate].
Qed.

Lemma fs n (l : list ascii) : firstn n l ++ skipn n l = l. Proof. apply firstn_skipn. Qed.

Lemma step_inv q s e s' : inv q s -> step q s e = Some s' -> inv q s'.
Proof.
  intros V H. destruct V as [V1 V2 V3 (rest & V4 & V5 & V6) V7 V8 V9 V10].
  destruct e; inv_step H; constructor; fields.
  all: repeat match goal with E : up ?s0 = _ |- _ => rewrite E in *; clear E; fields | E : down ?s0 = _ |- _ => rewrite E in *; clear E; fields end.
  all: try assumption; try discriminate.
  all: try solve [intuition congruence].
  all: try solve [exists rest; split; [assumption|]; split; [assumption|]; intuition congruence].
  all: try solve [exists rest; auto].
  - destruct (up s).
    + destruct V1 as [V1 E]. rewrite V1, !app_assoc. split; [reflexivity|exact E].
    + destruct V1 as (lost & V1 & [[_ L]|L]); [destruct L; congruence|]. exists (lost ++ d). rewrite V1, !app_assoc. split; [reflexivity|right; exact L].
  - destruct (up s); [exact V1|]. destruct V1 as (lost & V1 & L). exists lost. split; [exact V1|]. destruct L as [[L _]|L]; auto.
  - destruct (up s); [exact V1|]. destruct V1 as (lost & V1 & L). exists lost. split; [exact V1|]. destruct L as [[L _]|L]; auto.
  - exists (rest ++ d). rewrite V4, !app_assoc. split; [reflexivity|]. split; [intros N; now rewrite (V5 N)|].
    intros D. destruct (V6 D) as [[_ F]|F]; [congruence|right; exact F].
  - destruct (up s); [exact V1|]. destruct V1 as (lost & V1 & L). exists lost. split; [exact V1|]. auto.
  - assert (A : forall l, (r_got s ++ firstn n (flight s)) ++ skipn n (flight s) ++ l = r_got s ++ flight s ++ l).
    { intros l. rewrite <- app_assoc, (app_assoc (firstn n (flight s))), fs. reflexivity. }
    destruct (up s); [rewrite A; exact V1|]. destruct V1 as (lost & V1 & L). exists lost. rewrite A. auto.
  - intros R. destruct (V2 R) as [E F]. rewrite F, skipn_nil. auto.
  - intros R. destruct (V2 R) as [E F]. rewrite F, firstn_nil, app_nil_r. exact (V3 R).
  - intros _. destruct (up s); [destruct V1; congruence|]. destruct V1 as (lost & V1 & [[L1 L2]|L]); [|congruence].
    subst lost. cbn [app] in V1. rewrite app_nil_r in V1. split; [exact V1|exact L2].
  - rewrite fs. exact V1.
  - destruct V1 as [V1 E]. rewrite V1. cbn [app]. rewrite <- !app_assoc. split; [reflexivity|exact E].
  - destruct V1 as [V1 E]. exists []. auto.
  - destruct V1 as [V1 E]. exists []. auto.
  - destruct V1 as [V1 E]. eexists. split; [exact V1|right; assumption].
  - exists (skipn n (r_unread s)). rewrite fs. rewrite V5 in V4 by discriminate. split; [exact V4|]. split; [reflexivity|discriminate].
  - exists (r_unread s). rewrite V5 in V4 by discriminate. rewrite V4, <- app_assoc. split; [reflexivity|]. split; [reflexivity|discriminate].
  - exists []. rewrite V5 in V4 by discriminate. split; [exact V4|]. auto.
  - exists (r_unread s). rewrite V5 in V4 by discriminate. split; [exact V4|]. split; [reflexivity|auto].
Qed.
Lemma run_inv q tr : forall s s', inv q s -> run q s tr = Some s' -> inv q s'.
Proof.
  induction tr as [|e tr IH]; cbn [run]; intros s s' V H; [injection H as <-; exact V|].
  destruct (step q s e) as [s1|] eqn:E; [|discriminate]. exact (IH _ _ (step_inv _ _ _ _ V E) H).
Qed.
Lemma reach q tr s : run q init tr = Some s -> inv q s.
Proof. apply run_inv, inv_init. Qed.

(** Rest. *)
Lemma rest_up q s : status s = None -> at_rest q s -> r_cut s = false ->
  up s = Finished \/ (up s = Copying [] /\ s_unread s = [] /\ s_eof s = false /\ s_inerr s = false).
Proof.
  intros A R C. destruct (up s) as [[|a buf]|] eqn:U; [right|exfalso|left; reflexivity].
  - destruct (s_unread s) as [|x l] eqn:X.
    + pose proof (R UEof eq_refl) as Q. pose proof (R UReadErr eq_refl) as P. cbn in Q, P. rewrite U, X, A in Q, P. cbn in Q, P.
      destruct (s_eof s); [discriminate Q|]. destruct (s_inerr s); [discriminate P|]. auto.
    + pose proof (R (URead 1) eq_refl) as Q. cbn in Q. rewrite U, X, A in Q. discriminate Q.
  - pose proof (R UWrite eq_refl) as Q. cbn in Q. rewrite U, A, C in Q. discriminate Q.
Qed.
Lemma rest_down q s : inv q s -> status s = None -> at_rest q s ->
  down s = Copying [] /\ r_unread s = [] /\ r_fin s = false /\ r_cut s = false.
Proof.
  intros V A R. destruct V. destruct (down s) as [[|a buf]|] eqn:U.
  - destruct (r_unread s) as [|x l] eqn:X.
    + pose proof (R DEof eq_refl) as Q. pose proof (R DReadErr eq_refl) as P. cbn in Q, P. rewrite U, A in P. rewrite U, X, A in Q. cbn in Q, P.
      destruct (r_fin s); [discriminate Q|]. destruct (r_cut s); [discriminate P|]. auto.
    + pose proof (R (DRead 1) eq_refl) as Q. cbn in Q. rewrite U, X, A in Q. discriminate Q.
  - exfalso. pose proof (R DWrite eq_refl) as Q. cbn in Q. rewrite U, A in Q. discriminate Q.
  - destruct i_status0. congruence.
Qed.

Definition pc_size (p : pc) : nat := match p with Copying [] => 1 | Copying _ => 2 | Finished => 0 end.
Definition size (s : state) : nat := 2 * List.length (s_unread s) + 2 * List.length (r_unread s) + pc_size (up s) + pc_size (down s).
Lemma step_size q s e s' : by_client e = true -> step q s e = Some s' -> size s' < size s.
Proof.
  intros B H. destruct e; try discriminate B; inv_step H; unfold size; fields.
  all: repeat match goal with E : up ?s0 = _ |- _ => rewrite E in *; clear E; fields | E : down ?s0 = _ |- _ => rewrite E in *; clear E; fields end.
  all: repeat match goal with E : (_ <=? _) = true |- _ => apply Nat.leb_le in E | E : (_ =? 0) = false |- _ => apply Nat.eqb_neq in E end.
  all: rewrite ?skipn_length.
  all: try match goal with |- context [firstn ?n ?l] => destruct (firstn n l) eqn:? end; cbn [pc_size].
  all: try lia.
  all: repeat match goal with E : s_unread _ = [] |- _ => rewrite E | E : r_unread _ = [] |- _ => rewrite E end; cbn; try lia.
Qed.
Lemma run_size q tr : forall s s', run q s tr = Some s' -> forallb by_client tr = true -> List.length tr + size s' <= size s.
Proof.
  induction tr as [|e tr IH]; cbn [run forallb List.length]; intros s s' H B.
  - injection H as <-. lia.
  - apply andb_prop in B. destruct B as [B1 B2]. destruct (step q s e) as [s1|] eqn:E; [|discriminate].
    pose proof (step_size _ _ _ _ B1 E). specialize (IH _ _ H B2). lia.
Qed.

(** The address. *)
Lemma hc_false c s : ~ List.In c s -> has_char c s = false.
Proof. apply has_char_false. Qed.
Lemma lit_colon : lit ":" = [colon]. Proof. reflexivity. Qed.

Lemma address_plain h p : plain h -> plain p -> host_port (h ++ lit ":" ++ p) = (h, p) /\ host_port h = (h, lit "443").
Proof.
  intros (H1 & H2 & H3) (P1 & P2 & P3). split.
  - assert (S : split_host_port (h ++ colon :: p) = Some h).
    { unfold split_host_port. rewrite (cut_last_at colon h p P1).
      assert (B1 : has_char "[" (h ++ colon :: p) = false).
      { apply hc_false. intros I. apply in_app_iff in I. destruct I as [I|[I|I]]; [auto|discriminate I|auto]. }
      assert (B2 : has_char "]" (h ++ colon :: p) = false).
      { apply hc_false. intros I. apply in_app_iff in I. destruct I as [I|[I|I]]; [auto|discriminate I|auto]. }
      rewrite B1, B2, (hc_false colon h H1). destruct h as [|c h]; [reflexivity|]. cbn [app].
      destruct (Ascii.eqb c "[") eqn:E; [apply Ascii.eqb_eq in E; subst c; exfalso; apply H2; now left|reflexivity]. }
    unfold host_port, port_of. change (lit ":" ++ p) with (colon :: p). rewrite S, (cut_last_at colon h p P1). reflexivity.
  - unfold host_port, split_host_port. rewrite (cut_last_none colon h H1). reflexivity.
Qed.

Lemma address_v6 a b c p : plain c -> plain p -> ~ List.In "["%char (a ++ b) -> ~ List.In "]"%char (a ++ b) ->
  let h := a ++ lit ":" ++ b ++ lit ":" ++ c in
  host_port (lit "[" ++ h ++ lit "]:" ++ p) = (h, p) /\ host_port h = (h, lit "443").
Proof.
  intros (C1 & C2 & C3) (P1 & P2 & P3) N1 N2 h. subst h.
  change (lit ":" ++ b ++ lit ":" ++ c) with (colon :: b ++ colon :: c).
  set (h := a ++ colon :: b ++ colon :: c).
  assert (Hb : ~ List.In "["%char h).
  { subst h. intros I. apply in_app_iff in I. destruct I as [I|[I|I]]; [apply N1, in_app_iff; auto|discriminate I|].
    apply in_app_iff in I. destruct I as [I|[I|I]]; [apply N1, in_app_iff; auto|discriminate I|auto]. }
  assert (Hc : ~ List.In "]"%char h).
  { subst h. intros I. apply in_app_iff in I. destruct I as [I|[I|I]]; [apply N2, in_app_iff; auto|discriminate I|].
    apply in_app_iff in I. destruct I as [I|[I|I]]; [apply N2, in_app_iff; auto|discriminate I|auto]. }
  split.
  - assert (L : forall x, lit "[" ++ h ++ lit "]:" ++ x = ("["%char :: h ++ ["]"%char]) ++ colon :: x).
    { intros x. cbn [lit app]. rewrite <- app_assoc. reflexivity. }
    assert (S : split_host_port (lit "[" ++ h ++ lit "]:" ++ p) = Some h).
    { unfold split_host_port. rewrite L at 1. rewrite (cut_last_at colon _ p P1).
      change (lit "[" ++ h ++ lit "]:" ++ p) with ("["%char :: h ++ "]"%char :: colon :: p).
      cbn [Ascii.eqb]. change (Ascii.eqb "[" "[") with true. cbv beta iota. rewrite (cut_at "]"%char h (colon :: p) Hc).
      change (lit "]") with ["]"%char]. cbn [app]. rewrite str_eqb_refl.
      assert (B1 : has_char "[" (h ++ "]"%char :: colon :: p) = false).
      { apply hc_false. intros I. apply in_app_iff in I. destruct I as [I|[I|[I|I]]]; [auto|discriminate I|discriminate I|auto]. }
      assert (B2 : has_char "]" (colon :: p) = false).
      { apply hc_false. intros [I|I]; [discriminate I|auto]. }
      rewrite B1, B2. reflexivity. }
    unfold host_port, port_of. rewrite S. rewrite L, (cut_last_at colon _ p P1). reflexivity.
  - unfold host_port, split_host_port.
    assert (L : h = (a ++ colon :: b) ++ colon :: c) by (subst h; rewrite <- app_assoc; reflexivity).
    rewrite L at 1. rewrite (cut_last_at colon _ c C1).
    assert (B : has_char colon (a ++ colon :: b) = true) by (apply has_char_spec, in_app_iff; right; now left). rewrite B. cbn [orb].
    destruct h as [|x h'] eqn:E; [reflexivity|]. destruct (Ascii.eqb x "[") eqn:X; [|reflexivity].
    apply Ascii.eqb_eq in X. subst x. exfalso. apply Hb. now left.
Qed.

Lemma address_brackets h : ~ List.In "]"%char h ->
  host_port (lit "[" ++ h ++ lit "]") = (lit "[" ++ h ++ lit "]", lit "443").
Proof.
  intros H. unfold host_port. replace (split_host_port (lit "[" ++ h ++ lit "]")) with (@None str); [reflexivity|]. symmetry.
  unfold split_host_port. pose proof (cut_last_spec colon (lit "[" ++ h ++ lit "]")) as S.
  destruct (cut_last colon (lit "[" ++ h ++ lit "]")) as [[x y]|]; [|reflexivity]. destruct S as [S _].
  change (lit "[" ++ h ++ lit "]") with ("["%char :: h ++ ["]"%char]) in *. change (Ascii.eqb "[" "[") with true. cbv beta iota.
  rewrite (cut_at "]"%char h [] H).
  destruct (str_eqb x (("["%char :: h) ++ lit "]")) eqn:E; [|reflexivity]. apply str_eqb_spec in E. exfalso.
  apply (f_equal (@List.length _)) in S. subst x. rewrite !app_length in S. cbn in S. rewrite app_length in S. cbn in S. lia.
Qed.

Lemma no_inerr q tr s : run q init tr = Some s -> ~ List.In InErr tr -> s_inerr s = false.
Proof.
  assert (G : forall tr0 a b, s_inerr a = false -> run q a tr0 = Some b -> ~ List.In InErr tr0 -> s_inerr b = false).
  { induction tr0 as [|e t IH]; cbn [run]; intros a b A H N; [injection H as <-; exact A|].
    destruct (step q a e) as [a1|] eqn:E; [|discriminate]. apply (IH a1); [|exact H|intros I; apply N; now right].
    destruct e; try (exfalso; apply N; now left); inv_step E; fields; assumption. }
  apply G. reflexivity.
Qed.
Lemma no_end q tr s : run q init tr = Some s -> up s = Finished -> endq s = false -> False.
Proof.
  assert (G : forall tr0 a b, (up a = Finished -> endq a = true) -> run q a tr0 = Some b -> up b = Finished -> endq b = true).
  { induction tr0 as [|e t IH]; cbn [run]; intros a b A H; [injection H as <-; exact A|].
    destruct (step q a e) as [a1|] eqn:E; [|discriminate]. apply (IH a1); [|exact H].
    destruct e; inv_step E; fields; auto; try discriminate. }
  intros H U E. rewrite (G tr init s) in E; [discriminate|discriminate|exact H|exact U].
Qed.

Lemma after_exit q tr : forall s s', status s <> None -> run q s tr = Some s' ->
  prefix (r_got s') (r_got s ++ flight s) /\ (q = true -> r_got s' = r_got s).
Proof.
  induction tr as [|e t IH]; cbn [run]; intros s s' A H.
  - injection H as <-. split; [eexists; reflexivity|reflexivity].
  - destruct (step q s e) as [s1|] eqn:E; [|discriminate].
    assert (X : status s1 <> None /\ r_got s1 ++ flight s1 = r_got s ++ flight s /\ (q = true -> r_got s1 = r_got s)).
    { clear IH H. destruct (status s) as [k|] eqn:S; [|contradiction].
      destruct e; inv_step E; fields; rewrite ?S in *; cbn [andb orb] in *; try discriminate; repeat split; try assumption; try congruence.
      - rewrite <- app_assoc, fs. reflexivity.
      - intros ->. discriminate. }
    destruct X as (X1 & X2 & X3). destruct (IH _ _ X1 H) as [Y1 Y2]. rewrite X2 in Y1. split; [exact Y1|].
    intros Q. now rewrite (Y2 Q), (X3 Q).
Qed.
