From Verif Require Import Base MainModel MainSpec.
Open Scope nat_scope.

Lemma parse_bool_words v : List.In v (yes ++ no) -> parse_bool v = Some (mem v yes).
Proof.
  intro I. unfold parse_bool. change [lit "1"; lit "t"; lit "T"; lit "TRUE"; lit "true"; lit "True"] with yes.
  change [lit "0"; lit "f"; lit "F"; lit "FALSE"; lit "false"; lit "False"] with no.
  destruct (mem v yes) eqn:E; [reflexivity|]. apply in_app_or in I as [I|I]; [apply mem_false in E; contradiction|].
  apply mem_spec in I. rewrite I. reflexivity.
Qed.

(** What one flag does to the settings. *)
Definition sets (dur : str -> option Z) (g : written) (s s1 : settings) : Prop :=
  (f_config s1 = if str_eqb (name_of g) (lit "config") then value_of g else f_config s) /\
  (f_version s1 = if str_eqb (name_of g) (lit "v") then mem (value_of g) yes else f_version s) /\
  (f_revoke s1 = if str_eqb (name_of g) (lit "revoke-all-certificates") then value_of g else f_revoke s) /\
  (f_pass s1 = if str_eqb (name_of g) (lit "passphrase") then value_of g else f_pass s) /\
  (Some (f_grace s1) = if str_eqb (name_of g) grace_flag then dur (value_of g) else Some (f_grace s)) /\
  (f_test s1 = if str_eqb (name_of g) (lit "use-ephemeral-certificate-manager") then mem (value_of g) yes else f_test s) /\
  (f_stdout s1 = if str_eqb (name_of g) (lit "stdout") then mem (value_of g) yes else f_stdout s) /\
  (f_quiet s1 = if str_eqb (name_of g) (lit "quiet") then mem (value_of g) yes else f_quiet s).

Lemma step_text dur d n v rest s : List.In n text_flags ->
  exists s1, (forall g, name_of g = n -> value_of g = v -> sets dur g s s1) /\
    parse dur (texts (Joined d n v) ++ rest) s = parse dur rest s1 /\ parse dur (texts (Apart d n v) ++ rest) s = parse dur rest s1.
Proof.
  intro I. assert (exists s1, set_flag dur n v s = Some s1 /\ forall g, name_of g = n -> value_of g = v -> sets dur g s s1) as (s1 & E & S).
  { destruct I as [<-|[<-|[<-|[]]]]; unfold set_flag; cbn [str_eqb]; (eexists; split; [reflexivity|]); intros g N V; unfold sets; rewrite N, V; repeat split. }
  exists s1. split; [exact S|].
  destruct I as [<-|[<-|[<-|[]]]]; destruct d; split;
    (match goal with |- parse _ (texts (_ _ ?n _) ++ _) _ = _ =>
      change (match set_flag dur n v s with Some s => parse dur rest s | None => Bad (lit "invalid value for flag -" ++ n) end = parse dur rest s1) end);
    rewrite E; reflexivity.
Qed.
Lemma step_grace dur d v rest s : dur v <> None ->
  exists s1, (forall g, name_of g = grace_flag -> value_of g = v -> sets dur g s s1) /\
    parse dur (texts (Joined d grace_flag v) ++ rest) s = parse dur rest s1 /\ parse dur (texts (Apart d grace_flag v) ++ rest) s = parse dur rest s1.
Proof.
  intro H. assert (exists s1, set_flag dur grace_flag v s = Some s1 /\ forall g, name_of g = grace_flag -> value_of g = v -> sets dur g s s1) as (s1 & E & S).
  { destruct (dur v) as [x|] eqn:E; [|contradiction]. unfold set_flag, grace_flag. cbn [str_eqb]. rewrite E. eexists. split; [reflexivity|].
    intros g N V. unfold sets. rewrite N, V. repeat split. symmetry. exact E. }
  exists s1. split; [exact S|]. unfold grace_flag in *.
  destruct d; split;
    (match goal with |- parse _ ?x _ = _ =>
      change (match set_flag dur (lit "shutdown-grace-period") v s with Some s => parse dur rest s | None => Bad (lit "invalid value for flag -" ++ lit "shutdown-grace-period") end = parse dur rest s1) end);
    rewrite E; reflexivity.
Qed.
Lemma step_switch dur d n v rest s : List.In n switches -> List.In v (yes ++ no) ->
  exists s1, (forall g, name_of g = n -> value_of g = v -> sets dur g s s1) /\
    parse dur (texts (Joined d n v) ++ rest) s = parse dur rest s1 /\ (v = lit "true" -> parse dur (texts (Alone d n) ++ rest) s = parse dur rest s1).
Proof.
  intros I W. apply parse_bool_words in W.
  assert (exists s1, set_flag dur n v s = Some s1 /\ forall g, name_of g = n -> value_of g = v -> sets dur g s s1) as (s1 & E & S).
  { destruct I as [<-|[<-|[<-|[<-|[]]]]]; unfold set_flag; cbn [str_eqb]; rewrite W; (eexists; split; [reflexivity|]); intros g N V; unfold sets; rewrite N, V; repeat split. }
  exists s1. split; [exact S|]. split.
  - destruct I as [<-|[<-|[<-|[<-|[]]]]]; destruct d;
    (match goal with |- parse _ (texts (Joined _ ?n _) ++ _) _ = _ =>
      change (match set_flag dur n v s with Some s => parse dur rest s | None => Bad (lit "invalid boolean value for -" ++ n) end = parse dur rest s1) end);
    rewrite E; reflexivity.
  - intros ->. destruct I as [<-|[<-|[<-|[<-|[]]]]]; destruct d;
    (match goal with |- parse _ (texts (Alone _ ?n) ++ _) _ = _ =>
      change (match set_flag dur n (lit "true") s with Some s => parse dur rest s | None => Bad [] end = parse dur rest s1) end);
    rewrite E; reflexivity.
Qed.

Lemma step_flag dur g rest s : proper dur g -> exists s1, sets dur g s s1 /\ parse dur (texts g ++ rest) s = parse dur rest s1.
Proof.
  destruct g as [d n v|d n v|d n]; cbn [proper].
  - intros [I|[[I W]|[-> D]]].
    + destruct (step_text dur d n v rest s I) as (s1 & S & E & _). exists s1. split; [now apply S|exact E].
    + destruct (step_switch dur d n v rest s I W) as (s1 & S & E & _). exists s1. split; [now apply S|exact E].
    + destruct (step_grace dur d v rest s D) as (s1 & S & E & _). exists s1. split; [now apply S|exact E].
  - intros [I|[-> D]].
    + destruct (step_text dur d n v rest s I) as (s1 & S & _ & E). exists s1. split; [now apply S|exact E].
    + destruct (step_grace dur d v rest s D) as (s1 & S & _ & E). exists s1. split; [now apply S|exact E].
  - intros I. destruct (step_switch dur d n (lit "true") rest s I) as (s1 & S & _ & E); [vm_compute; tauto|]. exists s1. split; [now apply S|exact (E eq_refl)].
Qed.

(** What all flags together do. *)
Definition all_set (dur : str -> option Z) (l : list written) (s s1 : settings) : Prop :=
  f_config s1 = text_of (lit "config") (f_config s) l /\
  f_version s1 = switch_of (lit "v") (f_version s) l /\
  f_revoke s1 = text_of (lit "revoke-all-certificates") (f_revoke s) l /\
  f_pass s1 = text_of (lit "passphrase") (f_pass s) l /\
  Some (f_grace s1) = match chosen grace_flag l with Some v => dur v | None => Some (f_grace s) end /\
  f_test s1 = switch_of (lit "use-ephemeral-certificate-manager") (f_test s) l /\
  f_stdout s1 = switch_of (lit "stdout") (f_stdout s) l /\
  f_quiet s1 = switch_of (lit "quiet") (f_quiet s) l.

Lemma all_set_same dur l s s1 s2 : all_set dur l s s1 -> all_set dur l s s2 -> s1 = s2.
Proof.
  intros (A1 & A2 & A3 & A4 & A5 & A6 & A7 & A8) (B1 & B2 & B3 & B4 & B5 & B6 & B7 & B8). destruct s1, s2. cbn in *. f_equal; congruence.
Qed.
Lemma parse_line dur l : forall rest s, Forall (proper dur) l -> exists s1, all_set dur l s s1 /\ parse dur (line l ++ rest) s = parse dur rest s1.
Proof.
  induction l as [|g l IH]; intros rest s P; [exists s; split; [repeat split|reflexivity]|].
  inversion P as [|? ? Pg Pl]. subst. unfold line. cbn [flat_map]. fold (line l). rewrite <- app_assoc.
  destruct (step_flag dur g (line l ++ rest) s Pg) as (s1 & (A1 & A2 & A3 & A4 & A5 & A6 & A7 & A8) & ->).
  destruct (IH rest s1 Pl) as (s2 & (B1 & B2 & B3 & B4 & B5 & B6 & B7 & B8) & ->). exists s2. split; [|reflexivity].
  unfold all_set, text_of, switch_of in *. cbn [chosen].
  split; [|split; [|split; [|split; [|split; [|split; [|split]]]]]].
  - rewrite B1, A1. clear. destruct (chosen (lit "config") l); [reflexivity|]. destruct (str_eqb (name_of g) (lit "config")); reflexivity.
  - rewrite B2, A2. clear. destruct (chosen (lit "v") l); [reflexivity|]. destruct (str_eqb (name_of g) (lit "v")); reflexivity.
  - rewrite B3, A3. clear. destruct (chosen (lit "revoke-all-certificates") l); [reflexivity|]. destruct (str_eqb (name_of g) (lit "revoke-all-certificates")); reflexivity.
  - rewrite B4, A4. clear. destruct (chosen (lit "passphrase") l); [reflexivity|]. destruct (str_eqb (name_of g) (lit "passphrase")); reflexivity.
  - rewrite B5, A5. clear. destruct (chosen grace_flag l); [reflexivity|]. destruct (str_eqb (name_of g) grace_flag); reflexivity.
  - rewrite B6, A6. clear. destruct (chosen (lit "use-ephemeral-certificate-manager") l); [reflexivity|]. destruct (str_eqb (name_of g) (lit "use-ephemeral-certificate-manager")); reflexivity.
  - rewrite B7, A7. clear. destruct (chosen (lit "stdout") l); [reflexivity|]. destruct (str_eqb (name_of g) (lit "stdout")); reflexivity.
  - rewrite B8, A8. clear. destruct (chosen (lit "quiet") l); [reflexivity|]. destruct (str_eqb (name_of g) (lit "quiet")); reflexivity.
Qed.

Lemma read_plain a : no_flag a -> read_arg a = Plain.
Proof.
  intros [->|[->|(c & r & -> & N)]]; [reflexivity|reflexivity|]. unfold read_arg. revert N.
  destruct c as [[] [] [] [] [] [] [] []]; intro N; try reflexivity. exfalso. now apply N.
Qed.
Lemma parse_stop dur s a rest : no_flag a \/ a = lit "--" -> exists rest', parse dur (a :: rest) s = Parsed s rest'.
Proof. intros [N| ->]; [|eexists; reflexivity]. cbn [parse]. rewrite (read_plain _ N). eexists. reflexivity. Qed.

(** *** Signals *)

Lemma sig_run_app st l1 l2 : sig_run st (l1 ++ l2) = match sig_run st l1 with Some st => sig_run st l2 | None => None end.
Proof. revert st. induction l1 as [|e l1 IH]; intro st; cbn [app sig_run]; [reflexivity|]. destruct (sig_step st e); [apply IH|reflexivity]. Qed.

Definition counts (e : event) : nat := match e with Signal _ => 1 | _ => 0 end.
Definition finishes (e : event) : bool := match e with Finished => true | _ => false end.
(** What holds of each state that is reached with [n] signals; [fin]: Shutdown has returned. *)
Record sig_inv (n : nat) (fin : bool) (st : sigs) : Prop := {
  i_go : s_go st <> GNone -> s_main st = MDown \/ s_main st = MBack;
  i_down : s_main st = MDown \/ s_main st = MBack -> s_go st <> GNone;
  i_got : s_main st = MGot \/ s_main st = MDown \/ s_main st = MBack -> 1 <= n;
  i_fin : s_main st = MBack <-> fin = true;
  i_ch1 : s_ch1 st <> None -> 1 <= n;
  i_ch2 : s_ch2 st <> None -> 2 <= n;
  i_none : s_main st = MStarted \/ s_main st = MInt \/ s_main st = MWait -> s_ch1 st = None -> s_proc st = Running -> n = 0;
  i_exp : s_expired st = true -> s_main st = MDown \/ s_main st = MBack;
  i_gone : s_go st = GGone -> s_expired st = true;
  i_kill : forall s, s_proc st = Killed s -> s_main st = MStarted \/ s_main st = MInt;
  i_exit : match s_proc st with Exited c => (c = 0%N /\ fin = true /\ 1 <= n) \/ (c = 1%N /\ 2 <= n) | _ => True end
}.

Lemma sig_inv_init : sig_inv 0 false sig_init.
Proof. constructor; cbn; intuition congruence. Qed.

Local Ltac quick I3 I5 I6 I7 :=
  rewrite ?Nat.add_0_r;
  try assumption;
  try (let H := fresh in intro H; discriminate H);
  try (let H := fresh in intros [H|H]; discriminate H);
  try (let H := fresh in intros [H|[H|H]]; discriminate H);
  try (let H := fresh in intro H; specialize (I3 H); lia);
  try (let H := fresh in intro H; specialize (I5 H); lia);
  try (let H := fresh in intro H; specialize (I6 H); lia);
  try (intros _; lia);
  try (intros; discriminate);
  try exact Logic.I; try (split; intro; congruence); try (intro; congruence); auto.

Lemma sig_inv_step n fin st e st' : sig_inv n fin st -> sig_step st e = Some st' -> sig_inv (n + counts e) (fin || finishes e) st'.
Proof.
  intros [I1 I2 I3 I4 I5 I6 I7 I8 I9 I10 I11] E. destruct st as [m g c1 c2 x p]. cbn [s_main s_go s_ch1 s_ch2 s_expired s_proc] in *.
  unfold sig_step in E. cbn [s_main s_go s_ch1 s_ch2 s_expired s_proc] in E. destruct p; try discriminate.
  destruct e as [s| | | | | |]; cbn [counts finishes]; rewrite ?orb_false_r, ?orb_true_r.
  - destruct (first_told m s || second_told g s) eqn:T; injection E as <-.
    + constructor; cbn [s_main s_go s_ch1 s_ch2 s_expired s_proc]; quick I3 I5 I6 I7.
      * unfold put. destruct (second_told g s) eqn:T2; [|intro H; specialize (I6 H); lia]. intros _.
        assert (G : g <> GNone) by (intros ->; discriminate). specialize (I1 G). specialize (I3 ltac:(tauto)). lia.
      * intros M. unfold put. destruct (first_told m s) eqn:T1; [destruct c1; discriminate|]. destruct (second_told g s) eqn:T2; [|discriminate].
        assert (G : g <> GNone) by (intros ->; discriminate). specialize (I1 G). destruct M as [M|[M|M]], I1; congruence.
    + constructor; cbn [ends s_main s_go s_ch1 s_ch2 s_expired s_proc]; quick I3 I5 I6 I7.
      destruct m; cbn in T; try discriminate; auto.
  - destruct m; try discriminate; [injection E as <-|injection E as <-|destruct c1; [injection E as <-|discriminate]|injection E as <-|injection E as <-];
    constructor; cbn [ends at_main at_go s_main s_go s_ch1 s_ch2 s_expired s_proc]; quick I3 I5 I6 I7.
    all: try (assert (G : g = GNone) by (destruct g; auto; exfalso; destruct I1; congruence); subst g); intuition (congruence || lia).
  - destruct g; try discriminate; injection E as <-; constructor; cbn [at_go s_main s_go s_ch1 s_ch2 s_expired s_proc]; quick I3 I5 I6 I7.
    all: intros _; apply I1; discriminate.
  - destruct g; try discriminate. destruct c2; [|discriminate]. injection E as <-. constructor; cbn [ends s_main s_go s_ch1 s_ch2 s_expired s_proc]; quick I3 I5 I6 I7.
    right. split; [reflexivity|]. apply I6. discriminate.
  - destruct g; try discriminate. destruct x; [|discriminate]. injection E as <-. constructor; cbn [at_go s_main s_go s_ch1 s_ch2 s_expired s_proc]; quick I3 I5 I6 I7.
  - destruct m; try discriminate; (destruct x; [discriminate|]); injection E as <-; constructor; cbn [s_main s_go s_ch1 s_ch2 s_expired s_proc]; quick I3 I5 I6 I7.
  - destruct m; try discriminate. injection E as <-. constructor; cbn [at_main s_main s_go s_ch1 s_ch2 s_expired s_proc]; quick I3 I5 I6 I7.
Qed.

Lemma sig_inv_run l : forall n fin st st', sig_inv n fin st -> sig_run st l = Some st' -> sig_inv (n + signals l) (fin || existsb finishes l) st'.
Proof.
  induction l as [|e l IH]; intros n fin st st' I E; cbn [sig_run] in E.
  - injection E as <-. unfold signals. cbn. rewrite Nat.add_0_r, orb_false_r. exact I.
  - destruct (sig_step st e) as [st1|] eqn:S; [|discriminate]. pose proof (IH _ _ _ _ (sig_inv_step _ _ _ _ _ I S) E) as J.
    replace (n + signals (e :: l)) with (n + counts e + signals l) by (unfold signals; destruct e; cbn; lia).
    cbn [existsb]. rewrite orb_assoc. exact J.
Qed.
Lemma sig_reach l st : sig_run sig_init l = Some st -> sig_inv (signals l) (existsb finishes l) st.
Proof. intro E. exact (sig_inv_run l 0 false _ _ sig_inv_init E). Qed.
Lemma finished_in l : existsb finishes l = true <-> List.In Finished l.
Proof.
  rewrite existsb_exists. split; [intros (e & I & H); destruct e; try discriminate; exact I|intro I; exists Finished; split; [exact I|reflexivity]].
Qed.
(** A signal that the goroutine was told of stays until it acts. *)
Definition told (st : sigs) : Prop := (s_go st = GWait \/ s_go st = GGone) /\ s_ch2 st <> None.
Lemma told_step n fin st e st' : sig_inv n fin st -> told st -> sig_step st e = Some st' -> told st'.
Proof.
  intros [I1 _ _ _ _ _ _ _ _ _ _] [G C] S. unfold sig_step in S. destruct st as [m g c1 c2 x p]. unfold told. cbn [s_main s_go s_ch1 s_ch2 s_expired s_proc] in *. destruct p; try discriminate.
  assert (D : m = MDown \/ m = MBack) by (apply I1; destruct G; congruence).
  destruct e as [s| | | | | |].
  - destruct (_ || _); injection S as <-; cbn [ends s_go s_ch2]; (split; [exact G|]); unfold put; destruct (second_told g s), c2; congruence.
  - destruct D as [->| ->]; [discriminate|]. injection S as <-. cbn [ends s_go s_ch2]. auto.
  - destruct g; try discriminate; destruct G; discriminate.
  - destruct g; try discriminate. destruct c2; [|discriminate]. injection S as <-. cbn [ends s_go s_ch2]. auto.
  - destruct g; try discriminate. destruct x; [|discriminate]. injection S as <-. cbn [at_go s_go s_ch2]. auto.
  - destruct m; try discriminate; (destruct x; [discriminate|]); injection S as <-; cbn [s_go s_ch2]; auto.
  - destruct m; try discriminate. injection S as <-. cbn [at_main s_go s_ch2]. auto.
Qed.
Lemma told_run l : forall n fin st st', sig_inv n fin st -> told st -> sig_run st l = Some st' -> told st'.
Proof.
  induction l as [|e l IH]; intros n fin st st' I T E; cbn [sig_run] in E; [injection E as <-; exact T|].
  destruct (sig_step st e) as [st1|] eqn:S; [|discriminate]. exact (IH _ _ _ _ (sig_inv_step _ _ _ _ _ I S) (told_step _ _ _ _ _ I T S) E).
Qed.
Lemma expired_in l : forall st st', sig_run st l = Some st' -> s_expired st' = true -> s_expired st = true \/ List.In Grace l.
Proof.
  induction l as [|e l IH]; intros st st' E X; cbn [sig_run] in E; [injection E as <-; auto|].
  destruct (sig_step st e) as [st1|] eqn:S; [|discriminate]. destruct (IH _ _ E X) as [H|H]; [|right; now right].
  destruct e as [s| | | | | |]; try (right; left; reflexivity); left; revert S H; unfold sig_step; destruct (s_proc st); try discriminate.
  - destruct (_ || _); intro S; injection S as <-; auto.
  - destruct (s_main st); try discriminate; [|intro S|destruct (s_ch1 st); [|discriminate]| |]; try (intro S; injection S as <-; auto). injection S as <-. auto.
  - destruct (s_go st); try discriminate; intro S; injection S as <-; auto.
  - destruct (s_go st); try discriminate. destruct (s_ch2 st); [|discriminate]. intro S; injection S as <-; auto.
  - destruct (s_go st); try discriminate. destruct (s_expired st) eqn:X1; [|discriminate]. auto.
  - destruct (s_main st); try discriminate. intro S; injection S as <-; auto.
Qed.
(** Once main waits for signals, none ends the process by itself. *)
Lemma late_run l : forall n fin st st', sig_inv n fin st -> s_main st <> MStarted -> s_main st <> MInt -> sig_run st l = Some st' -> s_main st' <> MStarted /\ s_main st' <> MInt.
Proof.
  induction l as [|e l IH]; intros n fin st st' I A B E; cbn [sig_run] in E; [injection E as <-; auto|].
  destruct (sig_step st e) as [st1|] eqn:S; [|discriminate]. apply (IH _ _ _ _ (sig_inv_step _ _ _ _ _ I S)) in E; auto.
  all: clear IH E; revert S; unfold sig_step; destruct (s_proc st); try discriminate; destruct e as [s| | | | | |];
    repeat match goal with |- context [match ?x with _ => _ end] => destruct x eqn:? end; intro S; try discriminate; injection S as <-; cbn; congruence.
Qed.
