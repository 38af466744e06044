(** Proofs for LifeModel. *)
From Coq Require Import Lia.
From Verif Require Import Base LifeModel LifeSpec.

(** ** Lists *)

Lemma change_length {A} i (f : A -> A) l : List.length (change i f l) = List.length l.
Proof. revert i. induction l as [|x l IH]; intros [|i]; cbn; auto. Qed.

Lemma nth_change {A} i (f : A -> A) l j :
  nth_error (change i f l) j = if Nat.eqb i j then option_map f (nth_error l j) else nth_error l j.
Proof.
  revert i j. induction l as [|x l IH]; intros [|i] [|j]; cbn [change nth_error Nat.eqb]; try reflexivity.
  - destruct (Nat.eqb i j); reflexivity.
  - apply IH.
Qed.

Lemma nth_change_eq {A} i (f : A -> A) l x : nth_error l i = Some x -> nth_error (change i f l) i = Some (f x).
Proof. intro H. rewrite nth_change, Nat.eqb_refl, H. reflexivity. Qed.
Lemma nth_change_neq {A} i (f : A -> A) l j : i <> j -> nth_error (change i f l) j = nth_error l j.
Proof. intro H. rewrite nth_change. destruct (Nat.eqb_spec i j); congruence. Qed.

Lemma change_id {A} i (f : A -> A) l : (forall x, nth_error l i = Some x -> f x = x) -> change i f l = l.
Proof.
  revert i. induction l as [|x l IH]; intros [|i] H; cbn; try reflexivity.
  - rewrite H by reflexivity. reflexivity.
  - rewrite IH; [reflexivity|]. intros y Y. apply H. exact Y.
Qed.

Lemma nth_snoc {A} (l : list A) x j y :
  nth_error (l ++ [x]) j = Some y -> nth_error l j = Some y \/ (j = List.length l /\ y = x).
Proof.
  intro H. destruct (Nat.lt_ge_cases j (List.length l)) as [L|L].
  - left. rewrite nth_error_app1 in H by exact L. exact H.
  - rewrite nth_error_app2 in H by exact L. remember (j - List.length l) as d eqn:E. destruct d as [|d].
    + right. cbn in H. split; [lia|congruence].
    + cbn in H. destruct d; discriminate H.
Qed.
Lemma nth_last {A} (l : list A) x : nth_error (l ++ [x]) (List.length l) = Some x.
Proof. rewrite nth_error_app2, Nat.sub_diag by lia. reflexivity. Qed.
Lemma nth_lt {A} (l : list A) i x : nth_error l i = Some x -> i < List.length l.
Proof. intro H. apply nth_error_Some. congruence. Qed.
Lemma nth_app_l {A} (l l' : list A) i x : nth_error l i = Some x -> nth_error (l ++ l') i = Some x.
Proof. intro H. rewrite nth_error_app1; [exact H|]. eapply nth_lt, H. Qed.

Lemma among_spec b l : among b l = true <-> In b l.
Proof.
  unfold among. rewrite existsb_exists. split.
  - intros (x & I & E). apply Nat.eqb_eq in E. subst. exact I.
  - intro I. exists b. split; [exact I|apply Nat.eqb_refl].
Qed.
Lemma in_remove1 b c l : In c l -> c <> b -> In c (remove1 b l).
Proof.
  induction l as [|x l IH]; [intros []|]. intros [E|I] N; cbn.
  - destruct (Nat.eqb_spec x b); [congruence|]. left. exact E.
  - destruct (Nat.eqb_spec x b); [exact I|]. right. auto.
Qed.
Lemma remove1_in b c l : In c (remove1 b l) -> In c l.
Proof.
  induction l as [|x l IH]; [intros []|]. cbn. destruct (Nat.eqb_spec x b); [auto|].
  intros [E|I]; [left; exact E|right; auto].
Qed.

Lemma filter_none {A} (f : A -> bool) l : (forall x, In x l -> f x = false) -> filter f l = [].
Proof.
  induction l as [|x l IH]; intro H; [reflexivity|]. cbn. rewrite H by (left; reflexivity).
  apply IH. intros y I. apply H. right. exact I.
Qed.

Lemma open_for_snoc b l n :
  open_for b (l ++ [n]) = open_for b l + (if n_open n && Nat.eqb (n_be n) b then 1 else 0).
Proof.
  unfold open_for. rewrite filter_app, app_length. cbn. destruct (_ && _); reflexivity.
Qed.
Lemma open_for_change b i f l n :
  nth_error l i = Some n ->
  open_for b (change i f l) + (if n_open n && Nat.eqb (n_be n) b then 1 else 0) =
  open_for b l + (if n_open (f n) && Nat.eqb (n_be (f n)) b then 1 else 0).
Proof.
  unfold open_for. revert i. induction l as [|x l IH]; intros [|i] H; cbn [nth_error] in H; try discriminate H.
  - injection H as ->. cbn [change filter]. destruct (n_open n && _), (n_open (f n) && _); cbn [List.length]; lia.
  - specialize (IH _ H). cbn [change filter]. destruct (n_open x && _); cbn [List.length]; lia.
Qed.
Lemma open_for_map b f l : (forall n, n_open (f n) = n_open n /\ n_be (f n) = n_be n) -> open_for b (map f l) = open_for b l.
Proof.
  intro H. unfold open_for. induction l as [|x l IH]; [reflexivity|]. cbn. destruct (H x) as [-> ->].
  destruct (_ && _); cbn; auto.
Qed.
Lemma open_for_cut b q l : open_for b (cut_quic q l) = open_for b l.
Proof. destruct q; [|reflexivity]. apply open_for_map. intro m. destruct (n_quic m); auto. Qed.
Lemma open_for_pos b l i n : nth_error l i = Some n -> n_open n = true -> n_be n = b -> 0 < open_for b l.
Proof.
  intros H O E. unfold open_for. apply nth_error_In in H.
  assert (I : In n (filter (fun m => n_open m && Nat.eqb (n_be m) b) l)).
  { apply filter_In. rewrite O, E, Nat.eqb_refl. auto. }
  destruct (filter _ l); [destruct I|cbn; lia].
Qed.
Lemma open_for_none b l : (forall i n, nth_error l i = Some n -> n_open n = false) -> open_for b l = 0.
Proof.
  intro H. unfold open_for. rewrite filter_none; [reflexivity|]. intros m I. apply In_nth_error in I as [i E].
  rewrite (H _ _ E). reflexivity.
Qed.
Lemma open_conns_none l : (forall i n, nth_error l i = Some n -> n_open n = false) -> open_conns l = [].
Proof.
  intro H. apply filter_none. intros i _. destruct (nth_error l i) eqn:E; [apply (H _ _ E)|reflexivity].
Qed.
Lemma nth_cut q l i : nth_error (cut_quic q l) i =
  option_map (fun n => if match q with Some _ => n_quic n | None => false end
                       then {| n_be := n_be n; n_quic := true; n_open := n_open n; n_cut := true |} else n) (nth_error l i).
Proof.
  destruct q; cbn.
  - rewrite nth_error_map. reflexivity.
  - destruct (nth_error l i); reflexivity.
Qed.
Lemma cut_length q l : List.length (cut_quic q l) = List.length l.
Proof. destruct q; [apply map_length|reflexivity]. Qed.

(** ** One backend *)

(** What is always so for a backend. *)
Definition sound (s : server) : Prop :=
  s_srv s = s_chan s /\ s_h3 s = s_h3_open s /\ (s_h3_open s = true -> s_chan s = true \/ s_shut s = true).

(** What closing does not change. *)
Definition later (s s' : server) : Prop :=
  s_flight s' = s_flight s /\ s_kept s' = s_kept s /\ (s_chan s' = true -> s_chan s = true) /\
  (s_shut s = true -> s_shut s' = true).

Lemma later_refl s : later s s.
Proof. repeat split; auto. Qed.
Lemma later_trans a b c : later a b -> later b c -> later a c.
Proof. intros (A1 & A2 & A3 & A4) (B1 & B2 & B3 & B4). repeat split; try congruence; auto. Qed.

Lemma hard_spec s : sound s -> exists s', close_hard s = Some s' /\ sound s' /\ later s s' /\ s_chan s' = false.
Proof.
  intros (A & B & C). unfold close_hard, close_chan, close_h3, option_map.
  destruct (s_srv s) eqn:V.
  - rewrite <- A. cbn. destruct (s_h3 s) eqn:H; eexists; (split; [reflexivity|]); cbn; unfold sound, later; cbn.
    + repeat split; auto; discriminate.
    + repeat split; auto; try discriminate. rewrite <- B. discriminate.
  - eexists. split; [reflexivity|]. split; [unfold sound; rewrite V; auto|]. split; [apply later_refl|congruence].
Qed.

Lemma soft_spec s : sound s -> exists s', close_soft s = Some s' /\ sound s' /\ later s s' /\
  (s_chan s' = true -> s_shut s' = true /\ 0 < s_flight s') /\
  (0 < s_flight s -> s_chan s' = s_chan s).
Proof.
  intros (A & B & C). unfold close_soft.
  destruct (s_srv s) eqn:V.
  - destruct (s_flight s) eqn:F.
    + unfold close_chan, close_h3, option_map. cbn. rewrite <- A.
      destruct (s_h3 s) eqn:H; eexists; (split; [reflexivity|]); cbn; unfold sound, later; cbn;
        rewrite ?F; repeat split; auto; try discriminate; try lia.
    + eexists. split; [reflexivity|]. unfold sound, later. cbn. rewrite F. repeat split; auto; try congruence; lia.
  - eexists. split; [reflexivity|]. split; [unfold sound; rewrite V; auto|]. split; [apply later_refl|].
    split; [congruence|reflexivity].
Qed.

Lemma leave_spec s : sound s -> exists s', leave s = Some s' /\ sound s' /\
  s_flight s' = pred (s_flight s) /\ s_kept s' = s_kept s /\ (s_chan s' = true -> s_chan s = true) /\
  s_shut s' = s_shut s /\ s_h3 s' = s_h3 s /\
  (s_shut s = true -> pred (s_flight s) = 0 -> s_chan s' = false) /\
  (0 < pred (s_flight s) \/ s_shut s = false -> s_chan s' = s_chan s).
Proof.
  intros (A & B & C). unfold leave. cbn [s_flight set_flight].
  destruct (pred (s_flight s)) eqn:P.
  - cbn [s_shut s_srv set_flight]. destruct (s_shut s) eqn:H; cbn [andb].
    + destruct (s_srv s) eqn:V.
      * unfold close_chan. cbn. rewrite <- A. eexists. split; [reflexivity|]. unfold sound. cbn. rewrite H. repeat split; auto; try discriminate.
        intros [X|X]; [lia|discriminate X].
      * eexists. split; [reflexivity|]. unfold sound. cbn. rewrite V, H. repeat split; auto; congruence.
    + eexists. split; [reflexivity|]. unfold sound. cbn. rewrite H. repeat split; auto; try discriminate; congruence.
  - eexists. split; [reflexivity|]. unfold sound. cbn. repeat split; auto; lia.
Qed.

(** ** All backends *)

Lemma close_one_spec f (G Q : server -> Prop) (R : server -> server -> Prop) l b :
  (forall s, R s s) ->
  (forall s, G s -> exists s', f s = Some s' /\ G s' /\ R s s' /\ Q s') ->
  Forall G l ->
  exists l', close_one f l b = Some l' /\ Forall G l' /\ List.length l' = List.length l /\
  forall c s', nth_error l' c = Some s' -> exists s, nth_error l c = Some s /\ R s s' /\ (c = b -> Q s') /\ (c <> b -> s' = s).
Proof.
  intros RR H F. unfold close_one. destruct (nth_error l b) as [s|] eqn:E.
  - pose proof F as F0. rewrite Forall_forall in F0. destruct (H s) as (s1 & -> & G1 & R1 & Q1); [apply F0; eapply nth_error_In, E|].
    eexists. split; [reflexivity|]. split; [|split; [apply change_length|]].
    + apply Forall_forall. intros x I. apply In_nth_error in I as [c I]. rewrite nth_change in I.
      destruct (Nat.eqb_spec b c) as [->|N].
      * rewrite E in I. cbn in I. congruence.
      * apply F0. eapply nth_error_In, I.
    + intros c s' I. rewrite nth_change in I. destruct (Nat.eqb_spec b c) as [->|N].
      * rewrite E in I. cbn in I. injection I as <-. exists s. repeat split; auto. congruence.
      * exists s'. repeat split; auto. congruence.
  - exists l. split; [reflexivity|]. split; [exact F|]. split; [reflexivity|]. intros c s' I. exists s'. repeat split; auto. congruence.
Qed.

Lemma close_all_spec f (G Q : server -> Prop) (R : server -> server -> Prop) bs :
  (forall s, R s s) -> (forall a b c, R a b -> R b c -> R a c) ->
  (forall s, G s -> exists s', f s = Some s' /\ G s' /\ R s s' /\ Q s') ->
  forall l, Forall G l ->
  exists l', close_all f l bs = Some l' /\ Forall G l' /\ List.length l' = List.length l /\
  forall c s', nth_error l' c = Some s' ->
    exists s, nth_error l c = Some s /\ R s s' /\ (In c bs -> Q s') /\ (~ In c bs -> s' = s).
Proof.
  intros RR RT H. induction bs as [|b bs IH]; intros l F; cbn [close_all].
  - exists l. split; [reflexivity|]. split; [exact F|]. split; [reflexivity|]. intros c s' E. exists s'. split; [exact E|]. split; [apply RR|]. split; [intros []|reflexivity].
  - destruct (close_one_spec f G Q R l b RR H F) as (l1 & -> & F1 & L1 & S1).
    destruct (IH l1 F1) as (l2 & -> & F2 & L2 & S2).
    exists l2. split; [reflexivity|]. split; [exact F2|]. split; [congruence|]. intros c s' E.
    destruct (S2 _ _ E) as (s1 & E1 & R1 & Q1 & N1). destruct (S1 _ _ E1) as (s & E0 & R0 & Q0 & N0).
    exists s. split; [exact E0|]. split; [eapply RT; eassumption|]. split.
    + intros [X|X]; [|apply Q1, X]. destruct (in_dec Nat.eq_dec c bs) as [I|I]; [apply Q1, I|].
      rewrite (N1 I). apply Q0. auto.
    + intro X. cbn in X. rewrite N1 by tauto. apply N0. intro Y. apply X. left. congruence.
Qed.

(** ** What is always so *)

Record inv (p : proxy) : Prop := {
  i_sound : Forall sound (servers p);
  i_flight : forall b s, nth_error (servers p) b = Some s -> s_flight s = open_for b (conns p);
  i_open : forall b s, nth_error (servers p) b = Some s -> s_chan s = true -> s_kept s = true ->
           In b (in_force p) \/ In b (stopping p) \/ (s_shut s = true /\ 0 < s_flight s);
  i_ctx : p_ctx p <> None <-> p_listener p <> None;
  i_ctxs : p_ctx p = None -> ctxs p = [];
  i_conns : forall i n, nth_error (conns p) i = Some n -> n_be n < List.length (servers p);
  i_none : p_ctx p = None -> conns p = [];
  i_cfg : forall c bs, p_cfg p = Some (c, bs) -> List.length bs = List.length (c_backends c)
}.

Lemma inv_fresh : inv fresh.
Proof.
  constructor; cbn; try tauto; try discriminate.
  - constructor.
  - intros [|b]; discriminate.
  - intros [|b]; discriminate.
  - intros [|b]; discriminate.
Qed.

Lemma new_sound k q b : sound (new_server k q b).
Proof. unfold sound. cbn. destruct (b_http b); cbn; repeat split; auto. Qed.

Lemma open_for_beyond b p : inv p -> List.length (servers p) <= b -> open_for b (conns p) = 0.
Proof.
  intros V L. unfold open_for. rewrite filter_none; [reflexivity|]. intros n I. apply In_nth_error in I as [i E].
  apply (i_conns _ V) in E. destruct (Nat.eqb_spec (n_be n) b); [lia|]. apply andb_false_r.
Qed.

Lemma nth_new (l : list server) k q bs c s : nth_error (l ++ map (new_server k q) bs) c = Some s ->
  nth_error l c = Some s \/ (List.length l <= c /\ c < List.length l + List.length bs /\ exists x, s = new_server k q x /\ nth_error bs (c - List.length l) = Some x).
Proof.
  intro H. destruct (Nat.lt_ge_cases c (List.length l)) as [L|L].
  - left. rewrite nth_error_app1 in H by exact L. exact H.
  - right. rewrite nth_error_app2 in H by exact L. rewrite nth_error_map in H.
    destruct (nth_error bs (c - List.length l)) as [x|] eqn:E; [|discriminate H]. cbn in H. injection H as <-.
    pose proof (nth_lt _ _ _ E). repeat split; try lia. eauto.
Qed.

Lemma retire_spec p : inv p -> exists l, retire p = Some l /\ Forall sound l /\ List.length l = List.length (servers p) /\
  forall c s', nth_error l c = Some s' -> exists s, nth_error (servers p) c = Some s /\ later s s' /\
    (In c (in_force p) -> s_chan s' = true -> s_shut s' = true /\ 0 < s_flight s') /\ (~ In c (in_force p) -> s' = s) /\
    (0 < s_flight s -> s_chan s' = s_chan s).
Proof.
  intro V. unfold retire, in_force. destruct (p_cfg p) as [[c0 bs]|] eqn:C.
  - destruct (p_ctx p) eqn:X.
    + destruct (close_all_spec close_soft sound (fun s' => s_chan s' = true -> s_shut s' = true /\ 0 < s_flight s')
        (fun s s' => later s s' /\ (0 < s_flight s -> s_chan s' = s_chan s)) bs) with (l := servers p) as (l & E & F & L & S).
      * intro s. split; [apply later_refl|reflexivity].
      * intros a b d [A1 A2] [B1 B2]. split; [eapply later_trans; eassumption|]. intro P. rewrite B2, A2; auto.
        destruct A1 as (-> & _). exact P.
      * intros s G. destruct (soft_spec s G) as (s' & A & B & D & Q & K). exists s'. auto.
      * apply (i_sound _ V).
      * exists l. split; [exact E|]. split; [exact F|]. split; [exact L|]. intros c s' N.
        destruct (S _ _ N) as (s & N0 & [R K] & Q & O). exists s. auto.
    + destruct (close_all_spec close_hard sound (fun s' => s_chan s' = false) later bs) with (l := servers p) as (l & E & F & L & S).
      * apply later_refl.
      * apply later_trans.
      * intros s G. destruct (hard_spec s G) as (s' & A & B & D & Q). exists s'. auto.
      * apply (i_sound _ V).
      * exists l. split; [exact E|]. split; [exact F|]. split; [exact L|]. intros c s' N.
        destruct (S _ _ N) as (s & N0 & R & Q & O). exists s. split; [exact N0|]. split; [exact R|].
        split; [intros I Z; rewrite (Q I) in Z; discriminate Z|]. split; [exact O|].
        { intro P. rewrite (i_flight _ V _ _ N0), (i_none _ V X) in P. cbn in P. lia. }
  - exists (servers p). split; [reflexivity|]. split; [apply (i_sound _ V)|]. split; [reflexivity|].
    intros c s' N. exists s'. split; [exact N|]. split; [apply later_refl|]. cbn. tauto.
Qed.

Lemma inv_reconfigure p c fail : inv p -> exists p', reconfigure p c fail = Went p' /\ inv p'.
Proof.
  intro V. unfold reconfigure. destruct (match p_cfg p with Some (c0, _) => config_eqb c c0 | None => false end); [eauto|].
  destruct fail as [n|].
  - eexists. split; [reflexivity|]. constructor; cbn [with_servers servers conns p_cfg stopping p_ctx p_listener ctxs in_force].
    + apply Forall_app. split; [apply (i_sound _ V)|]. apply Forall_forall. intros s I. apply in_map_iff in I as (x & <- & _). apply new_sound.
    + intros b s E. apply nth_new in E as [E|(L & _ & x & -> & _)]; [apply (i_flight _ V _ _ E)|].
      cbn. symmetry. apply open_for_beyond; assumption.
    + intros b s E. apply nth_new in E as [E|(L & _ & x & -> & _)]; [apply (i_open _ V _ _ E)|]. cbn. discriminate.
    + apply (i_ctx _ V).
    + apply (i_ctxs _ V).
    + intros i m E. rewrite app_length. apply (i_conns _ V) in E. lia.
    + apply (i_none _ V).
    + apply (i_cfg _ V).
  - destruct (retire_spec p V) as (l & -> & F & L & S). eexists. split; [reflexivity|].
    constructor; cbn [servers conns p_cfg stopping p_ctx p_listener ctxs in_force].
    + apply Forall_app. split; [exact F|]. apply Forall_forall. intros s I. apply in_map_iff in I as (x & <- & _). apply new_sound.
    + intros b s E. apply nth_new in E as [E|(K & _ & x & -> & _)].
      * destruct (S _ _ E) as (s0 & E0 & (-> & _) & _). apply (i_flight _ V _ _ E0).
      * cbn. symmetry. apply open_for_beyond; [exact V|lia].
    + intros b s E H K. apply nth_new in E as [E|(G & G' & x & -> & _)].
      * destruct (S _ _ E) as (s0 & E0 & R & Q & O & _). destruct R as (R1 & R2 & R3 & R4).
        destruct (in_dec Nat.eq_dec b (in_force p)) as [I|I]; [right; right; apply Q; assumption|].
        right. rewrite (O I) in *. destruct (i_open _ V _ _ E0 H K) as [X|X]; [contradiction|exact X].
      * left. apply in_seq. lia.
    + apply (i_ctx _ V).
    + apply (i_ctxs _ V).
    + intros i m E. rewrite app_length. apply (i_conns _ V) in E. lia.
    + apply (i_none _ V).
    + intros c1 bs [= <- <-]. apply seq_length.
Qed.

(** Start changes nothing of the servers. *)
Lemma start_frame p a p' ok : start p a = Some (p', ok) ->
  servers p' = servers p /\ conns p' = conns p /\ p_cfg p' = p_cfg p /\ p_routes p' = p_routes p /\
  stopping p' = stopping p /\ hanging_up p' = hanging_up p /\ p_key p' = p_key p /\
  (ok = false -> p_ctx p' = p_ctx p /\ ctxs p' = ctxs p /\ p_listener p' = p_listener p) /\
  (ok = true -> p_ctx p' = Some (List.length (ctxs p)) /\ p_listener p' <> None /\ exists w, ctxs p' = ctxs p ++ [{| x_done := false; x_web := w; x_waited := false |}]).
Proof.
  unfold start. destruct (p_cfg p) as [[c bs]|] eqn:C; [|discriminate].
  assert (LF : forall q k ad b i q', listen q k ad b = Some (i, q') -> servers q' = servers q /\ conns q' = conns q /\
    p_cfg q' = p_cfg q /\ p_routes q' = p_routes q /\ stopping q' = stopping q /\ hanging_up q' = hanging_up q /\
    p_key q' = p_key q /\ p_ctx q' = p_ctx q /\ ctxs q' = ctxs q /\ p_listener q' = p_listener q).
  { intros q k ad b i q'. unfold listen. destruct (_ && _); [|discriminate]. intros [= <- <-]. cbn. auto 12. }
  destruct (match c_web c with None => _ | Some w => _ end) as [[web p1]|] eqn:W.
  - assert (F1 : servers p1 = servers p /\ conns p1 = conns p /\ p_cfg p1 = p_cfg p /\ p_routes p1 = p_routes p /\
      stopping p1 = stopping p /\ hanging_up p1 = hanging_up p /\ p_key p1 = p_key p /\ p_ctx p1 = p_ctx p /\
      ctxs p1 = ctxs p /\ p_listener p1 = p_listener p).
    { destruct (c_web c) as [w|]; [|injection W as <- <-; auto 12].
      destruct (listen p Web w (a_web a)) as [[i q]|] eqn:L; [|discriminate W]. injection W as <- <-. apply LF in L. exact L. }
    destruct (if c_quic c then start_quic p1 c a else (p1, true)) as [p2 ok2] eqn:Q.
    assert (F2 : servers p2 = servers p /\ conns p2 = conns p /\ p_cfg p2 = p_cfg p /\ p_routes p2 = p_routes p /\
      stopping p2 = stopping p /\ hanging_up p2 = hanging_up p /\ p_key p2 = p_key p /\ p_ctx p2 = p_ctx p /\
      ctxs p2 = ctxs p /\ p_listener p2 = p_listener p).
    { destruct (c_quic c); [|injection Q as <- <-; exact F1]. unfold start_quic in Q.
      destruct (listen p1 Udp (c_tls c) (a_udp a)) as [[i q]|] eqn:L; [|injection Q as <- <-; exact F1].
      apply LF in L. destruct L as (L1 & L2 & L3 & L4 & L5 & L6 & L7 & L8 & L9 & L10).
      destruct F1 as (G1 & G2 & G3 & G4 & G5 & G6 & G7 & G8 & G9 & G10).
      destruct (a_quic a); injection Q as <- <-; cbn; repeat split; congruence. }
    clear F1. destruct F2 as (G1 & G2 & G3 & G4 & G5 & G6 & G7 & G8 & G9 & G10).
    destruct ok2.
    + destruct (listen p2 Tls (c_tls c) (a_tls a)) as [[i q]|] eqn:L.
      * apply LF in L. destruct L as (L1 & L2 & L3 & L4 & L5 & L6 & L7 & L8 & L9 & L10).
        intros [= <- <-]. cbn. rewrite L9, G9. repeat split; try congruence; try discriminate. eauto.
      * intros [= <- <-]. repeat split; try congruence; try discriminate.
    + intros [= <- <-]. repeat split; try congruence; try discriminate.
  - intros [= <- <-]. repeat split; try congruence; try discriminate.
Qed.

(** States that are the same for the invariant. *)
Lemma inv_frame p p' :
  inv p -> servers p' = servers p -> (forall b, open_for b (conns p') = open_for b (conns p)) ->
  (forall i n, nth_error (conns p') i = Some n -> n_be n < List.length (servers p)) ->
  (forall b, In b (in_force p) \/ In b (stopping p) -> In b (in_force p') \/ In b (stopping p')) ->
  (p_ctx p' <> None <-> p_listener p' <> None) -> (p_ctx p' = None -> ctxs p' = []) ->
  (p_ctx p' = None -> conns p' = []) ->
  (forall c bs, p_cfg p' = Some (c, bs) -> List.length bs = List.length (c_backends c)) -> inv p'.
Proof.
  intros V S O N F X Y Z C. constructor; try assumption; rewrite ?S.
  - apply (i_sound _ V).
  - intros b s E. rewrite O. apply (i_flight _ V _ _ E).
  - intros b s E H K. destruct (i_open _ V _ _ E H K) as [I|[I|I]].
    + destruct (F b); auto.
    + destruct (F b); auto.
    + auto.
  - exact N.
Qed.

Lemma inv_start p a p' ok : inv p -> start p a = Some (p', ok) -> inv p'.
Proof.
  intros V H. apply start_frame in H as (A1 & A2 & A3 & A4 & A5 & A6 & A7 & B0 & B1).
  apply (inv_frame p); try assumption.
  - intro b. rewrite A2. reflexivity.
  - intros i n. rewrite A2. apply (i_conns _ V).
  - intro b. unfold in_force. rewrite A3, A5. auto.
  - destruct ok.
    + destruct (B1 eq_refl) as (-> & L & _). split; [intros _; exact L|congruence].
    + destruct (B0 eq_refl) as (-> & _ & ->). apply (i_ctx _ V).
  - destruct ok.
    + destruct (B1 eq_refl) as (-> & _). discriminate.
    + destruct (B0 eq_refl) as (-> & -> & _). apply (i_ctxs _ V).
  - destruct ok.
    + destruct (B1 eq_refl) as (-> & _). discriminate.
    + destruct (B0 eq_refl) as (-> & _). rewrite A2. apply (i_none _ V).
  - intros c bs. rewrite A3. apply (i_cfg _ V).
Qed.

Lemma cut_be q l i n : nth_error (cut_quic q l) i = Some n -> exists m, nth_error l i = Some m /\ n_be m = n_be n /\ n_open m = n_open n.
Proof.
  rewrite nth_cut. destruct (nth_error l i) as [m|]; [|discriminate]. cbn. intros [= <-]. exists m.
  destruct q; [destruct (n_quic m)|]; auto.
Qed.

Lemma cut_nil q l : l = [] -> cut_quic q l = [].
Proof. intros ->. destruct q; reflexivity. Qed.

Lemma inv_stop p p' : inv p -> stop p = Went p' -> inv p'.
Proof.
  intros V. unfold stop. destruct (p_listener p) as [i|] eqn:L; [|discriminate]. intros [= <-].
  pose proof (i_ctx _ V) as X. rewrite L in X.
  apply (inv_frame p); try exact V; cbn; try reflexivity.
  - intro b. apply open_for_cut.
  - intros j n E. apply cut_be in E as (m & E & <- & _). apply (i_conns _ V _ _ E).
  - intro b. unfold in_force. destruct (p_cfg p) as [[c bs]|]; cbn; rewrite in_app_iff; tauto.
  - exact X.
  - intro C. exfalso. apply X; [discriminate|exact C].
  - intro C. exfalso. apply X; [discriminate|exact C].
  - intros c bs. destruct (p_cfg p) as [[c0 bs0]|]; [|discriminate]. intros [= <- <-]. reflexivity.
Qed.

Lemma shutdown_spec p : inv p -> p_listener p <> None -> exists l, close_all close_soft (servers p) (in_force p) = Some l /\
  Forall sound l /\ List.length l = List.length (servers p) /\
  forall c s', nth_error l c = Some s' -> exists s, nth_error (servers p) c = Some s /\ later s s' /\
    (In c (in_force p) -> s_chan s' = true -> s_shut s' = true /\ 0 < s_flight s') /\ (~ In c (in_force p) -> s' = s) /\
    (0 < s_flight s -> s_chan s' = s_chan s).
Proof.
  intros V NL. assert (NC : p_ctx p <> None) by (apply (i_ctx _ V), NL).
  destruct (retire_spec p V) as (l & E & R). exists l. split; [|exact R]. revert E. unfold retire, in_force.
  destruct (p_cfg p) as [[c0 bs]|]; [|cbn; auto]. destruct (p_ctx p); [auto|congruence].
Qed.

Lemma inv_shutdown p p' : inv p -> shutdown p = Went p' -> inv p'.
Proof.
  intro V. unfold shutdown. destruct (p_listener p) as [i|] eqn:L; [|discriminate].
  destruct (shutdown_spec p V) as (l & E & F & LL & S); [congruence|]. unfold in_force in E. rewrite E. intros [= <-].
  constructor; cbn [with_conns with_servers with_socks servers conns p_cfg stopping p_ctx p_listener ctxs].
  - exact F.
  - intros b s N. destruct (S _ _ N) as (s0 & N0 & (-> & _) & _). rewrite open_for_cut. apply (i_flight _ V _ _ N0).
  - intros b s N H K. destruct (S _ _ N) as (s0 & N0 & R & Q & O & _). unfold in_force in *. cbn [with_conns with_servers with_socks p_cfg] in *.
    destruct (in_dec Nat.eq_dec b match p_cfg p with Some (_, bs) => bs | None => [] end) as [I|I]; [left; exact I|].
    rewrite (O I) in *. apply (i_open _ V _ _ N0 H K).
  - apply (i_ctx _ V).
  - apply (i_ctxs _ V).
  - intros j n N. apply cut_be in N as (m & N & <- & _). rewrite LL. apply (i_conns _ V _ _ N).
  - intro C. apply cut_nil, (i_none _ V C).
  - apply (i_cfg _ V).
Qed.

Lemma inv_hang_up p i : inv p -> i < List.length (conns p) -> exists p', hang_up p i = Went p' /\ inv p' /\
  stopping p' = stopping p /\ hanging_up p' = hanging_up p.
Proof.
  intros V Li. unfold hang_up. destruct (nth_error (conns p) i) as [n|] eqn:E; [|apply nth_error_None in E; lia].
  destruct (n_open n) eqn:O; [|exists p; auto].
  assert (NB : exists s, nth_error (servers p) (n_be n) = Some s).
  { destruct (nth_error (servers p) (n_be n)) eqn:N; [eauto|]. apply nth_error_None in N. apply (i_conns _ V) in E. lia. }
  destruct NB as [s NB]. unfold close_one. rewrite NB.
  assert (G : sound s). { pose proof (i_sound _ V) as F. rewrite Forall_forall in F. apply F. eapply nth_error_In, NB. }
  destruct (leave_spec s G) as (s' & -> & G' & F1 & F2 & F3 & F4 & F5 & F6 & F7).
  eexists. split; [reflexivity|]. split; [|cbn; auto]. pose proof (i_flight _ V _ _ NB) as FL.
  assert (P : 0 < s_flight s) by (rewrite FL; eapply open_for_pos; eauto).
  constructor; cbn.
  - apply Forall_forall. intros x I. apply In_nth_error in I as [c I]. rewrite nth_change in I.
    destruct (Nat.eqb_spec (n_be n) c) as [Q|N]; [rewrite <- Q in *|].
    + rewrite NB in I. cbn in I. congruence.
    + pose proof (i_sound _ V) as F. rewrite Forall_forall in F. apply F. eapply nth_error_In, I.
  - intros b x I. pose proof (open_for_change b i (fun n => {| n_be := n_be n; n_quic := n_quic n; n_open := false; n_cut := n_cut n |}) _ _ E) as K.
    cbn in K. rewrite O in K. cbn [andb] in K. rewrite nth_change in I. destruct (Nat.eqb_spec (n_be n) b) as [Q|N]; [rewrite <- Q in *|].
    + rewrite NB in I. cbn in I. injection I as <-. rewrite F1, FL. unfold open_for in *. lia.
    + rewrite (i_flight _ V _ _ I). unfold open_for in *. lia.
  - intros b x I H K. rewrite nth_change in I. destruct (Nat.eqb_spec (n_be n) b) as [Q|N]; [rewrite <- Q in *|].
    + rewrite NB in I. cbn in I. injection I as <-. rewrite F2 in K. destruct (i_open _ V _ _ NB (F3 H) K) as [X|[X|[X Y]]]; auto.
      right. right. rewrite F4, F1. split; [exact X|]. destruct (pred (s_flight s)) eqn:Z; [|lia].
      rewrite (F6 X eq_refl) in H. discriminate H.
    + apply (i_open _ V _ _ I H K).
  - apply (i_ctx _ V).
  - apply (i_ctxs _ V).
  - intros j m J. rewrite change_length. rewrite nth_change in J. destruct (Nat.eqb_spec i j) as [<-|N].
    + rewrite E in J. cbn in J. injection J as <-. cbn. apply (i_conns _ V _ _ E).
    + apply (i_conns _ V _ _ J).
  - intro C. rewrite (i_none _ V C) in E. destruct i; discriminate E.
  - apply (i_cfg _ V).
Qed.

Lemma inv_work p v w : inv p -> (forall b, In b (stopping p) -> In b (in_force p) \/ In b v) -> inv (with_work p v w).
Proof.
  intros V H. apply (inv_frame p); try exact V; cbn; try reflexivity.
  - apply (i_conns _ V).
  - intros b [I|I]; [auto|]. destruct (H b I); auto.
  - apply (i_ctx _ V).
  - apply (i_ctxs _ V).
  - apply (i_none _ V).
  - apply (i_cfg _ V).
Qed.

Lemma cancel_nil x l : l = [] -> cancel x l = [].
Proof. intros ->. destruct x as [[|]|]; reflexivity. Qed.

Lemma inv_step p e p' : inv p -> step p e = Went p' -> inv p'.
Proof.
  intros V. destruct e as [c fail|a| |b|i| |x|x|b q|i]; cbn [step].
  - destruct (inv_reconfigure p c fail V) as (q & -> & W). intros [= <-]. exact W.
  - destruct (start p a) as [[q ok]|] eqn:S; [|discriminate]. intros [= <-]. eapply inv_start; eassumption.
  - apply inv_stop, V.
  - destruct (among b (stopping p)) eqn:M; [|discriminate].
    destruct (close_one_spec close_hard sound (fun s' => s_chan s' = false) later (servers p) b) as (l & -> & F & L & S).
    { apply later_refl. }
    { intros s G. destruct (hard_spec s G) as (s' & A & B & D & Q). exists s'. auto. }
    { apply (i_sound _ V). }
    intros [= <-]. constructor; cbn.
    + exact F.
    + intros c s N. destruct (S _ _ N) as (s0 & N0 & (-> & _) & _). apply (i_flight _ V _ _ N0).
    + intros c s N H K. destruct (S _ _ N) as (s0 & N0 & (R1 & R2 & R3 & R4) & Q & O).
      destruct (Nat.eq_dec c b) as [->|NE]; [rewrite (Q eq_refl) in H; discriminate H|].
      rewrite (O NE) in *. destruct (i_open _ V _ _ N0 H K) as [I|[I|I]]; auto.
      right. left. apply in_remove1; auto.
    + apply (i_ctx _ V).
    + apply (i_ctxs _ V).
    + rewrite L. apply (i_conns _ V).
    + apply (i_none _ V).
    + apply (i_cfg _ V).
  - destruct (among i (hanging_up p)); [|discriminate].
    destruct (Nat.lt_ge_cases i (List.length (conns p))) as [L|L].
    + destruct (inv_hang_up p i V L) as (q & -> & W & S & _). intros [= <-]. apply inv_work; auto.
    + unfold hang_up. apply nth_error_None in L. rewrite L. discriminate.
  - apply inv_shutdown, V.
  - intros [= <-]. apply (inv_frame p); try exact V; cbn [with_ctxs servers conns p_cfg stopping p_ctx p_listener ctxs in_force]; try reflexivity.
    + apply (i_conns _ V).
    + auto.
    + apply (i_ctx _ V).
    + intro C. rewrite (i_ctxs _ V C). destruct x; reflexivity.
    + apply (i_none _ V).
    + apply (i_cfg _ V).
  - destruct (nth_error (ctxs p) x) as [c|] eqn:X; [|discriminate]. destruct (x_done c && negb (x_waited c)); [|discriminate].
    apply inv_stop. apply (inv_frame p); try exact V; cbn; try reflexivity.
    + apply (i_conns _ V).
    + auto.
    + apply (i_ctx _ V).
    + intro C. rewrite (i_ctxs _ V C) in X. destruct x; discriminate X.
    + apply (i_none _ V).
    + apply (i_cfg _ V).
  - unfold arrive. destruct (p_ctx p) as [k|] eqn:C; [|discriminate]. destruct (nth_error (servers p) b) as [s|] eqn:N; [|discriminate].
    destruct (_ && _); [|discriminate]. intros [= <-]. constructor; cbn [with_conns with_servers servers conns p_cfg stopping p_ctx p_listener ctxs].
    + apply Forall_forall. intros y I. apply In_nth_error in I as [c I]. rewrite nth_change in I.
      pose proof (i_sound _ V) as F. rewrite Forall_forall in F.
      destruct (Nat.eqb_spec b c) as [Q|NE]; [rewrite <- Q in *|apply F; eapply nth_error_In, I].
      rewrite N in I. cbn in I. injection I as <-. apply (F s). eapply nth_error_In, N.
    + intros c y I. rewrite open_for_snoc. cbn [n_open n_be andb]. rewrite nth_change in I. destruct (Nat.eqb_spec b c) as [Q|NE]; [rewrite <- Q in *|].
      * rewrite N in I. cbn in I. injection I as <-. cbn. rewrite (i_flight _ V _ _ N). lia.
      * rewrite (i_flight _ V _ _ I). lia.
    + intros c y I H K. rewrite nth_change in I. destruct (Nat.eqb_spec b c) as [Q|NE]; [rewrite <- Q in *|].
      * rewrite N in I. cbn in I. injection I as <-. cbn in *. destruct (i_open _ V _ _ N H K) as [I|[I|[I J]]]; auto.
        right. right. split; [exact I|lia].
      * apply (i_open _ V _ _ I H K).
    + apply (i_ctx _ V).
    + apply (i_ctxs _ V).
    + intros i n I. rewrite change_length. apply nth_snoc in I as [I|[_ ->]]; [apply (i_conns _ V _ _ I)|]. cbn. eapply nth_lt, N.
    + rewrite C. discriminate.
    + apply (i_cfg _ V).
  - destruct (Nat.lt_ge_cases i (List.length (conns p))) as [L|L].
    + destruct (inv_hang_up p i V L) as (q & -> & W & _). intros [= <-]. exact W.
    + unfold hang_up. apply nth_error_None in L. rewrite L. discriminate.
Qed.

Lemma run_app p tr1 tr2 : run p (tr1 ++ tr2) = match run p tr1 with Went q => run q tr2 | r => r end.
Proof. revert p. induction tr1 as [|e tr IH]; intro p; [reflexivity|]. cbn. destruct (step p e); auto. Qed.

Lemma inv_run tr : forall p p', inv p -> run p tr = Went p' -> inv p'.
Proof.
  induction tr as [|e tr IH]; intros p p' V; cbn; [intros [= <-]; exact V|].
  destruct (step p e) as [q| |] eqn:S; try discriminate. apply IH. eapply inv_step; eassumption.
Qed.
Lemma inv_reaches tr p : reaches tr p -> inv p.
Proof. apply inv_run, inv_fresh. Qed.

(** ** Panics *)

Lemma step_panic p e : inv p -> step p e = Panicked -> (e = EStop \/ e = EShutdown) /\ p_listener p = None.
Proof.
  intro V. destruct e as [c fail|a| |b|i| |x|x|b q|i]; cbn [step].
  - destruct (inv_reconfigure p c fail V) as (q & -> & W). discriminate.
  - destruct (start p a) as [[q ok]|]; discriminate.
  - unfold stop. destruct (p_listener p); [discriminate|]. auto.
  - destruct (among b (stopping p)); [|discriminate].
    destruct (close_one_spec close_hard sound (fun s' => s_chan s' = false) later (servers p) b) as (l & -> & _).
    { apply later_refl. }
    { intros s G. destruct (hard_spec s G) as (s' & A & B & D & Q). exists s'. auto. }
    { apply (i_sound _ V). }
    discriminate.
  - destruct (among i (hanging_up p)); [|discriminate].
    destruct (Nat.lt_ge_cases i (List.length (conns p))) as [L|L].
    + destruct (inv_hang_up p i V L) as (q & -> & _). discriminate.
    + unfold hang_up. apply nth_error_None in L. rewrite L. discriminate.
  - unfold shutdown. destruct (p_listener p) as [i|] eqn:L; [|auto].
    destruct (shutdown_spec p V) as (l & E & _); [congruence|]. unfold in_force in E. rewrite E. discriminate.
  - discriminate.
  - destruct (nth_error (ctxs p) x) as [c|] eqn:X; [|discriminate]. destruct (x_done c && negb (x_waited c)); [|discriminate].
    unfold stop. cbn. destruct (p_listener p) as [i|] eqn:L; [discriminate|]. exfalso.
    assert (C : p_ctx p = None). { destruct (p_ctx p) eqn:C; [|reflexivity]. destruct (i_ctx _ V) as [A _]. rewrite C, L in A. exfalso. apply A; congruence. }
    rewrite (i_ctxs _ V C) in X. destruct x; discriminate X.
  - unfold arrive. destruct (p_ctx p); [|discriminate]. destruct (nth_error (servers p) b); [|discriminate]. destruct (_ && _); discriminate.
  - destruct (Nat.lt_ge_cases i (List.length (conns p))) as [L|L].
    + destruct (inv_hang_up p i V L) as (q & -> & _). discriminate.
    + unfold hang_up. apply nth_error_None in L. rewrite L. discriminate.
Qed.

Lemma panics tr : forall p, inv p -> run p tr = Panicked ->
  exists tr1 e tr2 q, tr = tr1 ++ e :: tr2 /\ run p tr1 = Went q /\ (e = EStop \/ e = EShutdown) /\ p_listener q = None.
Proof.
  induction tr as [|e tr IH]; intros p V; cbn; [discriminate|].
  destruct (step p e) as [q| |] eqn:S; try discriminate.
  - intro R. destruct (IH q (inv_step _ _ _ V S) R) as (tr1 & e' & tr2 & q' & -> & R1 & K & L).
    exists (e :: tr1), e', tr2, q'. cbn. rewrite S. auto.
  - intros _. destruct (step_panic p e V S) as [K L]. exists [], e, tr, p. auto.
Qed.
