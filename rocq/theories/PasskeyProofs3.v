(** Proofs about the passkey manager: keys of users, and challenges. *)
From Verif Require Import Base PasskeyModel PasskeySpec LoginProofs LoginProofs2 PasskeyProofs PasskeyProofs2.
Open Scope Z_scope.

Lemma keys_of_set drawn st ch h u u' m :
  Inv drawn st -> assoc h (p_handles st) = Some u ->
  keys_of {| p_challenges := ch; p_subjects := p_subjects st; p_handles := assoc_set h u' (p_handles st) |} m =
  if opt_eqb str_eqb (u_email (us_claims u)) (Some m) then us_keys u' else keys_of st m.
Proof.
  intros I A. unfold keys_of. cbn [p_subjects p_handles]. destruct (i_handle _ _ I _ _ A) as (m0 & E1 & E2). rewrite E1. cbn [opt_eqb].
  destruct (str_eqb m0 m) eqn:Em.
  - apply str_eqb_spec in Em as ->. rewrite E2, assoc_set_eq. reflexivity.
  - destruct (assoc m (p_subjects st)) as [h'|] eqn:Es; [|reflexivity].
    destruct (i_subject _ _ I _ _ Es) as (v & Av & Ev). rewrite assoc_set_neq; [reflexivity|].
    intros ->. assert (m0 = m) by congruence. subst. rewrite str_eqb_refl in Em. discriminate.
Qed.

Lemma keys_of_same st st' m : p_subjects st' = p_subjects st -> p_handles st' = p_handles st -> keys_of st' m = keys_of st m.
Proof. intros E1 E2. unfold keys_of. rewrite E1, E2. reflexivity. Qed.

Lemma keys_step e drawn st o m :
  Inv drawn st -> keys_of (fst (pstep e st o)) m = keys_change e m (keys_of st m) o (snd (pstep e st o)).
Proof.
  intros I. destruct o as [now|c uid ch now|c host cdata att allow|ch now|a token now|c sk id]; cbn [pstep].
  - reflexivity.
  - unfold attestation_options. destruct (u_email c); [|reflexivity]. destruct (assoc l (p_subjects st)); [|reflexivity]. destruct (assoc l0 (p_handles st)); reflexivity.
  - destruct (negb allow && negb _); [reflexivity|].
    destruct (attestation_spec e c host cdata att allow st) as [[E (D1 & D2 & _)]|(k & E & A)]; rewrite E.
    + cbn [keys_change]. apply keys_of_same; assumption.
    + destruct A as (m0 & cd & uid & created & raw & ad & aaguid & Em & _ & _ & _ & Ech & _ & _ & _ & _ & _ & _ & _ & Ec & [(h & u & Es & Eh & _ & Es' & Eh')|(Es & Es' & Eh')]);
        cbn [keys_change]; rewrite Em; cbn [opt_eqb]; destruct (fst (process_attestation e c host cdata att allow st)) as [ch' su' ha']; cbn in Es', Eh'; subst su' ha'.
      * rewrite (keys_of_set drawn st _ _ _ _ _ I Eh). destruct (i_subject _ _ I _ _ Es) as (u' & A1 & A2). assert (u' = u) by congruence. subst u'. rewrite A2. cbn [opt_eqb us_keys].
        destruct (str_eqb m0 m) eqn:E0; [|reflexivity]. apply str_eqb_spec in E0 as <-. unfold keys_of. rewrite Es, Eh. reflexivity.
      * assert (Es0 : assoc m0 (p_subjects st) = None).
        { destruct Es as [Es|(h & Es & Eh)]; [exact Es|]. destruct (i_subject _ _ I _ _ Es) as (u & A & _). congruence. }
        destruct (i_ch _ _ I _ _ _ _ Ech) as (_ & Dr & Hu).
        assert (Eh0 : assoc uid (p_handles st) = None).
        { destruct (assoc uid (p_handles st)) as [u|] eqn:A; [|reflexivity]. specialize (Hu u eq_refl).
          destruct (i_handle _ _ I _ _ A) as (m' & E1 & E2). congruence. }
        unfold keys_of. cbn [p_subjects p_handles]. destruct (str_eqb m0 m) eqn:E0.
        -- apply str_eqb_spec in E0 as <-. rewrite assoc_set_eq, assoc_set_eq, Es0. reflexivity.
        -- rewrite assoc_set_neq by (intros ->; rewrite str_eqb_refl in E0; discriminate).
           destruct (assoc m (p_subjects st)) as [h|] eqn:Esm; [|reflexivity].
           rewrite assoc_set_neq; [reflexivity|]. intros ->. destruct (i_subject _ _ I _ _ Esm) as (v & Av & _). congruence.
  - reflexivity.
  - destruct (check_spec e a token now st) as [[Ac (D1 & D2 & _)]|(c & k & A & Out)].
    + cbn [keys_change]. apply keys_of_same; assumption.
    + destruct A as (cd & ad & h & u & id & created & _ & _ & _ & _ & _ & _ & Eh & _ & _ & _ & _ & Ec & _ & Es & Eh').
      assert (keys_of (fst (check e a token now st)) m = keys_of st m) as ->.
      { destruct (fst (check e a token now st)) as [ch' su' ha']. cbn in Es, Eh'. subst su' ha'. rewrite (keys_of_set drawn st _ _ _ _ _ I Eh). cbn [us_keys].
        destruct (opt_eqb str_eqb (u_email (us_claims u)) (Some m)) eqn:E0; [|reflexivity]. apply opt_eqb_str in E0.
        destruct (i_handle _ _ I _ _ Eh) as (m' & E1 & E2). assert (m' = m) by congruence. subst. unfold keys_of. rewrite E2, Eh. reflexivity. }
      reflexivity.
  - destruct (str_eqb sk (e_hash e id)); [reflexivity|]. cbn [fst snd keys_change]. set (m0 := match u_email c with Some x => x | None => [] end).
    unfold delete_key. destruct (assoc m0 (p_subjects st)) as [h|] eqn:Es.
    + destruct (i_subject _ _ I _ _ Es) as (u & Eh & Eu). rewrite Eh. rewrite (keys_of_set drawn st _ _ _ _ _ I Eh), Eu. cbn [opt_eqb us_keys].
      destruct (str_eqb m0 m) eqn:E0; [|reflexivity]. apply str_eqb_spec in E0 as <-. unfold keys_of. rewrite Es, Eh. reflexivity.
    + destruct (str_eqb m0 m) eqn:E0; [|reflexivity]. apply str_eqb_spec in E0 as <-. unfold keys_of. rewrite Es. reflexivity.
Qed.

Lemma keys_history e ops o m :
  NoDup (uids ops) -> keys_of (pafter e (ops ++ [o])) m = keys_change e m (keys_of (pafter e ops) m) o (panswer e ops o).
Proof. intros N. rewrite pafter_snoc. unfold panswer. exact (keys_step e (uids ops) _ o m (pafter_Inv e ops N)). Qed.

(** Where a key comes from. *)
Lemma keys_origin e ops m k :
  NoDup (uids ops) -> In k (keys_of (pafter e ops) m) ->
  exists before between c host cdata att allow,
    ops = before ++ AddKey c host cdata att allow :: between /\ panswer e before (AddKey c host cdata att allow) = PAdded c k /\
    u_email c = Some m /\ Forall (fun o => ~ deletes e m (k_id k) o) between.
Proof.
  induction ops as [|o ops IH] using rev_ind; intros N H; [destruct H|].
  rewrite uids_app in N. assert (N' := NoDup_app_l _ _ N). rewrite keys_history in H by exact N'.
  assert (K : In k (keys_of (pafter e ops) m) -> ~ deletes e m (k_id k) o ->
     exists before between c host cdata att allow,
    ops ++ [o] = before ++ AddKey c host cdata att allow :: between /\ panswer e before (AddKey c host cdata att allow) = PAdded c k /\
    u_email c = Some m /\ Forall (fun o => ~ deletes e m (k_id k) o) between).
  { intros Hk Hd. destruct (IH N' Hk) as (before & between & c & host & cdata & att & allow & -> & H1 & H2 & H3).
    exists before, (between ++ [o]), c, host, cdata, att, allow. rewrite <- app_assoc. repeat split; auto. apply Forall_app. auto. }
  destruct o as [now|c uid ch now|c host cdata att allow|ch now|a token now|c sk id]; cbn [keys_change] in H;
    try (apply K; [exact H|intros (c' & sk' & [=] & _)]).
  - destruct (panswer e ops (AddKey c host cdata att allow)) as [| | |c' k'|c' k'] eqn:An; try (apply K; [exact H|intros (c1 & sk' & [=] & _)]).
    destruct (opt_eqb str_eqb (u_email c) (Some m)) eqn:E0; [|apply K; [exact H|intros (c1 & sk' & [=] & _)]].
    apply in_app_iff in H as [H|[->|[]]]; [apply K; [exact H|intros (c1 & sk' & [=] & _)]|].
    apply opt_eqb_str in E0. exists ops, [], c, host, cdata, att, allow. repeat split; auto.
    rewrite An. f_equal. unfold panswer in An. cbn [pstep] in An. destruct (negb allow && negb _); [discriminate|].
    destruct (attestation_spec e c host cdata att allow (pafter e ops)) as [[E _]|(k1 & E & _)]; congruence.
  - assert (An : panswer e ops (DeleteKey c sk id) = if str_eqb sk (e_hash e id) then PRefused else PNothing).
    { unfold panswer. cbn [pstep]. destruct (str_eqb sk (e_hash e id)); reflexivity. }
    rewrite An in H. destruct (str_eqb sk (e_hash e id)) eqn:Esk.
    + apply K; [exact H|]. intros (c' & sk' & [= -> -> ->] & Ne & _). apply str_eqb_spec in Esk. contradiction.
    + destruct (str_eqb _ m) eqn:E0.
      * apply filter_In in H as [H Hk]. apply K; [exact H|]. intros (c' & sk' & [= -> -> ->] & _). rewrite str_eqb_refl in Hk. discriminate.
      * apply K; [exact H|]. intros (c' & sk' & [= -> -> ->] & _ & Em). rewrite Em, str_eqb_refl in E0. discriminate.
Qed.

Lemma login_spec e ops a token now c k :
  NoDup (uids ops) -> panswer e ops (Check a token now) = PLogin c k ->
  exists m, u_email c = Some m /\ In k (keys_of (pafter e ops) m) /\ a_id a = Some (k_id k) /\
    e_verify e (k_pub k) (a_adata a) (a_cdata a) (a_sig a) = true /\
    (exists ad, parse_auth_data (e_cbor e) (a_adata a) = Ok ad /\ ad_up ad = true /\ ad_uv ad = true /\ ad_rp ad = k_rp k) /\
    (0 < e_refresh e -> exists t, u_iat c = Some t /\ now - t <= e_refresh e).
Proof.
  intros N H. pose proof (pafter_Inv e ops N) as I. unfold panswer in H. cbn [pstep] in H.
  destruct (check_spec e a token now (pafter e ops)) as [[Ac _]|(c' & k' & A & [E|[E|(E & Em & Rf)]])]; try congruence.
  - rewrite H in Ac. discriminate.
  - rewrite E in H. injection H as -> ->.
    destruct A as (cd & ad & h & u & id & created & _ & _ & Ep & Eu & Ev & _ & Eh & Eid & Ef & Er & Es & Ec & _).
    destruct (i_handle _ _ I _ _ Eh) as (m & E1 & E2). exists m.
    apply find_some in Ef as [Hin Hid]. apply str_eqb_spec in Hid. subst id.
    repeat split; auto.
    + rewrite Ec, refreshed_email. exact E1.
    + unfold keys_of. rewrite E2, Eh. exact Hin.
    + exists ad. auto.
Qed.

(** Challenges. *)
Lemma uses_bound e ops ch :
  (uses e ch (poutputs e ops) + held ch (p_challenges (pafter e ops)) <= List.length (filter (fun x => str_eqb x ch) (challenges_drawn ops)))%nat.
Proof.
  assert (ND : forall ops, NoDup (map fst (p_challenges (pafter e ops)))).
  { clear. intros ops. induction ops as [|o ops IH] using rev_ind; [constructor|]. rewrite pafter_snoc.
    assert (Dr : forall st', drops (pafter e ops) st' -> NoDup (map fst (p_challenges st'))).
    { intros st' (_ & _ & [->|[k ->]]); [exact IH|apply NoDup_del; exact IH]. }
    destruct o as [now|c uid ch now|c host cdata att allow|ch now|a token now|c sk id]; cbn [pstep].
    - cbn. apply NoDup_filter_keys. exact IH.
    - unfold attestation_options. destruct (u_email c); [|exact IH]. destruct (assoc l _); [destruct (assoc l0 _)|]; cbn [fst p_challenges]; try exact IH; apply NoDup_set; exact IH.
    - destruct (negb allow && negb _); [exact IH|].
      destruct (attestation_spec e c host cdata att allow (pafter e ops)) as [[_ D]|(k & _ & A)]; [exact (Dr _ D)|].
      destruct A as (? & ? & ? & ? & ? & ? & ? & _ & _ & _ & _ & _ & _ & _ & _ & _ & _ & _ & _ & Ec & _). rewrite Ec. apply NoDup_del. exact IH.
    - cbn [assertion_options fst p_challenges]. apply NoDup_set. exact IH.
    - destruct (check_spec e a token now (pafter e ops)) as [[_ D]|(c & k & A & _)]; [exact (Dr _ D)|].
      destruct A as (? & ? & ? & ? & ? & ? & _ & _ & _ & _ & _ & _ & _ & _ & _ & _ & _ & _ & Ec & _). rewrite Ec. apply NoDup_del. exact IH.
    - destruct (str_eqb sk _); [exact IH|]. cbn [fst]. unfold delete_key. destruct (assoc _ _); [|exact IH]. destruct (assoc _ _); exact IH. }
  assert (Dr : forall st st', drops st st' -> (held ch (p_challenges st') <= held ch (p_challenges st))%nat).
  { intros st st' (_ & _ & [->|[k ->]]); [lia|]. rewrite held_del. destruct (str_eqb k ch); lia. }
  induction ops as [|o ops IH] using rev_ind; [cbn; lia|].
  rewrite poutputs_snoc, pafter_snoc. unfold uses in *. rewrite filter_snoc_len. cbn [fst snd].
  unfold challenges_drawn in *. rewrite flat_map_app, filter_app, app_length. cbn [flat_map]. rewrite app_nil_r. unfold panswer.
  specialize (ND ops).
  destruct o as [now|c uid ch' now|c host cdata att allow|ch' now|a token now|c sk id]; cbn [pstep challenge_of].
  - cbn [fst snd vacuum p_challenges accepted]. pose proof (held_filter (fun x => negb (ch_created x + 300 <? now)) ch _ ND). cbn. lia.
  - unfold attestation_options. destruct (u_email c); [|cbn; lia].
    destruct (assoc l _); [destruct (assoc l0 _)|]; cbn [fst snd p_challenges accepted andb filter]; rewrite ?held_set; destruct (str_eqb ch' ch); cbn [List.length]; lia.
  - destruct (negb allow && negb _); [cbn; lia|].
    destruct (attestation_spec e c host cdata att allow (pafter e ops)) as [[E D]|(k & E & A)]; rewrite E; cbn [accepted andb filter List.length].
    + specialize (Dr _ _ D). lia.
    + destruct A as (m & cd & uid & created & raw & ad & aa & _ & Ecd & _ & _ & Ech & _ & _ & _ & _ & _ & _ & _ & Ec & _). rewrite Ecd, Ec, held_del. cbn [option_map opt_eqb].
      destruct (str_eqb (cd_challenge cd) ch) eqn:E0; [|lia]. apply str_eqb_spec in E0 as <-. unfold held in IH. rewrite Ech in IH. lia.
  - cbn [assertion_options fst snd p_challenges accepted andb filter]. rewrite held_set. destruct (str_eqb ch' ch); cbn [List.length]; lia.
  - cbn [filter List.length]. destruct (check_spec e a token now (pafter e ops)) as [[E D]|(c & k & A & _)].
    + rewrite E. cbn [andb]. specialize (Dr _ _ D). lia.
    + destruct A as (cd & ad & h & u & id & created & Ecd & _ & _ & _ & _ & Ech & _ & _ & _ & _ & _ & _ & Ec & _). rewrite Ecd, Ec, held_del. cbn [option_map opt_eqb].
      destruct (str_eqb (cd_challenge cd) ch) eqn:E0; [|rewrite andb_false_r; lia]. apply str_eqb_spec in E0 as <-. unfold held in IH. rewrite Ech in IH.
      destruct (accepted _); cbn [andb]; lia.
  - cbn [filter List.length]. destruct (str_eqb sk _); [cbn; lia|]. cbn [fst snd accepted andb].
    assert (p_challenges (delete_key match u_email c with Some m => m | None => [] end id (pafter e ops)) = p_challenges (pafter e ops)) as ->; [|lia].
    unfold delete_key. destruct (assoc _ _); [|reflexivity]. destruct (assoc _ _); reflexivity.
Qed.

(** Where a pending challenge comes from. *)
Definition asks (ch : str) (c : challenge) (o : pop) : Prop :=
  match ch_for c with
  | None => o = AssOptions ch (ch_created c)
  | Some (cl, _) => exists uid, o = AttOptions cl uid ch (ch_created c)
  end.
Lemma challenge_origin e ops ch c :
  assoc ch (p_challenges (pafter e ops)) = Some c -> NoDup (map fst (p_challenges (pafter e ops))) /\
  exists before between o, ops = before ++ o :: between /\ asks ch c o /\ (forall v, In (Vacuum v) between -> v <= ch_created c + 300).
Proof.
  assert (ND : forall ops, NoDup (map fst (p_challenges (pafter e ops))) /\ forall ch c, assoc ch (p_challenges (pafter e ops)) = Some c -> 
     exists before between o, ops = before ++ o :: between /\ asks ch c o /\ (forall v, In (Vacuum v) between -> v <= ch_created c + 300)).
  2: { intros A. destruct (ND ops) as [N H]. split; [exact N|]. exact (H _ _ A). }
  clear. intros ops. induction ops as [|o ops [N IH]] using rev_ind; [split; [constructor|discriminate]|].
  rewrite pafter_snoc.
  assert (K : forall ch c, assoc ch (p_challenges (pafter e ops)) = Some c -> (forall v, o = Vacuum v -> v <= ch_created c + 300) ->
     exists before between o', ops ++ [o] = before ++ o' :: between /\ asks ch c o' /\ (forall v, In (Vacuum v) between -> v <= ch_created c + 300)).
  { intros ch c A V. destruct (IH _ _ A) as (before & between & o' & -> & H1 & H2). exists before, (between ++ [o]), o'. rewrite <- app_assoc. repeat split; auto.
    intros v Iv. apply in_app_iff in Iv as [Iv|[->|[]]]; auto. }
  assert (D : (forall v, o <> Vacuum v) -> forall st', p_challenges st' = p_challenges (pafter e ops) \/ (exists k, p_challenges st' = assoc_del k (p_challenges (pafter e ops))) ->
     NoDup (map fst (p_challenges st')) /\ forall ch c, assoc ch (p_challenges st') = Some c ->
     exists before between o', ops ++ [o] = before ++ o' :: between /\ asks ch c o' /\ (forall v, In (Vacuum v) between -> v <= ch_created c + 300)).
  { intros V st' [->|[k ->]]; (split; [first [exact N|apply NoDup_del; exact N]|]); intros ch c A; [|apply assoc_del_inv in A as [_ A]]; apply K; auto; intros v E; destruct (V _ E). }
  assert (S : (forall v, o <> Vacuum v) -> forall ch c, asks ch c o -> forall st', p_challenges st' = assoc_set ch c (p_challenges (pafter e ops)) ->
     NoDup (map fst (p_challenges st')) /\ forall ch c, assoc ch (p_challenges st') = Some c ->
     exists before between o', ops ++ [o] = before ++ o' :: between /\ asks ch c o' /\ (forall v, In (Vacuum v) between -> v <= ch_created c + 300)).
  { intros V ch c As st' ->. split; [apply NoDup_set; exact N|]. intros ch' c' A. apply assoc_set_inv in A as [[-> ->]|[Ne A]].
    - exists ops, [], o. repeat split; auto. intros v [].
    - apply K; auto. intros v E. destruct (V _ E). }
  destruct o as [now|c uid ch now|c host cdata att allow|ch now|a token now|c sk id]; cbn [pstep].
  - cbn [vacuum fst p_challenges]. split; [apply NoDup_filter_keys; exact N|]. intros ch c A.
    apply (assoc_filter_Some (fun x => negb (ch_created x + 300 <? now))) in A as [A P]; [|exact N]. apply negb_true_iff in P. apply Z.ltb_ge in P.
    apply K; auto. intros v [= <-]. exact P.
  - unfold attestation_options. destruct (u_email c); [|apply D; [discriminate|auto]].
    destruct (assoc l _); [destruct (assoc l0 _)|].
    + eapply S; [discriminate| |reflexivity]. cbn. exists uid. reflexivity.
    + apply D; [discriminate|auto].
    + eapply S; [discriminate| |reflexivity]. cbn. exists uid. reflexivity.
  - destruct (negb allow && negb _); [apply D; [discriminate|auto]|].
    destruct (attestation_spec e c host cdata att allow (pafter e ops)) as [[_ (_ & _ & Dd)]|(k & _ & A)]; [apply D; [discriminate|exact Dd]|].
    destruct A as (? & ? & ? & ? & ? & ? & ? & _ & _ & _ & _ & _ & _ & _ & _ & _ & _ & _ & _ & Ec & _). apply D; [discriminate|]. right. eexists. exact Ec.
  - eapply S; [discriminate| |reflexivity]. reflexivity.
  - destruct (check_spec e a token now (pafter e ops)) as [[_ (_ & _ & Dd)]|(c & k & A & _)]; [apply D; [discriminate|exact Dd]|].
    destruct A as (? & ? & ? & ? & ? & ? & _ & _ & _ & _ & _ & _ & _ & _ & _ & _ & _ & _ & Ec & _). apply D; [discriminate|]. right. eexists. exact Ec.
  - destruct (str_eqb sk _); [apply D; [discriminate|auto]|]. cbn [fst]. unfold delete_key. destruct (assoc _ _); [|apply D; [discriminate|auto]]. destruct (assoc _ _); apply D; try discriminate; auto.
Qed.

Lemma added_challenge e ops c host cdata att allow k :
  panswer e ops (AddKey c host cdata att allow) = PAdded c k ->
  exists cd before between uid t,
    e_client_data e cdata = Some cd /\ cd_origin cd = lit "https://" ++ host /\ cd_type cd = lit "webauthn.create" /\ k_rp k = e_hash e (e_hostname e host) /\
    ops = before ++ AttOptions c uid (cd_challenge cd) t :: between /\ (forall v, In (Vacuum v) between -> v <= t + 300).
Proof.
  unfold panswer. cbn [pstep]. destruct (negb allow && negb _); [discriminate|].
  destruct (attestation_spec e c host cdata att allow (pafter e ops)) as [[E _]|(k1 & E & A)]; [congruence|]. rewrite E. intros [= ->].
  destruct A as (m & cd & uid & created & raw & ad & aa & _ & Ecd & Ety & Eor & Ech & _ & _ & Erp & _ & _ & _ & Ek & _).
  apply challenge_origin in Ech as (_ & before & between & o & -> & As & V). cbn in As. destruct As as (uid' & ->).
  exists cd, before, between, uid', created. repeat split; auto. congruence.
Qed.
Lemma login_challenge e ops a token now c k :
  panswer e ops (Check a token now) = PLogin c k ->
  exists cd before between o t,
    e_client_data e (a_cdata a) = Some cd /\ cd_type cd = lit "webauthn.get" /\
    ops = before ++ o :: between /\ (o = AssOptions (cd_challenge cd) t \/ exists cl uid, o = AttOptions cl uid (cd_challenge cd) t) /\
    (forall v, In (Vacuum v) between -> v <= t + 300).
Proof.
  unfold panswer. cbn [pstep]. intros H.
  destruct (check_spec e a token now (pafter e ops)) as [[Ac _]|(c' & k' & A & _)]; [rewrite H in Ac; discriminate|].
  destruct A as (cd & ad & h & u & id & created & Ecd & Ety & _ & _ & _ & Ech & _).
  apply challenge_origin in Ech as (_ & before & between & o & -> & As & V). exists cd, before, between, o, (ch_created created). repeat split; auto.
  unfold asks in As. destruct (ch_for created) as [[cl uid]|]; [|auto]. right. destruct As as (uid' & ->). eauto.
Qed.

(** Clocks. *)
Lemma pclock_later t a o b u : pclock t (a ++ o :: b) -> pop_time o = Some u -> t <= u.
Proof.
  revert t. induction a as [|x a IH]; intros t H E; cbn in H.
  - rewrite E in H. tauto.
  - destruct (pop_time x); [destruct H as [H1 H2]; specialize (IH _ H2 E); lia|exact (IH _ H E)].
Qed.
Lemma pclock_drop t a b : pclock t (a ++ b) -> exists t', t <= t' /\ pclock t' b.
Proof.
  revert t. induction a as [|x a IH]; intros t H; cbn in H; [exists t; split; [lia|auto]|].
  destruct (pop_time x) as [u|]; [destruct H as [H1 H2]; destruct (IH _ H2) as (t' & L & C); exists t'; split; [lia|exact C]|exact (IH _ H)].
Qed.
Lemma pclock_order t a o b p c u v : pclock t (a ++ o :: b ++ p :: c) -> pop_time o = Some u -> pop_time p = Some v -> u <= v.
Proof.
  intros H E1 E2. destruct (pclock_drop _ _ _ H) as (t' & _ & C). cbn in C. rewrite E1 in C. destruct C as [_ C].
  exact (pclock_later _ _ _ _ _ C E2).
Qed.
Lemma age_bound t0 a v b before o between t :
  pclock t0 (a ++ Vacuum v :: b) -> a ++ Vacuum v :: b = before ++ o :: between -> pop_time o = Some t -> (forall w, o <> Vacuum w) ->
  (forall w, In (Vacuum w) between -> w <= t + 300) -> v <= t + 300.
Proof.
  intros C E T O V. destruct (split_mid _ _ _ _ _ _ E) as [(_ & B & _)|[(m & -> & ->)|(m & -> & ->)]].
  - destruct (O v). auto.
  - apply V. apply in_app_iff. right. left. reflexivity.
  - assert (v <= t) by (exact (pclock_order _ _ _ _ _ _ _ _ C eq_refl T)). lia.
Qed.
