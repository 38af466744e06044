(** Reading the configuration file again. *)
From Verif Require Import Base HttpModel SettingsModel ConfigModel ConfigSpec ConfigProofs ConfigProofs2 ConfigProofs3 ConfigProofs4
  ReloadModel ReloadSpec.
From Coq Require Import Lia.
Local Open Scope Z_scope.

Lemma skipn_lt (b : str) n a : (List.length (skipn (S n) (a :: b)) <= List.length b)%nat.
Proof. cbn. rewrite skipn_length. lia. Qed.

Lemma read_certs_ok w fuel : forall b u, (List.length b <= fuel)%nat ->
  read_certs w fuel b = Ok u <-> good_pem w b.
Proof.
  induction fuel as [|fuel IH]; intros b u L.
  - destruct b; [|cbn in L; lia]. destruct u. cbn. split; [constructor|reflexivity].
  - destruct b as [|a b]; [destruct u; cbn; split; [constructor|reflexivity]|].
    cbn [read_certs]. destruct (w_pem w (a :: b)) as [[[ty good] n]|] eqn:P.
    + pose proof (skipn_lt b n a) as K. cbn [List.length] in L.
      destruct (str_eqb ty (lit "CERTIFICATE") && negb good) eqn:E.
      * split; [discriminate|]. intros G. inversion G as [|? ? ? ? P' G1 G2]; subst. rewrite P in P'. injection P' as <- <- <-.
        apply andb_true_iff in E as [E1 E2]. apply str_eqb_spec in E1. rewrite (G1 E1) in E2. discriminate.
      * rewrite IH by lia. split.
        -- intros G. apply (gp_block w (a :: b) ty good n P); [|exact G]. intros ->. rewrite str_eqb_refl in E.
           destruct good; [reflexivity|discriminate].
        -- intros G. inversion G as [|? ? ? ? P' G1 G2]; subst. rewrite P in P'. injection P' as <- <- <-. exact G2.
    + split; [discriminate|]. intros G. inversion G; subst. congruence.
Qed.
Lemma read_certs_safe w fuel : forall b, (List.length b <= fuel)%nat -> only_pem w b -> safe (read_certs w fuel b).
Proof.
  induction fuel as [|fuel IH]; intros b L O.
  - destruct b; [exact I|cbn in L; lia].
  - destruct b as [|a b]; [exact I|]. inversion O as [|? ty good n P O']; subst. cbn [read_certs]. rewrite P.
    pose proof (skipn_lt b n a) as K. cbn [List.length] in L.
    destruct (_ && _); [exact I|]. apply IH; [lia|exact O'].
Qed.

Lemma cert_text_spec w s b : cert_text w s = Some b <-> certificates w s b.
Proof.
  unfold cert_text, certificates. destruct s as [|a s].
  - cbn. split; [intros [= <-]; right; split; [discriminate|reflexivity]|]. intros [(q & E & _)|[_ ->]]; [discriminate|reflexivity].
  - cbn [has_prefix lit list_ascii_of_string]. destruct (Ascii.eqb a "/") eqn:E.
    + apply Ascii.eqb_eq in E. subst a. cbn [andb]. split.
      * intros H. left. exists s. split; [reflexivity|exact H].
      * intros [(q & _ & H)|[H _]]; [exact H|]. exfalso. apply (H s). reflexivity.
    + cbn [andb]. split.
      * intros [= <-]. right. split; [|reflexivity]. intros q E2. injection E2 as -> _. discriminate E.
      * intros [(q & E2 & _)|[_ ->]]; [injection E2 as -> _; discriminate E|reflexivity].
Qed.
Lemma saml_new_ok w p u :
  saml_new w p = Ok u <->
  (exists b, certificates w (sa_certs p) b /\ good_pem w b) /\
  parses (w_env w) (sa_sso p) /\ parses (w_env w) (sa_acs p).
Proof.
  setoid_rewrite <- cert_text_spec.
  unfold saml_new. rewrite bind_ok. split.
  - intros (b & Hb & H). destruct (cert_text w (sa_certs p)) as [b'|]; [|discriminate]. injection Hb as ->.
    apply bind_ok in H as (x & Hx & H). apply need_then in H as [H1 H2]. apply need_ok in H2.
    apply read_certs_ok in Hx; [|lia]. apply url_ok_spec in H1, H2. eauto.
  - intros ((b & Hb & G) & H1 & H2). rewrite Hb. exists b. split; [reflexivity|]. apply bind_ok. exists tt.
    split; [apply read_certs_ok; [lia|exact G]|]. apply need_then. split; [apply url_ok_spec; exact H1|].
    apply need_ok. apply url_ok_spec. exact H2.
Qed.
Lemma saml_new_safe w p :
  (forall b, certificates w (sa_certs p) b -> only_pem w b) -> safe (saml_new w p).
Proof.
  setoid_rewrite <- cert_text_spec.
  intros H. unfold saml_new. destruct (cert_text w (sa_certs p)) as [b|]; [|exact I]. cbn [bind].
  apply safe_bind; [apply read_certs_safe; [lia|auto]|]. intros _ _. safety. apply safe_need.
Qed.

Lemma each_unit {A} (f : option A -> outcome unit) (P : A -> Prop) :
  (forall p y, f (Some p) = Ok y <-> P p) ->
  forall l, no_null l -> (exists r, each f l = Ok r) <-> (forall p, In p (present l) -> P p).
Proof.
  intros HS. induction l as [|o l IH]; intros N.
  - cbn. split; [intros _ p []|eauto].
  - cbn [each]. destruct o as [p|]; [|destruct N; left; reflexivity].
    assert (N' : no_null l) by (intros K; apply N; right; exact K). specialize (IH N'). cbn [present flat_map app]. fold (present l). split.
    + intros (r & H). apply bind_ok in H as (y & Hy & H). apply bind_ok in H as (r' & Hr & _). apply HS in Hy.
      intros q [<-|Hq]; [exact Hy|]. apply (proj1 IH); eauto.
    + intros H. destruct (proj2 IH) as (r & Hr); [intros q Hq; apply H; right; exact Hq|].
      exists (tt :: r). apply bind_ok. exists tt. split; [apply HS; apply H; left; reflexivity|].
      apply bind_ok. eauto.
Qed.
Lemma names_of_map {A} (f : A -> str) l : names_of f l = map f (present l).
Proof.
  unfold names_of. induction l as [|[a|] l IH]; cbn; [reflexivity| |exact IH]. rewrite IH. reflexivity.
Qed.
Lemma ws_ok {A} (l : list (option A)) : (exists r, each (fun o => deref o) l = Ok r) <-> no_null l.
Proof.
  induction l as [|o l IH]; cbn [each].
  - split; [intros _ []|eauto].
  - destruct o as [a|]; cbn [deref].
    + split.
      * intros (r & H). apply bind_ok in H as (y & _ & H). apply bind_ok in H as (r' & Hr & _).
        intros [K|K]; [discriminate|]. revert K. apply (proj1 IH). eauto.
      * intros N. destruct (proj2 IH) as (r & Hr); [intros K; apply N; right; exact K|].
        exists (a :: r). cbn [bind]. rewrite Hr. reflexivity.
    + split; [intros (r & H); discriminate|]. intros N. destruct N. left. reflexivity.
Qed.

Lemma passkeys_new_ok w s l : no_null l ->
  (exists r, each_st (passkey_new w) s l = Ok r) <->
  (forall l1 p l2, present l = l1 ++ p :: l2 ->
     (In (pk_other p) s \/ In (pk_other p) (map pk_name l1)) /\ w_passkey w p = true).
Proof.
  intros N.
  assert (HS : forall l s, no_null l ->
    (exists r, each_st (passkey_new w) s l = Ok r) <->
    okall (fun s p => In (pk_other p) s /\ w_passkey w p = true) (fun s p => pk_name p :: s) s (present l)).
  { clear. induction l as [|o l IH]; intros s N; cbn [each_st].
    - cbn. split; [auto|eauto].
    - destruct o as [p|]; [|destruct N; left; reflexivity].
      assert (N' : no_null l) by (intros K; apply N; right; exact K).
      cbn [present flat_map app okall]. fold (present l). rewrite <- (IH _ N'). unfold passkey_new at 1. cbn [deref bind]. split.
      + intros (r & H). apply bind_ok in H as (y & Hy & H). apply need_then in Hy as [H1 Hy]. apply need_then in Hy as [H2 [= <-]].
        apply mem_spec in H1. apply bind_ok in H as (q & Hq & _). split; [auto|eauto].
      + intros [[H1 H2] (q & Hq)]. exists (fst q, tt :: snd q). apply bind_ok. exists (pk_name p :: s, tt).
        split; [apply need_then; split; [apply mem_spec; exact H1|]; apply need_then; auto|].
        apply bind_ok. exists q. auto. }
  rewrite (HS l s N), okall_split.
  assert (F : forall l1 p, In (pk_other p) (fold_left (fun s p => pk_name p :: s) l1 s) <->
              In (pk_other p) s \/ In (pk_other p) (map pk_name l1)).
  { intros l1 p. rewrite in_folded. tauto. }
  setoid_rewrite F. reflexivity.
Qed.

Lemma reconfigure_ok w c c' :
  check (w_env w) c = Ok c -> reconfigure w c = Ok c' <-> c' = c /\ starts w c /\ no_null (cf_ws c).
Proof.
  intros C. pose proof C as C'. apply check_ok in C' as ([ON SN PN KN HN WN BN VN RN] & _ & _).
  assert (O : (exists r, each (fun o => do p <- deref o; need (w_oidc w p)) (cf_oidc c) = Ok r) <->
              forall p, In p (present (cf_oidc c)) -> w_oidc w p = true).
  { apply each_unit; [|exact ON]. intros p y. cbn [deref bind]. apply need_ok. }
  assert (S : (exists r, each (fun o => do p <- deref o; saml_new w p) (cf_saml c) = Ok r) <->
              forall p, In p (present (cf_saml c)) ->
              (exists b, certificates w (sa_certs p) b /\ good_pem w b) /\
              parses (w_env w) (sa_sso p) /\ parses (w_env w) (sa_acs p)).
  { apply each_unit; [|exact SN]. intros p y. cbn [deref bind]. apply saml_new_ok. }
  assert (P := passkeys_new_ok w (names_of oi_name (cf_oidc c) ++ names_of sa_name (cf_saml c)) _ PN).
  assert (W := ws_ok (cf_ws c)). rewrite !names_of_map in P. fold (other_names c) in P.
  unfold reconfigure. rewrite C. cbn [bind]. split.
  - intros H. apply bind_ok in H as (x1 & H1 & H). apply bind_ok in H as (x2 & H2 & H).
    apply bind_ok in H as (x3 & H3 & H). apply need_then in H as [H4 H]. apply bind_ok in H as (x5 & H5 & [= <-]).
    rewrite !names_of_map in H3.
    split; [reflexivity|]. split; [|apply W; eauto].
    constructor; [apply O; eauto|apply S; eauto|apply P; eauto|exact H4].
  - intros (-> & [S1 S2 S3 S4] & N). destruct (proj2 O S1) as (x1 & H1). destruct (proj2 S S2) as (x2 & H2).
    destruct (proj2 P S3) as (x3 & H3). destruct (proj2 W N) as (x5 & H5).
    rewrite H1. cbn [bind]. rewrite H2. cbn [bind]. rewrite !names_of_map. fold (other_names c). rewrite H3. cbn [bind].
    rewrite S4. cbn [need bind]. rewrite H5. reflexivity.
Qed.

Lemma reconfigure_safe w c :
  no_nulls c -> check (w_env w) c = Ok c -> harmless w c -> safe (reconfigure w c).
Proof.
  intros NN C [_ HW HP]. destruct NN as [ON SN PN KN HN WN BN VN RN]. unfold reconfigure. rewrite C. cbn [bind].
  apply safe_bind.
  { apply safe_each. intros o Ho. destruct (no_null_some _ _ ON Ho) as (a & -> & _). cbn [deref bind]. apply safe_need. }
  intros _ _. apply safe_bind.
  { apply safe_each. intros o Ho. destruct (no_null_some _ _ SN Ho) as (a & -> & Ha). cbn [deref bind].
    apply saml_new_safe. intros b. apply HP. exact Ha. }
  intros _ _. apply safe_bind.
  { apply safe_each_st. intros s o Ho. destruct (no_null_some _ _ PN Ho) as (a & -> & _). unfold passkey_new. cbn [deref bind]. safety. }
  intros _ _. safety. destruct (proj2 (ws_ok (cf_ws c)) HW) as (r & ->). exact I.
Qed.

Lemma harmless_full w c : harmless w c -> harmless w (full (w_env w) c).
Proof.
  intros [H1 H2 H3]. constructor; [apply no_nulls_full; exact H1|exact H2|].
  intros p b Hp. cbn [full cf_saml] in Hp. rewrite present_map in Hp. apply in_map_iff in Hp as (q & <- & Hq).
  exact (H3 q b Hq).
Qed.

Lemma round_ok w cur :
  lawful w -> (forall c, w_file w = Some c -> harmless w c) ->
  exists c, round w cur = Ok c /\ ((usable w c) \/ (c = cur /\ forall c', ~ usable w c')).
Proof.
  intros [HA HS] HF. unfold round, usable. destruct (w_file w) as [c|] eqn:F.
  2:{ exists cur. split; [reflexivity|]. right. split; [reflexivity|]. intros c' (c0 & [=] & _). }
  specialize (HF c eq_refl). pose proof (check_safe (w_env w) c (hl_nulls _ _ HF)) as SF.
  destruct (check (w_env w) c) as [c1| | |] eqn:C; try contradiction.
  - pose proof (check_again _ _ _ HA C) as C1. apply check_ok in C as (N & V & ->).
    assert (E : forall c', usable w c' -> reconfigure w (full (w_env w) c) = Ok c').
    { intros c' (c0 & F0 & _ & NW & _ & -> & ST). rewrite F in F0. injection F0 as <-.
      apply reconfigure_ok; [exact C1|]. auto. }
    unfold usable in E. rewrite F in E.
    assert (U : forall c', reconfigure w (full (w_env w) c) = Ok c' ->
      exists c0, Some c = Some c0 /\ no_nulls c0 /\ no_null (cf_ws c0) /\ valid (w_env w) c0 /\ c' = full (w_env w) c0 /\ starts w c').
    { intros c' R. apply reconfigure_ok in R as (-> & ST & NW); [|exact C1]. exists c.
      split; [reflexivity|]. split; [exact N|]. split; [exact NW|]. split; [exact V|]. split; [reflexivity|exact ST]. }
    pose proof (reconfigure_safe w _ (no_nulls_full _ _ N) C1 (harmless_full _ _ HF)) as SR.
    destruct (w_same w (full (w_env w) c) cur) eqn:S.
    + apply HS in S. subst cur. exists (full (w_env w) c). split; [reflexivity|].
      destruct (reconfigure w (full (w_env w) c)) as [c2| | |] eqn:R; try contradiction.
      * left. pose proof R as R'. apply reconfigure_ok in R' as (-> & _); [|exact C1]. apply U. reflexivity.
      * right. split; [reflexivity|]. intros c' K. apply E in K. discriminate.
    + destruct (reconfigure w (full (w_env w) c)) as [c2| | |] eqn:R; try contradiction.
      * exists c2. split; [reflexivity|]. left. apply U. reflexivity.
      * exists cur. split; [reflexivity|]. right. split; [reflexivity|]. intros c' K. apply E in K. discriminate.
  - exists cur. split; [reflexivity|]. right. split; [reflexivity|].
    intros c' (c0 & F0 & N & _ & V & _). injection F0 as <-.
    assert (K : check (w_env w) c = Ok (full (w_env w) c)) by (apply check_ok; auto). congruence.
Qed.

Theorem rounds_ok h : forall cur,
  (forall w, In w h -> lawful w /\ forall c, w_file w = Some c -> harmless w c) ->
  exists c, rounds h cur = Ok c /\ last_usable h cur c.
Proof.
  induction h as [|w h IH]; intros cur H.
  - exists cur. split; [reflexivity|]. left. split; [reflexivity|]. intros w c' [].
  - destruct (H w (or_introl eq_refl)) as [L F]. destruct (round_ok w cur L F) as (c1 & R & U).
    destruct (IH c1) as (c & RS & LU); [intros w' Hw; apply H; right; exact Hw|].
    exists c. cbn [rounds]. rewrite R. split; [exact RS|].
    destruct LU as [[-> NU]|(h1 & w' & h2 & -> & UU & NU)].
    + destruct U as [U|[-> U]].
      * right. exists [], w, h. auto.
      * left. split; [reflexivity|]. intros w' c' [<-|Hw]; [apply U|apply NU; exact Hw].
    + right. exists (w :: h1), w', h2. auto.
Qed.
