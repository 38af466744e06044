(** Proofs about the answers to refused clients. *)
From Verif Require Import Base HelloModel IPModel RouteModel RouteSpec RouteProofs AnswerModel AnswerSpec.

Lemma requested_eq p h :
  match serverName h with [] => defName p | _ :: _ => serverName h end = requested_name p h.
Proof. unfold requested_name. destruct (serverName h); reflexivity. Qed.

Lemma mode_raw b : mode_eqb (bMode b) ModeTLSPassthrough = true <-> bMode b = ModeTLSPassthrough.
Proof. destruct (bMode b); cbn; split; congruence. Qed.

Lemma acme_only_spec h :
  (List.length (alpnProtos h) =? 1) && str_eqb (hd [] (alpnProtos h)) acme_proto &&
  negb (str_eqb (serverName h) []) = true <-> acme_only h.
Proof.
  unfold acme_only. split.
  - intros H. apply andb_prop in H as [H H3]. apply andb_prop in H as [H1 H2].
    destruct (alpnProtos h) as [|x [|y l]]; try discriminate.
    cbn [hd] in H2. apply str_eqb_spec in H2. subst x. split; [reflexivity|].
    intros E. rewrite E in H3. discriminate.
  - intros [-> H]. cbn [List.length hd]. rewrite str_eqb_refl. cbn [Nat.eqb andb].
    destruct (str_eqb (serverName h) []) eqn:E; [|reflexivity].
    apply str_eqb_spec in E. contradiction.
Qed.

Lemma alert_is l d d' :
  (d < 256)%N -> (l < 256)%N -> one_fatal_alert (send_alert l d) d' <-> l = 2%N /\ d = d'.
Proof.
  intros Hd Hl. unfold one_fatal_alert, send_alert. cbn [map]. split.
  - intros (r & H & _ & _ & Hf). inversion H as [|t v w l1 l2 frag rest rs Hlen Hr E1 E2]; subst.
    inversion Hr; subst. rewrite app_nil_r in *. subst. cbn [rFragment map] in Hf.
    rewrite !N_ascii_embedding in Hf by assumption. injection Hf as -> ->. auto.
  - intros [-> <-]. eexists. split; [|split; [|split]].
    + change ([ascii_of_N 21; ascii_of_N 3; ascii_of_N 3; ascii_of_N 0; ascii_of_N 2; ascii_of_N 2; ascii_of_N d])
        with (ascii_of_N 21 :: ascii_of_N 3 :: ascii_of_N 3 :: ascii_of_N 0 :: ascii_of_N 2 ::
              ([ascii_of_N 2; ascii_of_N d] ++ [])).
      apply records_cons; [reflexivity|apply records_nil].
    + reflexivity.
    + reflexivity.
    + cbn [rFragment map]. rewrite !N_ascii_embedding by (lia || assumption). reflexivity.
Qed.

Lemma alert_nil d : ~ one_fatal_alert [] d.
Proof. intros (r & H & _). inversion H. Qed.

Lemma close_is d : one_fatal_alert send_close_notify d <-> d = close_notify.
Proof. unfold send_close_notify. rewrite alert_is by lia. unfold close_notify. intuition congruence. Qed.
Lemma internal_is d : one_fatal_alert send_internal_error d <-> d = internal_error.
Proof. unfold send_internal_error. rewrite alert_is by lia. unfold internal_error. intuition congruence. Qed.
Lemma unrecognized_is d : one_fatal_alert send_unrecognized_name d <-> d = unrecognized_name.
Proof. unfold send_unrecognized_name. rewrite alert_is by lia. unfold unrecognized_name. intuition congruence. Qed.

(** The ways through [first_answer]. *)
Inductive way (p : proxy) (w d : bool) (n : nat) (r : addr) (hello : outcome clientHello)
  : str * next -> Prop :=
| way_many : maxOpen p <= n -> way p w d n r hello (send_close_notify, Closed)
| way_bad : n < maxOpen p -> (forall h, hello <> Ok h) -> way p w d n r hello ([], Closed)
| way_unknown h : n < maxOpen p -> hello = Ok h ->
    get_backend p (requested_name p h) (alpnProtos h) = None ->
    way p w d n r hello (send_unrecognized_name, Closed)
| way_acme h i b : n < maxOpen p -> hello = Ok h ->
    get_backend p (requested_name p h) (alpnProtos h) = Some (i, b) ->
    bMode b <> ModeTLSPassthrough -> acme_only h -> way p w d n r hello ([], AcmeTls)
| way_denied h i b : n < maxOpen p -> hello = Ok h ->
    get_backend p (requested_name p h) (alpnProtos h) = Some (i, b) ->
    (bMode b = ModeTLSPassthrough \/ ~ acme_only h) ->
    check_ip (bDeny b) (bAllow b) r = false ->
    way p w d n r hello (send_unrecognized_name, Closed)
| way_failed h i b : n < maxOpen p -> hello = Ok h ->
    get_backend p (requested_name p h) (alpnProtos h) = Some (i, b) ->
    bMode b = ModeTLSPassthrough -> check_ip (bDeny b) (bAllow b) r = true ->
    (w = false \/ d = false) -> way p w d n r hello (send_internal_error, Closed)
| way_raw h i b : n < maxOpen p -> hello = Ok h ->
    get_backend p (requested_name p h) (alpnProtos h) = Some (i, b) ->
    bMode b = ModeTLSPassthrough -> check_ip (bDeny b) (bAllow b) r = true ->
    w = true -> d = true -> way p w d n r hello ([], Bridged i)
| way_tls h i b : n < maxOpen p -> hello = Ok h ->
    get_backend p (requested_name p h) (alpnProtos h) = Some (i, b) ->
    bMode b <> ModeTLSPassthrough -> ~ acme_only h -> check_ip (bDeny b) (bAllow b) r = true ->
    way p w d n r hello ([], TlsWith i).

Lemma ways p w d n r hello : way p w d n r hello (first_answer p w d n r hello).
Proof.
  unfold first_answer. destruct (Nat.leb_spec (maxOpen p) n) as [Hm|Hm]; [apply way_many; exact Hm|].
  destruct hello as [h| | |]; try (apply way_bad; [exact Hm|congruence]).
  cbv zeta. rewrite requested_eq.
  destruct (get_backend p (requested_name p h) (alpnProtos h)) as [[i b]|] eqn:Eg;
    [|eapply way_unknown; eauto].
  destruct (mode_eqb (bMode b) ModeTLSPassthrough) eqn:Em.
  - apply mode_raw in Em. unfold check_ip_answer.
    destruct (check_ip (bDeny b) (bAllow b) r) eqn:Ei.
    + unfold passthrough_answer. destruct w; cbn [negb]; [|eapply way_failed; eauto].
      destruct d; cbn [negb]; [|eapply way_failed; eauto]. eapply way_raw; eauto.
    + eapply way_denied; eauto.
  - assert (Hm' : bMode b <> ModeTLSPassthrough) by (intros X; apply mode_raw in X; congruence).
    destruct ((List.length (alpnProtos h) =? 1) && str_eqb (hd [] (alpnProtos h)) acme_proto &&
              negb (str_eqb (serverName h) [])) eqn:Ea.
    + apply acme_only_spec in Ea. eapply way_acme; eauto.
    + assert (Ha : ~ acme_only h) by (intros X; apply acme_only_spec in X; congruence).
      unfold check_ip_answer. destruct (check_ip (bDeny b) (bAllow b) r) eqn:Ei.
      * eapply way_tls; eauto.
      * eapply way_denied; eauto.
Qed.

Lemma answers p w d n r hello bytes nx :
  first_answer p w d n r hello = (bytes, nx) ->
  bytes = [] \/
  nx = Closed /\ exists a, In a [close_notify; internal_error; unrecognized_name] /\ one_fatal_alert bytes a.
Proof.
  intros H. pose proof (ways p w d n r hello) as W. rewrite H in W.
  inversion W; subst; auto; right; (split; [reflexivity|]).
  - exists close_notify. rewrite close_is. cbn. auto.
  - exists unrecognized_name. rewrite unrecognized_is. cbn. auto.
  - exists unrecognized_name. rewrite unrecognized_is. cbn. auto.
  - exists internal_error. rewrite internal_is. cbn. auto.
Qed.

Ltac alerts :=
  cbn [fst snd] in *;
  repeat match goal with
  | H : one_fatal_alert [] _ |- _ => destruct (alert_nil _ H)
  | H : one_fatal_alert send_close_notify _ |- _ => apply close_is in H; try discriminate H
  | H : one_fatal_alert send_internal_error _ |- _ => apply internal_is in H; try discriminate H
  | H : one_fatal_alert send_unrecognized_name _ |- _ => apply unrecognized_is in H; try discriminate H
  end.

Lemma too_many p w d n r hello :
  one_fatal_alert (fst (first_answer p w d n r hello)) close_notify <-> maxOpen p <= n.
Proof.
  pose proof (ways p w d n r hello) as W. split.
  - intros H. inversion W as [Hn E|Hn Hh E|h Hn Hh Hg E|h i b Hn Hh Hg Hm Ha E|h i b Hn Hh Hg Hm Hi E|h i b Hn Hh Hg Hm Hi Hw E|h i b Hn Hh Hg Hm Hi Hw Hd E|h i b Hn Hh Hg Hm Ha Hi E];
      rewrite <- E in H; alerts; assumption.
  - intros H. unfold first_answer. destruct (Nat.leb_spec (maxOpen p) n); [|lia].
    cbn [fst]. apply close_is. reflexivity.
Qed.

Lemma unrecognized quic idna rs p w d n r h :
  check_config quic idna rs = Some (backs p) -> no_empty_proto (backs p) -> ~ In [] (alpnProtos h) ->
  one_fatal_alert (fst (first_answer p w d n r (Ok h))) unrecognized_name <->
  n < maxOpen p /\
  forall i b, belongs (backs p) (requested_name p h) (alpnProtos h) i -> nth_error (backs p) i = Some b ->
    shut p i = true \/
    (check_ip (bDeny b) (bAllow b) r = false /\ (bMode b = ModeTLSPassthrough \/ ~ acme_only h)).
Proof.
  intros Hc He Hp.
  pose proof (fun i b => routing_iff quic idna rs p (requested_name p h) (alpnProtos h) i b Hc He Hp) as R.
  pose proof (ways p w d n r (Ok h)) as W.
  inversion W as [Hn E|Hn Hh E|h' Hn Hh Hg E|h' i b Hn Hh Hg Hm Ha E|h' i b Hn Hh Hg Hm Hi E|h' i b Hn Hh Hg Hm Hi Hw E|h' i b Hn Hh Hg Hm Hi Hw Hd E|h' i b Hn Hh Hg Hm Ha Hi E];
    cbn [fst]; try (injection Hh as <-); try (apply R in Hg as (Hb & Hnth & Hs)).
  - split; [intros H; alerts|lia].
  - exfalso. apply (Hh h). reflexivity.
  - split; [|intros _; apply unrecognized_is; reflexivity].
    intros _. split; [exact Hn|]. intros i b Hb Hnth. left. destruct (shut p i) eqn:Es; [reflexivity|].
    exfalso. assert (X : get_backend p (requested_name p h) (alpnProtos h) = Some (i, b)) by (apply R; auto).
    congruence.
  - split; [intros H; alerts|]. intros [_ H]. destruct (H i b Hb Hnth) as [X|[_ [X|X]]];
      [congruence|contradiction|contradiction].
  - split; [|intros _; apply unrecognized_is; reflexivity].
    intros _. split; [exact Hn|]. intros j b' Hb' Hnth'.
    assert (i = j) by (eapply belongs_unique; eauto). subst j.
    assert (b' = b) by congruence. subst b'. right. auto.
  - split; [intros H; alerts|]. intros [_ H]. destruct (H i b Hb Hnth) as [X|[X _]]; congruence.
  - split; [intros H; alerts|]. intros [_ H]. destruct (H i b Hb Hnth) as [X|[X _]]; congruence.
  - split; [intros H; alerts|]. intros [_ H]. destruct (H i b Hb Hnth) as [X|[X _]]; congruence.
Qed.

Lemma internal quic idna rs p w d n r h :
  check_config quic idna rs = Some (backs p) -> no_empty_proto (backs p) -> ~ In [] (alpnProtos h) ->
  one_fatal_alert (fst (first_answer p w d n r (Ok h))) internal_error <->
  n < maxOpen p /\
  exists i b, belongs (backs p) (requested_name p h) (alpnProtos h) i /\ nth_error (backs p) i = Some b /\
    shut p i = false /\ check_ip (bDeny b) (bAllow b) r = true /\ bMode b = ModeTLSPassthrough /\
    (w = false \/ d = false).
Proof.
  intros Hc He Hp.
  pose proof (fun i b => routing_iff quic idna rs p (requested_name p h) (alpnProtos h) i b Hc He Hp) as R.
  pose proof (ways p w d n r (Ok h)) as W.
  assert (U : forall i b j b', get_backend p (requested_name p h) (alpnProtos h) = Some (i, b) ->
    belongs (backs p) (requested_name p h) (alpnProtos h) j -> nth_error (backs p) j = Some b' -> b' = b).
  { intros i b j b' Hg Hj Hn. apply R in Hg as (Hb & Hnth & _).
    assert (i = j) by (eapply belongs_unique; eauto). subst j. congruence. }
  inversion W as [Hn E|Hn Hh E|h' Hn Hh Hg E|h' i b Hn Hh Hg Hm Ha E|h' i b Hn Hh Hg Hm Hi E|h' i b Hn Hh Hg Hm Hi Hw E|h' i b Hn Hh Hg Hm Hi Hw Hd E|h' i b Hn Hh Hg Hm Ha Hi E];
    cbn [fst]; try (injection Hh as <-).
  - split; [intros H; alerts|lia].
  - exfalso. apply (Hh h). reflexivity.
  - split; [intros H; alerts|]. intros (_ & i & b & Hb & Hnth & Hs & _).
    assert (X : get_backend p (requested_name p h) (alpnProtos h) = Some (i, b)) by (apply R; auto).
    congruence.
  - split; [intros H; alerts|]. intros (_ & j & b' & Hb & Hnth & Hs & _ & X & _).
    rewrite (U _ _ _ _ Hg Hb Hnth) in X. contradiction.
  - split; [intros H; alerts|]. intros (_ & j & b' & Hb & Hnth & Hs & X & _).
    rewrite (U _ _ _ _ Hg Hb Hnth) in X. congruence.
  - split; [|intros _; apply internal_is; reflexivity].
    intros _. split; [exact Hn|]. exists i, b. apply R in Hg as (Hb & Hnth & Hs). auto 10.
  - split; [intros H; alerts|]. intros (_ & j & b' & Hb & Hnth & Hs & _ & _ & [X|X]); congruence.
  - split; [intros H; alerts|]. intros (_ & j & b' & Hb & Hnth & Hs & _ & X & _).
    rewrite (U _ _ _ _ Hg Hb Hnth) in X. contradiction.
Qed.

Lemma silent p w d n r hello :
  first_answer p w d n r hello = ([], Closed) <-> n < maxOpen p /\ forall h, hello <> Ok h.
Proof.
  split.
  - intros H. pose proof (ways p w d n r hello) as W. rewrite H in W. inversion W; subst; auto; discriminate.
  - intros [Hn Hh]. unfold first_answer. destruct (Nat.leb_spec (maxOpen p) n); [lia|].
    destruct hello as [h| | |]; try reflexivity. destruct (Hh h eq_refl).
Qed.

Lemma reach_answer p e n r hello i :
  reaches (handle_connection p e n r hello) i ->
  first_answer p (waitOK e) true n r hello = ([], TlsWith i) \/
  first_answer p (waitOK e) true n r hello = ([], Bridged i).
Proof.
  unfold handle_connection, first_answer. destruct (maxOpen p <=? n); [contradiction|].
  destruct hello as [h| | |]; try contradiction. cbv zeta. rewrite requested_eq.
  destruct (get_backend p (requested_name p h) (alpnProtos h)) as [[j b]|]; [|contradiction].
  unfold check_ip_answer. destruct (mode_eqb (bMode b) ModeTLSPassthrough) eqn:Em.
  - destruct (check_ip (bDeny b) (bAllow b) r); [|contradiction].
    destruct (waitOK e); [|contradiction]. cbn. intros ->. right. reflexivity.
  - destruct ((List.length (alpnProtos h) =? 1) && _ && _); [contradiction|].
    destruct (check_ip (bDeny b) (bAllow b) r); cbn [negb]; [|contradiction].
    destruct (authorize_tls p e (requested_name p h) b (alpnProtos h)) as [[proto c]| | |]; try contradiction.
    destruct (waitOK e); [|contradiction].
    destruct (bMode b); cbn; intros ->; left; reflexivity.
Qed.

Lemma closed_answer p w d n r h :
  closed_to p r (requested_name p h) -> ~ acme_only h -> n < maxOpen p ->
  first_answer p w d n r (Ok h) = (send_unrecognized_name, Closed).
Proof.
  intros Hc Ha Hn.
  assert (K : forall i b, get_backend p (requested_name p h) (alpnProtos h) = Some (i, b) ->
    check_ip (bDeny b) (bAllow b) r = false).
  { intros i b Hg. apply get_backend_inv in Hg as (Hl & Hs & Hb).
    apply lookup_lists in Hl as (b' & Hb' & Hin). assert (b' = b) by congruence. subst b'.
    destruct (Hc i b Hb Hin) as [X|X]; [congruence|exact X]. }
  pose proof (ways p w d n r (Ok h)) as W.
  inversion W as [Hn' E|Hn' Hh E|h' Hn' Hh Hg E|h' i b Hn' Hh Hg Hm Ha' E|h' i b Hn' Hh Hg Hm Hi E|h' i b Hn' Hh Hg Hm Hi Hw E|h' i b Hn' Hh Hg Hm Hi Hw Hd E|h' i b Hn' Hh Hg Hm Ha' Hi E];
    try (injection Hh as <-); try reflexivity; try lia; try contradiction;
    try (rewrite (K i b Hg) in Hi; discriminate).
  exfalso. apply (Hh h). reflexivity.
Qed.

Lemma hidden p p' w w' d d' n n' r h :
  (maxOpen p <= n <-> maxOpen p' <= n') ->
  closed_to p r (requested_name p h) -> closed_to p' r (requested_name p' h) -> ~ acme_only h ->
  first_answer p w d n r (Ok h) = first_answer p' w' d' n' r (Ok h).
Proof.
  intros Hm Hc Hc' Ha. destruct (Nat.le_gt_cases (maxOpen p) n) as [L|L].
  - unfold first_answer. pose proof (proj1 Hm L) as L'.
    apply Nat.leb_le in L, L'. rewrite L, L'. reflexivity.
  - rewrite (closed_answer p w d n r h Hc Ha L), (closed_answer p' w' d' n' r h Hc' Ha); [reflexivity|].
    destruct (Nat.le_gt_cases (maxOpen p') n') as [X|X]; [apply Hm in X; lia|exact X].
Qed.

Lemma quic_closed p p' e n r cps i :
  closed_to p' r (hsName e) -> quic_heard (handle_quic p p' e n r cps) <> Served i.
Proof.
  intros Hc. unfold handle_quic. destruct (quic_config p (hsName e) cps) as [b|]; [|discriminate].
  destruct (tls_handshake p e true b cps) as [[proto c]|]; [|discriminate].
  destruct (get_backend p' (hsName e) [proto]) as [[j b']|] eqn:Eg; [|discriminate].
  destruct (maxOpen p' <=? n); [discriminate|].
  apply get_backend_inv in Eg as (Hl & Hs & Hb). apply lookup_lists in Hl as (x & Hx & Hin).
  assert (x = b') by congruence. subst x.
  destruct (Hc j b' Hb Hin) as [X|X]; [congruence|]. rewrite X. discriminate.
Qed.
