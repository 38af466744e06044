(** The part of Config.Check that RouteModel has agrees with the whole of it. *)
From Verif Require Import Base HttpModel SettingsModel ConfigModel ConfigSpec ConfigProofs ConfigProofs2 ConfigProofs3 ConfigProofs4 ConfigProps.
From Verif Require ConnModel HelloModel IPModel RouteModel.
Local Open Scope Z_scope.

(** The same backend in the two models, before Check. *)
Record same_raw (b : bend) (r : RouteModel.rawBackend) : Prop := {
  sr_names : RouteModel.rNames r = bd_names b;
  sr_mode : RouteModel.rMode r = bd_mode b;
  sr_alpn : RouteModel.rALPN r = bd_alpn b;
  sr_auth : RouteModel.rClientAuth r = None <-> bd_auth b = None;
  sr_addrs : RouteModel.rAddrs r = bd_addrs b
}.
(** The same backend in the two models, after Check. *)
Record same_checked (b : bend) (k : RouteModel.backend) : Prop := {
  sc_names : RouteModel.bNames k = bd_names b;
  sc_mode : RouteModel.parse_mode (bd_mode b) = Some (RouteModel.bMode k);
  sc_alpn : Some (RouteModel.bALPN k) = bd_alpn b;
  sc_auth : RouteModel.bClientAuth k = None <-> bd_auth b = None;
  sc_addrs : RouteModel.bAddrs k = bd_addrs b
}.

Definition the_mode_names : list (str * RouteModel.mode) :=
  [(lit "TCP", RouteModel.ModeTCP); (lit "TLS", RouteModel.ModeTLS); (lit "TLSPASSTHROUGH", RouteModel.ModeTLSPassthrough);
   (lit "QUIC", RouteModel.ModeQUIC); (lit "HTTP", RouteModel.ModeHTTP); (lit "HTTPS", RouteModel.ModeHTTPS);
   (lit "LOCAL", RouteModel.ModeLocal); (lit "CONSOLE", RouteModel.ModeConsole)].

Lemma parse_mode_of s : RouteModel.parse_mode s = assoc (mode_of s) the_mode_names.
Proof.
  unfold RouteModel.parse_mode, mode_of. destruct (str_eqb (to_upper s) [] || str_eqb (to_upper s) !"PLAINTEXT"); [reflexivity|].
  unfold the_mode_names. cbn [assoc].
  repeat match goal with |- context [str_eqb (to_upper s) ?x] => destruct (str_eqb (to_upper s) x); [reflexivity|] end.
  reflexivity.
Qed.
Lemma mode_in m : In m valid_modes -> exists k, assoc m the_mode_names = Some k.
Proof. cbn. intros H. repeat destruct H as [<-|H]; try contradiction; eexists; vm_compute; reflexivity. Qed.

Lemma check_mode_agrees quic e b r :
  same_raw b r -> be1_ok b ->
  exists k, RouteModel.check_mode quic (e_ascii e) r = Some k /\ same_checked (be2 e (be1 quic b)) k.
Proof.
  intros [S1 S2 S3 S4 S5] (H1 & H2 & H3). unfold RouteModel.check_mode. rewrite S2, parse_mode_of. fold (the_mode b).
  destruct (mode_in _ H1) as (m & Hm). rewrite Hm.
  assert (E : RouteModel.mode_eqb m RouteModel.ModeTLSPassthrough && match RouteModel.rClientAuth r with Some _ => true | None => false end = false).
  { apply andb_false_iff. cbn in H1. repeat destruct H1 as [H1|H1]; try contradiction; rewrite <- H1 in Hm, H2; vm_compute in Hm; injection Hm as <-;
      try (left; reflexivity).
    right. rewrite (proj2 S4 (H2 eq_refl)). reflexivity. }
  rewrite E. eexists. split; [reflexivity|]. constructor; cbn [RouteModel.bNames RouteModel.bMode RouteModel.bALPN RouteModel.bClientAuth RouteModel.bAddrs be2 be1 bd_names bd_mode bd_alpn bd_auth bd_addrs].
  - unfold the_names. rewrite S1. reflexivity.
  - rewrite parse_mode_of. unfold the_mode. rewrite mode_of_idem. exact Hm.
  - f_equal. rewrite S3. unfold the_alpn. destruct (bd_alpn b); [reflexivity|]. unfold alpn_of. f_equal.
    destruct quic; [|reflexivity]. cbn [andb]. cbn in H1. repeat destruct H1 as [H1|H1]; try contradiction;
      rewrite <- H1 in Hm |- *; vm_compute in Hm; injection Hm as <-; reflexivity.
  - exact S4.
  - exact S5.
Qed.

Lemma key_mem_agrees k l : RouteModel.key_mem k l = pair_mem k l.
Proof.
  induction l as [|x l IH]; [reflexivity|]. cbn. unfold RouteModel.key_eqb. rewrite IH.
  destruct (str_eqb (fst k) (fst x) && str_eqb (snd k) (snd x)); reflexivity.
Qed.
Lemma check_protos_agrees sn l : forall keys r,
  each_st (check_proto sn) keys l = Ok r -> RouteModel.check_protos sn l keys = Some (fst r).
Proof.
  induction l as [|p l IH]; intros keys r; cbn [each_st RouteModel.check_protos].
  - intros [= <-]. reflexivity.
  - intros H. apply bind_ok in H as (x & Hx & H). unfold check_proto in Hx. apply need_then in Hx as [N [= <-]].
    apply bind_ok in H as (q & Hq & [= <-]). apply negb_true_iff in N. rewrite key_mem_agrees, N. cbn [fst snd] in *.
    exact (IH _ _ Hq).
Qed.
Lemma mem_assoc {A} sn (l : list (str * A)) : mem sn (map fst l) = match assoc sn l with Some _ => true | None => false end.
Proof.
  induction l as [|[k v] l IH]; cbn; [reflexivity|]. destruct (str_eqb sn k); [reflexivity|exact IH].
Qed.
Lemma check_names_agrees e mode alpn l : forall s r,
  each_st (check_name e mode alpn) s l = Ok r ->
  RouteModel.check_names (map (e_ascii e) l) alpn (map fst (fst s)) (snd s) = Some (map fst (fst (fst r)), snd (fst r)).
Proof.
  induction l as [|n l IH]; intros s r; cbn [each_st map RouteModel.check_names].
  - intros [= <-]. reflexivity.
  - intros H. apply bind_ok in H as (x & Hx & H). apply bind_ok in H as (q & Hq & [= <-]). cbn [fst snd].
    unfold check_name in Hx. apply bind_ok in Hx as (names & Hn & Hx). apply bind_ok in Hx as (k & Hk & [= <-]).
    cbn [fst snd] in Hq. specialize (IH _ _ Hq). cbn [fst snd] in IH.
    apply check_protos_agrees in Hk. rewrite mem_assoc, Hk. destruct (assoc (e_ascii e n) (fst s)) as [m|].
    + destruct alpn as [|a alpn]; [discriminate|]. injection Hn as <-. cbn [List.length Nat.eqb andb]. exact IH.
    + injection Hn as <-. cbn [andb]. exact IH.
Qed.
Lemma check_unique_agrees e bs : forall s r ks,
  each_st (check_be2 e) s (map Some bs) = Ok r ->
  Forall2 same_checked (map (be2 e) bs) ks ->
  (forall b, In b bs -> bd_alpn b <> None) ->
  RouteModel.check_unique ks (map fst (fst s)) (snd s) = true.
Proof.
  induction bs as [|b bs IH]; intros s r ks H F NA.
  - inversion F; subst. reflexivity.
  - cbn [map] in F. inversion F as [|? k ? ks' SC F' E1 E2]; subst. cbn [map each_st] in H.
    apply bind_ok in H as (x & Hx & H). apply bind_ok in H as (q & Hq & _).
    unfold check_be2 in Hx. cbn [deref bind] in Hx. apply bind_ok in Hx as (y & Hy & [= <-]). cbn [fst snd] in Hq.
    cbn [RouteModel.check_unique]. destruct SC as [C1 C2 C3 C4 C5]. cbn [be2 bd_names bd_alpn] in C1, C3.
    assert (A : RouteModel.bALPN k = protos b) by (unfold protos; rewrite <- C3; reflexivity).
    rewrite C1, A. unfold the_names. rewrite (check_names_agrees _ _ _ _ _ _ Hy).
    apply (IH _ _ _ Hq F'). intros b' Hb. apply NA. right. exact Hb.
Qed.

Lemma no_null_list {A} (l : list (option A)) : no_null l -> l = map Some (present l).
Proof.
  induction l as [|[a|] l IH]; intros N; cbn; [reflexivity| |destruct N; left; reflexivity].
  f_equal. apply IH. intros K. apply N. right. exact K.
Qed.

Lemma modes_agree quic e bs : forall rs,
  Forall2 same_raw bs rs -> (forall b, In b bs -> be1_ok b) ->
  exists ks, RouteModel.map_opt (RouteModel.check_mode quic (e_ascii e)) rs = Some ks /\
             Forall2 same_checked (map (be2 e) (map (be1 quic) bs)) ks.
Proof.
  induction bs as [|b bs IH]; intros rs F H; inversion F as [|? r ? rs' S F']; subst.
  - exists []. split; [reflexivity|constructor].
  - destruct (check_mode_agrees quic e b r S (H b (or_introl eq_refl))) as (k & Hk & Sk).
    destruct (IH rs' F') as (ks & Hks & Fk); [intros b' Hb; apply H; right; exact Hb|].
    exists (k :: ks). cbn [RouteModel.map_opt]. rewrite Hk, Hks. split; [reflexivity|]. constructor; assumption.
Qed.

Lemma addrs_agree e idps pkis groups bs : forall ks,
  Forall2 same_checked bs ks -> (forall b, In b bs -> be3_ok e idps pkis groups b /\ mode_of (bd_mode b) = bd_mode b) ->
  forallb RouteModel.check_addrs ks = true.
Proof.
  induction bs as [|b bs IH]; intros ks F H; inversion F as [|? k ? ks' S F']; subst; [reflexivity|].
  cbn [forallb]. apply andb_true_iff. split; [|apply IH; [exact F'|intros b' Hb; apply H; right; exact Hb]].
  destruct (H b (or_introl eq_refl)) as [[T1 T2 T3 _ _ _ _ _ _ _ _ _ _ _] MO]. destruct S as [C1 C2 C3 C4 C5].
  rewrite parse_mode_of, MO in C2.
  unfold RouteModel.check_addrs. rewrite C1, C5. remember (RouteModel.bMode k) as m eqn:EM. clear EM. apply andb_true_iff. split; [apply andb_true_iff; split|].
  - apply len_spec. exact T1.
  - destruct (bd_addrs b); [|reflexivity]. cbn [List.length Nat.eqb negb orb]. specialize (T2 eq_refl).
    cbn in T2. repeat destruct T2 as [T2|T2]; try contradiction; rewrite <- T2 in C2; vm_compute in C2;
      injection C2 as C2; rewrite <- C2; reflexivity.
  - destruct (bd_addrs b) as [|x l] eqn:A; [reflexivity|]. cbn [List.length Nat.eqb orb]. apply negb_true_iff.
    apply assoc_In in C2. cbn in C2.
    repeat destruct C2 as [C2|C2]; try contradiction; injection C2 as C2 C2'; rewrite <- C2'; try reflexivity;
      (specialize (T3 ltac:(rewrite <- C2; cbn; auto)); discriminate).
Qed.

(** An accepted configuration is accepted by the routing part, with the same names,
    modes, protocols and addresses: what is proved about routing tables built from
    [RouteModel.check_config] holds for accepted configurations. *)
Theorem C75_agrees_with_routing e c c' rs :
  check e c = Ok c' -> Forall2 same_raw (present (cf_backends c)) rs ->
  exists ks, RouteModel.check_config (quic_on e c) (e_ascii e) rs = Some ks /\
             Forall2 same_checked (present (cf_backends c')) ks.
Proof.
  intros H F. pose proof H as H0. apply check_ok in H0 as (NN & V & ->).
  assert (B1 : forall b, In b (present (cf_backends c)) -> be1_ok b).
  { intros b Hb. destruct (v_backends _ _ V b Hb). split; [assumption|]. split; assumption. }
  destruct (modes_agree (quic_on e c) e _ rs F B1) as (ks & Hks & Fk).
  exists ks. unfold RouteModel.check_config. rewrite Hks.
  assert (R : exists r, each_st (check_be2 e) ([], []) (map Some (map (be1 (quic_on e c)) (present (cf_backends c)))) = Ok r).
  { eexists. rewrite <- present_map, <- no_null_list by (apply no_null_map; exact (nn_backends _ NN)).
    apply (each_st_opt _ _ _ _ (check_be2_ok e)); [discriminate|].
    split; [apply no_null_map; exact (nn_backends _ NN)|]. split; [|reflexivity].
    rewrite present_map, okall_flat. apply names_ok. split; [exact (v_pairs _ _ V)|exact (v_bare _ _ V)]. }
  destruct R as (r & Hr).
  assert (U : RouteModel.check_unique ks [] [] = true).
  { apply (check_unique_agrees e _ _ _ ks Hr Fk). intros b Hb. apply in_map_iff in Hb as (b' & <- & _). discriminate. }
  assert (A : forallb RouteModel.check_addrs ks = true).
  { apply (addrs_agree e (idp_names c) (map pi_name (present (cf_pki c))) (map bw_name (present (cf_bw c))) _ ks Fk).
    intros b Hb. apply in_map_iff in Hb as (b1 & <- & Hb). apply in_map_iff in Hb as (b0 & <- & Hb). split.
    - apply (be_ok e c (idp_names c) (map pi_name (present (cf_pki c))) (map bw_name (present (cf_bw c))) (quic_on e c) b0);
        try reflexivity. split; [exact (v_backends _ _ V b0 Hb)|]. split; [exact (nn_over _ NN b0 Hb)|].
      intros s cs rs'. exact (nn_server _ NN b0 s cs rs' Hb).
    - cbn [be2 be1 bd_mode]. apply mode_of_idem. }
  rewrite U, A. split; [reflexivity|]. rewrite backends_full.
  clear - Fk. revert ks Fk. induction (present (cf_backends c)) as [|b l IH]; intros ks F; inversion F as [|? k ? ks' S F']; subst; [constructor|].
  cbn [map]. constructor; [|apply IH; exact F']. destruct S as [C1 C2 C3 C4 C5]. constructor; assumption.
Qed.

(** The example of C75 in both models. *)
Definition ex_raw (b : bend) : RouteModel.rawBackend := {|
  RouteModel.rNames := bd_names b; RouteModel.rMode := bd_mode b; RouteModel.rALPN := bd_alpn b;
  RouteModel.rClientAuth := match bd_auth b with None => None | Some a => Some {| RouteModel.caRoots := au_roots a; RouteModel.caACL := None |} end;
  RouteModel.rDeny := None; RouteModel.rAllow := None; RouteModel.rAddrs := bd_addrs b; RouteModel.rPki := [] |}.
Example C75_example_routing :
  Forall2 same_raw (present (cf_backends ex_config)) (map ex_raw (present (cf_backends ex_config))) /\
  match RouteModel.check_config true to_lower (map ex_raw (present (cf_backends ex_config))) with
  | Some ks => map RouteModel.bNames ks = [[lit "login.example.com"]; [lit "www.example.com"; lit "example.com"]]
  | None => False
  end.
Proof.
  split; [|vm_compute; reflexivity].
  repeat constructor; cbn; intros; try reflexivity; try discriminate.
Qed.

Print Assumptions C75_agrees_with_routing.
