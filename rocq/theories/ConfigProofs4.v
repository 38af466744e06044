(** Config.Check: no panic without null entries; a second check changes nothing. *)
From Verif Require Import Base HttpModel SettingsModel ConfigModel ConfigSpec ConfigProofs ConfigProofs2 ConfigProofs3.
Local Open Scope Z_scope.

(** *** No panic *)

Lemma safe_domain e d u : safe (check_domain e d u).
Proof.
  unfold check_domain. destruct (set d); [|exact I]. destruct (host_of e u); [|exact I].
  destruct (has_suffix _ _); exact I.
Qed.
Ltac safety := repeat first
  [ apply safe_need_then; intros _ | apply safe_bind; [apply safe_domain|intros ? _]
  | exact I ].
Lemma safe_oidc e s p : safe (check_oidc e s (Some p)).
Proof. unfold check_oidc. cbn [deref bind]. safety. Qed.
Lemma safe_saml e s p : safe (check_saml e s (Some p)).
Proof. unfold check_saml. cbn [deref bind]. safety. Qed.
Lemma safe_passkey e s p : safe (check_passkey e s (Some p)).
Proof. unfold check_passkey. cbn [deref bind]. safety. Qed.
Lemma safe_be1 e quic b : safe (check_be1 e quic (Some b)).
Proof. unfold check_be1. cbn [deref bind]. safety. Qed.
Lemma safe_be2 e s b : safe (check_be2 e s (Some b)).
Proof.
  unfold check_be2. cbn [deref bind]. apply safe_bind; [|intros; exact I].
  apply safe_each_st. intros t n _. unfold check_name. apply safe_bind.
  - destruct (assoc _ _); [destruct (protos b)|]; exact I.
  - intros x _. apply safe_bind; [|intros; exact I]. apply safe_each_st. intros k pr _. unfold check_proto. safety.
Qed.
Lemma safe_pki e n s p : safe (check_pki e n s (Some p)).
Proof.
  unfold check_pki. cbn [deref bind]. safety. apply safe_bind; [|intros; exact I].
  destruct (set (pi_endpoint p)); [|exact I]. destruct (host_of _ _); [|exact I]. destruct (assoc _ _); [apply safe_need|exact I].
Qed.
Lemma safe_ssh e n s p : safe (check_ssh e n s (Some p)).
Proof.
  unfold check_ssh. cbn [deref bind]. safety. apply safe_bind; [|intros; exact I].
  destruct (set (sh_endpoint p)); [|exact I]. destruct (host_of _ _); [apply safe_need|exact I].
Qed.
Lemma safe_bw s p : safe (check_bw s (Some p)).
Proof. unfold check_bw. cbn [deref bind]. safety. Qed.
Lemma safe_be3 e i k g b :
  no_null (bd_over b) ->
  (forall s cs rs, bd_sso b = Some s -> bs_server s = Some (cs, rs) -> no_null cs /\ no_null rs) ->
  safe (check_be3 e i k g (Some b)).
Proof.
  intros N1 N2. unfold check_be3. cbn [deref bind]. safety. apply safe_bind.
  { destruct (bd_auth b); [|exact I]. safety. apply safe_need. }
  intros _ _. apply safe_bind.
  { destruct (bd_sso b) as [s|]; [|exact I]. unfold check_sso. safety.
    destruct (bs_server s) as [[cs rs]|] eqn:E; [|exact I]. destruct (N2 s cs rs eq_refl E) as [K1 K2].
    apply safe_bind; [|intros _ _; apply safe_bind; [|intros; exact I]]; apply safe_each; intros o Ho.
    - destruct (no_null_some _ _ K1 Ho) as (a & -> & _). unfold check_client. cbn [deref bind]. safety.
    - destruct (no_null_some _ _ K2 Ho) as (a & -> & _). unfold check_rule. cbn [deref bind]. safety. }
  intros _ _. safety. apply safe_bind; [|intros; exact I]. apply safe_each. intros o Ho.
  destruct (no_null_some _ _ N1 Ho) as (a & -> & _). unfold check_over. cbn [deref bind]. safety.
Qed.

Lemma present_in {A} (l : list (option A)) a : In (Some a) l <-> In a (present l).
Proof.
  unfold present. rewrite in_flat_map. split.
  - intros H. exists (Some a). split; [exact H|left; reflexivity].
  - intros ([x|] & H & K); [|destruct K]. destruct K as [->|[]]. exact H.
Qed.

Theorem check_safe e c : no_nulls c -> safe (check e c).
Proof.
  intros [ON SN PN KN HN WN BN VN RN]. unfold check. fold (quic_on e c).
  apply safe_bind. { destruct (set (cf_cache c)); [exact I|]. destruct (e_cache e); exact I. }
  intros cache _. apply safe_bind. { destruct (cf_max c =? 0); [destruct (e_files e)|]; exact I. }
  intros mx _. apply safe_need_then. intros _. apply safe_need_then. intros _.
  apply safe_bind. { apply safe_each_st. intros s o Ho. destruct (no_null_some _ _ ON Ho) as (a & -> & _). apply safe_oidc. }
  intros oi _. apply safe_bind. { apply safe_each_st. intros s o Ho. destruct (no_null_some _ _ SN Ho) as (a & -> & _). apply safe_saml. }
  intros sa _. apply safe_bind. { apply safe_each_st. intros s o Ho. destruct (no_null_some _ _ PN Ho) as (a & -> & _). apply safe_passkey. }
  intros pk _. apply safe_bind. { apply safe_each. intros o Ho. destruct (no_null_some _ _ BN Ho) as (a & -> & _). apply safe_be1. }
  intros b1 H1. apply (each_ok _ _ _ (check_be1_ok e (quic_on e c))) in H1 as (_ & _ & ->); [|discriminate].
  assert (BN1 : no_null (map (option_map (be1 (quic_on e c))) (cf_backends c))) by (apply no_null_map; exact BN).
  apply safe_bind. { apply safe_each_st. intros s o Ho. destruct (no_null_some _ _ BN1 Ho) as (a & -> & _). apply safe_be2. }
  intros b2 H2. apply (each_st_opt _ _ _ _ (check_be2_ok e)) in H2 as (_ & _ & ->); [|discriminate]. cbn [fst snd].
  apply safe_bind. { apply safe_each_st. intros s o Ho. destruct (no_null_some _ _ KN Ho) as (a & -> & _). apply safe_pki. }
  intros pi _. apply safe_bind. { apply safe_each_st. intros s o Ho. destruct (no_null_some _ _ HN Ho) as (a & -> & _). apply safe_ssh. }
  intros sh _. apply safe_bind. { apply safe_each_st. intros s o Ho. destruct (no_null_some _ _ WN Ho) as (a & -> & _). apply safe_bw. }
  intros bw _. apply safe_bind.
  { apply safe_each. intros o Ho.
    assert (BN2 : no_null (map (option_map (be2 e)) (map (option_map (be1 (quic_on e c))) (cf_backends c)))) by (apply no_null_map; exact BN1).
    destruct (no_null_some _ _ BN2 Ho) as (a & -> & Ha). rewrite !present_map in Ha.
    apply in_map_iff in Ha as (x & <- & Hx). apply in_map_iff in Hx as (b & <- & Hb).
    apply safe_be3; [exact (VN b Hb)|]. intros s cs rs. exact (RN b s cs rs Hb). }
  intros b3 _. safety.
Qed.

(** *** A second check *)

Lemma upper_char_idem c : upper_char (upper_char c) = upper_char c.
Proof. destruct c as [[] [] [] [] [] [] [] []]; reflexivity. Qed.
Lemma to_upper_idem s : to_upper (to_upper s) = to_upper s.
Proof. unfold to_upper. rewrite map_map. apply map_ext. apply upper_char_idem. Qed.
Lemma mode_of_idem m : mode_of (mode_of m) = mode_of m.
Proof.
  unfold mode_of at 2 3. destruct (str_eqb (to_upper m) [] || str_eqb (to_upper m) (lit "PLAINTEXT")) eqn:E; [reflexivity|].
  unfold mode_of. rewrite to_upper_idem, E. reflexivity.
Qed.

Section Again.
Variables (e : env) (c : config).
Hypothesis (HA : forall s, e_ascii e (e_ascii e s) = e_ascii e s).

Lemma quic_full : quic_on e (full e c) = quic_on e c.
Proof. reflexivity. Qed.
Lemma mode_full quic b : the_mode (full_bend e quic b) = the_mode b.
Proof. apply mode_of_idem. Qed.
Lemma alpn_full quic b : the_alpn quic (full_bend e quic b) = the_alpn quic b.
Proof. reflexivity. Qed.
Lemma names_full quic b : the_names e (full_bend e quic b) = the_names e b.
Proof. unfold the_names. cbn. unfold the_names. rewrite map_map. apply map_ext. exact HA. Qed.
Lemma backends_full : present (cf_backends (full e c)) = map (full_bend e (quic_on e c)) (present (cf_backends c)).
Proof. cbn [full cf_backends]. apply present_map. Qed.
Lemma idps_full : idp_names (full e c) = idp_names c.
Proof.
  unfold idp_names, other_names. cbn [full cf_oidc cf_saml cf_passkey]. rewrite !present_map, !map_map. reflexivity.
Qed.
Lemma others_full : other_names (full e c) = other_names c.
Proof. unfold other_names. cbn [full cf_oidc cf_saml]. rewrite !present_map, !map_map. reflexivity. Qed.
Lemma domain_idem d : full_domain e (full_domain e d) = full_domain e d.
Proof.
  destruct d as [|x d]; [reflexivity|]. cbn [full_domain]. destruct (e_ascii e (x :: d)) eqn:E; [reflexivity|].
  cbn [full_domain]. rewrite <- E. apply HA.
Qed.
Lemma in_domain_full d u : in_domain e d u -> in_domain e (full_domain e d) u.
Proof.
  intros H N. destruct d as [|x d]; [destruct N; reflexivity|]. cbn [full_domain]. rewrite HA. apply H. discriminate.
Qed.
Lemma idem_oidc p : full_oidc e (full_oidc e p) = full_oidc e p.
Proof. unfold full_oidc. cbn. rewrite domain_idem. reflexivity. Qed.
Lemma idem_saml p : full_saml e (full_saml e p) = full_saml e p.
Proof. unfold full_saml. cbn. rewrite domain_idem. reflexivity. Qed.
Lemma idem_passkey p : full_passkey e (full_passkey e p) = full_passkey e p.
Proof. unfold full_passkey. cbn. rewrite domain_idem. reflexivity. Qed.

Lemma mode_not_nil m : mode_of m <> [].
Proof.
  unfold mode_of. destruct (str_eqb (to_upper m) [] || str_eqb (to_upper m) (lit "PLAINTEXT")) eqn:E; [discriminate|].
  apply orb_false_iff in E as [E _]. apply str_eqb_neq in E. exact E.
Qed.
Lemma over_mode_again b quic o :
  to_upper (match to_upper (match ov_mode o with [] => the_mode b | m => m end) with
            | [] => the_mode (full_bend e quic b) | m => m end) =
  to_upper (match ov_mode o with [] => the_mode b | m => m end).
Proof.
  destruct (to_upper (match ov_mode o with [] => the_mode b | m => m end)) eqn:E.
  - exfalso. destruct (ov_mode o).
    + destruct (the_mode b) eqn:M; [exact (mode_not_nil _ M)|discriminate].
    + discriminate.
  - rewrite <- E. apply to_upper_idem.
Qed.
Lemma zero_default (z d : Z) : (if (if z =? 0 then d else z) =? 0 then d else (if z =? 0 then d else z)) = if z =? 0 then d else z.
Proof. destruct (z =? 0) eqn:E; [destruct (d =? 0) eqn:F; [apply Z.eqb_eq in F; subst; reflexivity|reflexivity]|]. rewrite E. reflexivity. Qed.
Lemma idem_over quic b o : full_over e (full_bend e quic b) (full_over e b o) = full_over e b o.
Proof.
  unfold full_over. cbn [ov_paths ov_mode ov_roots ov_sni ov_timeout ov_version].
  rewrite over_mode_again, HA, zero_default. reflexivity.
Qed.
Lemma or_else_again (q : bool) (o : option bool) :
  (if q then or_else (if q then or_else o false else o) false else (if q then or_else o false else o)) =
  if q then or_else o false else o.
Proof. destruct q, o; reflexivity. Qed.
Lemma idem_bend quic b : full_bend e quic (full_bend e quic b) = full_bend e quic b.
Proof.
  unfold full_bend at 1. rewrite names_full, mode_full, alpn_full.
  cbn [full_bend bd_names bd_auth bd_allow bd_deny bd_sso bd_alpn bd_proto bd_mode bd_root bd_limit bd_addrs bd_rate bd_sni bd_roots bd_timeout bd_over bd_version bd_sclose bd_cclose].
  rewrite HA, !zero_default, !or_else_again, map_map.
  assert (E : map (fun x => option_map (full_over e (full_bend e quic b)) (option_map (full_over e b) x)) (bd_over b) =
              map (option_map (full_over e b)) (bd_over b)).
  { apply map_ext. intros [o|]; [|reflexivity]. cbn [option_map]. rewrite idem_over. reflexivity. }
  rewrite E. reflexivity.
Qed.
Lemma idem_list {A} (f : A -> A) (l : list (option A)) :
  (forall x, f (f x) = f x) -> map (option_map f) (map (option_map f) l) = map (option_map f) l.
Proof. intros H. rewrite map_map. apply map_ext. intros [x|]; [|reflexivity]. cbn. rewrite H. reflexivity. Qed.

Lemma idem_full : full e (full e c) = full e c.
Proof.
  unfold full at 1. rewrite quic_full. cbn [full cf_cache cf_tls cf_max cf_quic cf_accept cf_default cf_oidc cf_saml cf_passkey cf_pki cf_ssh cf_bw cf_ws cf_backends].
  rewrite HA, (idem_list _ _ idem_oidc), (idem_list _ _ idem_saml), (idem_list _ _ idem_passkey), (idem_list _ _ (idem_bend _)).
  unfold full. f_equal.
  - destruct (cf_cache c); [destruct (e_cache e) as [[|? ?]|]|]; reflexivity.
  - destruct (cf_tls c); reflexivity.
  - apply zero_default.
Qed.

Lemma no_nulls_full : no_nulls c -> no_nulls (full e c).
Proof.
  intros [ON SN PN KN HN WN BN VN RN]. constructor; cbn [full cf_oidc cf_saml cf_passkey cf_pki cf_ssh cf_bw cf_backends];
    try assumption; try (apply no_null_map; assumption).
  - intros b Hb. rewrite present_map in Hb. apply in_map_iff in Hb as (b' & <- & Hb). cbn [full_bend bd_over].
    apply no_null_map. exact (VN b' Hb).
  - intros b s cs rs Hb. rewrite present_map in Hb. apply in_map_iff in Hb as (b' & <- & Hb). exact (RN b' s cs rs Hb).
Qed.

Lemma backend_full b : backend_ok e c b -> backend_ok e (full e c) (full_bend e (quic_on e c) b).
Proof.
  intros [B1 B2 B3 B4 B5 B6 B7 B8 B9 B10 B11 B12 B13 B14 B15 B16 B17].
  constructor; rewrite ?mode_full, ?idps_full; try assumption.
  - intros E. apply B4. cbn in E. unfold the_names in E. destruct (bd_names b); [reflexivity|discriminate].
  - cbn [full_bend bd_over]. intros N. apply B16. intros E. apply N. rewrite E. reflexivity.
  - cbn [full_bend bd_over]. intros o Ho. rewrite present_map in Ho. apply in_map_iff in Ho as (o' & <- & Ho).
    destruct (B17 o' Ho) as [W1 W2 W3 W4 W5]. constructor; try assumption.
    cbn [full_over ov_mode]. rewrite over_mode_again. exact W3.
Qed.

Lemma valid_full : valid e c -> valid e (full e c).
Proof.
  assert (PR : pairs e (full e c) = pairs e c).
  { unfold pairs. rewrite backends_full, quic_full. induction (present (cf_backends c)) as [|b l IH]; cbn [map flat_map]; [reflexivity|].
    rewrite IH, names_full, alpn_full. reflexivity. }
  assert (LI : listed e (full e c) = listed e c).
  { unfold listed. rewrite backends_full, quic_full. induction (present (cf_backends c)) as [|b l IH]; cbn [map flat_map]; [reflexivity|].
    rewrite IH, names_full, alpn_full. reflexivity. }
  intros [V1 V2 V3 V4 V5 V6 V7 V8 V9 V10 V11 V12 V13 V14 V15 V16 V17 V18].
  constructor; rewrite ?PR, ?LI, ?idps_full; try assumption.
  - intros E. cbn in E. destruct (cf_cache c); [apply V1; reflexivity|discriminate].
  - cbn [full cf_cache]. destruct (cf_cache c); [destruct (e_cache e) as [[|? ?]|]|]; exact V2.
  - intros E. cbn [full cf_max] in E. destruct (cf_max c =? 0) eqn:Z; [apply V3; apply Z.eqb_eq; exact Z|].
    apply Z.eqb_neq in Z. contradiction.
  - intros p Hp. cbn [full cf_oidc] in Hp. rewrite present_map in Hp. apply in_map_iff in Hp as (q & <- & Hq).
    destruct (V7 q Hq). constructor; try assumption. apply in_domain_full. assumption.
  - intros p Hp. cbn [full cf_saml] in Hp. rewrite present_map in Hp. apply in_map_iff in Hp as (q & <- & Hq).
    destruct (V8 q Hq). constructor; try assumption. apply in_domain_full. assumption.
  - intros p Hp. cbn [full cf_passkey] in Hp. rewrite present_map in Hp. apply in_map_iff in Hp as (q & <- & Hq).
    destruct (V9 q Hq). constructor; try assumption. apply in_domain_full. assumption.
  - intros l1 p l2 E. cbn [full cf_passkey] in E. rewrite present_map in E.
    apply map_eq_app in E as (a & b & Ea & <- & Eb). destruct b as [|q b]; [discriminate|]. cbn [map] in Eb. injection Eb as <- <-.
    rewrite others_full. destruct (V10 a q b Ea) as [K|K]; [left; exact K|right].
    rewrite map_app, map_map in *. cbn [map] in *. exact K.
  - intros b Hb. rewrite backends_full in Hb. apply in_map_iff in Hb as (b' & <- & Hb). apply backend_full. exact (V11 b' Hb).
  - intros p Hp E. destruct (V15 p Hp E) as (h & b & Hh & (l1 & l2 & Eb & Hi & Hf) & Hm).
    exists h, (full_bend e (quic_on e c) b). rewrite mode_full. split; [exact Hh|]. split; [|exact Hm].
    exists (map (full_bend e (quic_on e c)) l1), (map (full_bend e (quic_on e c)) l2).
    rewrite backends_full, Eb, map_app, names_full. split; [reflexivity|]. split; [exact Hi|].
    intros b' Hb. apply in_map_iff in Hb as (b0 & <- & Hb). rewrite names_full. auto.
  - intros p Hp E. destruct (V17 p Hp E) as (h & b & Hh & Hb & Hi).
    exists h, (full_bend e (quic_on e c) b). rewrite backends_full, names_full. split; [exact Hh|]. split; [|exact Hi].
    apply in_map. exact Hb.
Qed.
End Again.

Theorem check_again e c c' :
  (forall s, e_ascii e (e_ascii e s) = e_ascii e s) ->
  check e c = Ok c' -> check e c' = Ok c'.
Proof.
  intros HA H. apply check_ok in H as (N & V & ->). apply check_ok.
  split; [apply no_nulls_full; exact N|]. split; [apply valid_full; assumption|].
  symmetry. apply idem_full. exact HA.
Qed.
