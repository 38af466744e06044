(** Config.Check: the entries of each list. *)
From Verif Require Import Base HttpModel SettingsModel ConfigModel ConfigSpec ConfigProofs.
Local Open Scope Z_scope.

Lemma set_spec s : set s = true <-> s <> [].
Proof. unfold set. rewrite negb_true_iff. apply str_eqb_neq. Qed.
Lemma set_false s : negb (set s) = true <-> s = [].
Proof. unfold set. rewrite negb_involutive. apply str_eqb_spec. Qed.
Lemma unless_set s b : negb (set s) || b = true <-> (s <> [] -> b = true).
Proof.
  rewrite orb_true_iff, set_false. destruct s; [split; [intros _ H; congruence|auto]|].
  split; [intros [H|H]; [discriminate|auto]|]. intros H. right. apply H. discriminate.
Qed.
Lemma fresh_spec n s : negb (mem n s) = true <-> ~ In n s.
Proof. rewrite negb_true_iff. apply mem_false. Qed.
Lemma url_ok_spec e u : url_ok e u = true <-> parses e u.
Proof. unfold url_ok, parses. destruct (e_url e u); split; congruence. Qed.

Lemma check_domain_ok e d u r : check_domain e d u = Ok r <-> in_domain e d u /\ r = full_domain e d.
Proof.
  unfold check_domain, in_domain. destruct d as [|x d].
  - cbn. split; [intros [= <-]; split; [congruence|reflexivity]|intros [_ ->]; reflexivity].
  - replace (set (x :: d)) with true by reflexivity. cbn [full_domain].
    destruct (host_of e u) as [h|]; [|split; [discriminate|]].
    + destruct (has_suffix h (e_ascii e (x :: d))) eqn:S.
      * apply has_suffix_spec in S as [t ->]. split.
        -- intros [= <-]. split; [|reflexivity]. intros _. eauto.
        -- intros [_ ->]. reflexivity.
      * split; [discriminate|]. intros [H _]. destruct H as (h' & pre & [= <-] & ->); [discriminate|].
        assert (T : has_suffix (pre ++ e_ascii e (x :: d)) (e_ascii e (x :: d)) = true) by (apply has_suffix_spec; eauto).
        congruence.
    + intros [H _]. destruct H as (h' & pre & H & _); [discriminate|]. discriminate.
Qed.

Ltac unneed := repeat first [rewrite need_then | rewrite bind_ok | setoid_rewrite check_domain_ok].

Lemma check_oidc_ok e s p r :
  check_oidc e s (Some p) = Ok r <->
  (~ In (oi_name p) s /\ oidc_ok e p) /\ r = (oi_name p :: s, Some (full_oidc e p)).
Proof.
  unfold check_oidc, deref. cbn [bind]. rewrite !need_then, bind_ok, fresh_spec, !unless_set, !url_ok_spec.
  setoid_rewrite check_domain_ok. rewrite orb_true_iff, andb_true_iff, !set_spec. split.
  - intros (H1 & H2 & H3 & H4 & H5 & H6 & H7 & H8 & H9 & d & [H10 ->] & [= <-]).
    split; [|reflexivity]. split; [exact H1|]. constructor; tauto.
  - intros [[H1 [O1 O2 O3 O4 [O5 O6] O7 O8 O9]] ->]. repeat (split; [tauto|]).
    exists (full_domain e (oi_domain p)). auto.
Qed.
Lemma check_saml_ok e s p r :
  check_saml e s (Some p) = Ok r <->
  (~ In (sa_name p) s /\ saml_ok e p) /\ r = (sa_name p :: s, Some (full_saml e p)).
Proof.
  unfold check_saml, deref. cbn [bind]. rewrite !need_then, bind_ok, fresh_spec.
  setoid_rewrite check_domain_ok. rewrite !set_spec. split.
  - intros (H1 & H2 & H3 & H4 & H5 & d & [H10 ->] & [= <-]).
    split; [|reflexivity]. split; [exact H1|]. constructor; tauto.
  - intros [[H1 [O1 O2 O3 O4 O5]] ->]. repeat (split; [tauto|]).
    exists (full_domain e (sa_domain p)). auto.
Qed.
Lemma check_passkey_ok e s p r :
  check_passkey e s (Some p) = Ok r <->
  (~ In (pk_name p) s /\ (passkey_ok e p /\ In (pk_other p) (pk_name p :: s))) /\
  r = (pk_name p :: s, Some (full_passkey e p)).
Proof.
  unfold check_passkey, deref. cbn [bind]. rewrite !need_then, bind_ok, fresh_spec.
  setoid_rewrite check_domain_ok. rewrite !set_spec, mem_spec. split.
  - intros (H1 & H2 & H3 & H4 & d & [H10 ->] & [= <-]).
    split; [|reflexivity]. split; [exact H1|]. split; [constructor; tauto|exact H4].
  - intros [[H1 [[O1 O2 O3] O4]] ->]. repeat (split; [tauto|]).
    exists (full_domain e (pk_domain p)). auto.
Qed.

(** *** Backends, first loop *)

Definition be1_ok (b : bend) : Prop :=
  In (the_mode b) valid_modes /\ (the_mode b = lit "TLSPASSTHROUGH" -> bd_auth b = None) /\
  (bd_proto b <> None -> In (the_mode b) [lit "HTTP"; lit "HTTPS"]).
Definition be1 (quic : bool) (b : bend) : bend := {|
  bd_names := bd_names b; bd_auth := bd_auth b; bd_allow := bd_allow b; bd_deny := bd_deny b;
  bd_sso := bd_sso b; bd_alpn := Some (the_alpn quic b); bd_proto := bd_proto b; bd_mode := the_mode b;
  bd_root := bd_root b; bd_limit := bd_limit b; bd_addrs := bd_addrs b; bd_rate := bd_rate b; bd_sni := bd_sni b;
  bd_roots := bd_roots b; bd_timeout := bd_timeout b; bd_over := bd_over b; bd_version := bd_version b;
  bd_sclose := if str_eqb (the_mode b) (lit "QUIC") then or_else (bd_sclose b) false else bd_sclose b;
  bd_cclose := if str_eqb (the_mode b) (lit "QUIC") then or_else (bd_cclose b) false else bd_cclose b |}.

Lemma check_be1_ok e quic b r : check_be1 e quic (Some b) = Ok r <-> be1_ok b /\ r = Some (be1 quic b).
Proof.
  unfold check_be1, deref. cbn [bind]. rewrite !need_then. unfold be1_ok. fold (the_mode b).
  rewrite mem_spec, negb_true_iff, andb_false_iff, str_eqb_neq.
  assert (A : or_else (bd_alpn b) (alpn_of quic (the_mode b)) = Some (the_alpn quic b)).
  { unfold or_else, the_alpn. destruct (bd_alpn b); reflexivity. }
  rewrite A. split.
  - intros (H1 & H2 & H3 & [= <-]). split; [|reflexivity]. split; [exact H1|]. split.
    + intros E. destruct H2 as [H2|H2]; [congruence|]. destruct (bd_auth b); [discriminate|reflexivity].
    + intros E. destruct (bd_proto b); [|congruence]. apply mem_spec. exact H3.
  - intros [(H1 & H2 & H3) ->]. split; [exact H1|]. split; [|split; [|reflexivity]].
    + destruct (str_eqb (the_mode b) (lit "TLSPASSTHROUGH")) eqn:E.
      * right. apply str_eqb_spec in E. rewrite (H2 E). reflexivity.
      * left. apply str_eqb_neq. exact E.
    + destruct (bd_proto b); [|reflexivity]. apply mem_spec. apply H3. discriminate.
Qed.

(** *** Second loop *)

Lemma pair_mem_spec k l : pair_mem k l = true <-> In k l.
Proof.
  unfold pair_mem. rewrite existsb_exists. split.
  - intros ([a b] & Hx & E). apply andb_true_iff in E as [E1 E2]. cbn in *.
    apply str_eqb_spec in E1, E2. destruct k; cbn in *; subst. exact Hx.
  - intros H. exists k. split; [exact H|]. rewrite !str_eqb_refl. reflexivity.
Qed.

Definition entry := (str * (str * list str))%type.      (* name, mode, protocols *)
Definition q_name (names : list (str * str)) (en : entry) : Prop :=
  assoc (fst en) names <> None -> snd (snd en) <> [].
Definition h_name (names : list (str * str)) (en : entry) : list (str * str) :=
  match assoc (fst en) names with None => (fst en, fst (snd en)) :: names | Some _ => names end.
Definition keys_of (en : entry) : list (str * str) := map (pair (fst en)) (snd (snd en)).
Definition q_key (keys : list (str * str)) (k : str * str) : Prop := ~ In k keys.
Definition h_key (keys : list (str * str)) (k : str * str) : list (str * str) := k :: keys.

Lemma check_protos_ok sn l keys r :
  each_st (check_proto sn) keys l = Ok r <->
  okall q_key h_key keys (map (pair sn) l) /\ r = (fold_left h_key (map (pair sn) l) keys, map (fun _ => tt) l).
Proof.
  rewrite (each_st_plain (check_proto sn) (fun s p => ~ In (sn, p) s) (fun s p => (sn, p) :: s) (fun _ => tt)).
  - assert (E : okall (fun s p => ~ In (sn, p) s) (fun s p => (sn, p) :: s) keys l <-> okall q_key h_key keys (map (pair sn) l)).
    { clear. revert keys. induction l as [|p l IH]; intros keys; cbn; [tauto|]. rewrite IH. reflexivity. }
    assert (F : fold_left (fun s p => (sn, p) :: s) l keys = fold_left h_key (map (pair sn) l) keys).
    { clear. revert keys. induction l as [|p l IH]; intros keys; cbn; [reflexivity|]. apply IH. }
    rewrite E, F. reflexivity.
  - intros s p r'. unfold check_proto. rewrite need_then, negb_true_iff. split.
    + intros [H [= <-]]. split; [|reflexivity]. intros K. apply pair_mem_spec in K. congruence.
    + intros [H ->]. split; [|reflexivity]. destruct (pair_mem (sn, p) s) eqn:K; [|reflexivity].
      apply pair_mem_spec in K. contradiction.
Qed.

Lemma check_name_ok e mode alpn s n r :
  check_name e mode alpn s n = Ok r <->
  (q_name (fst s) (e_ascii e n, (mode, alpn)) /\
   okall q_key h_key (snd s) (keys_of (e_ascii e n, (mode, alpn)))) /\
  r = ((h_name (fst s) (e_ascii e n, (mode, alpn)),
        fold_left h_key (keys_of (e_ascii e n, (mode, alpn))) (snd s)), e_ascii e n).
Proof.
  unfold check_name, q_name, h_name, keys_of. cbn [fst snd]. rewrite bind_ok. setoid_rewrite bind_ok.
  setoid_rewrite check_protos_ok.
  destruct (assoc (e_ascii e n) (fst s)) as [m|].
  - split.
    + intros (x & Hx & k & [H ->] & [= <-]). destruct alpn as [|a alpn]; [discriminate|]. injection Hx as <-.
      split; [|reflexivity]. split; [discriminate|exact H].
    + intros [[H1 H2] ->]. exists (fst s). split; [destruct alpn; [destruct H1; congruence|reflexivity]|].
      eexists. split; [split; [exact H2|reflexivity]|reflexivity].
  - split.
    + intros (x & [= <-] & k & [H ->] & [= <-]). split; [|reflexivity]. split; [congruence|exact H].
    + intros [[H1 H2] ->]. eexists. split; [reflexivity|].
      eexists. split; [split; [exact H2|reflexivity]|reflexivity].
Qed.

(** All the server names of a backend, in order. *)
Definition entries (e : env) (b : bend) : list entry :=
  map (fun n => (n, (bd_mode b, protos b))) (the_names e b).
Definition q_entry (s : names_st) (en : entry) : Prop :=
  q_name (fst s) en /\ okall q_key h_key (snd s) (keys_of en).
Definition h_entry (s : names_st) (en : entry) : names_st :=
  (h_name (fst s) en, fold_left h_key (keys_of en) (snd s)).
Definition be2 (e : env) (b : bend) : bend := {|
  bd_names := the_names e b; bd_auth := bd_auth b; bd_allow := bd_allow b; bd_deny := bd_deny b;
  bd_sso := bd_sso b; bd_alpn := bd_alpn b; bd_proto := bd_proto b; bd_mode := bd_mode b;
  bd_root := bd_root b; bd_limit := bd_limit b; bd_addrs := bd_addrs b; bd_rate := bd_rate b; bd_sni := bd_sni b;
  bd_roots := bd_roots b; bd_timeout := bd_timeout b; bd_over := bd_over b; bd_version := bd_version b;
  bd_sclose := bd_sclose b; bd_cclose := bd_cclose b |}.

Lemma check_be2_ok e s b r :
  check_be2 e s (Some b) = Ok r <->
  okall q_entry h_entry s (entries e b) /\ r = (fold_left h_entry (entries e b) s, Some (be2 e b)).
Proof.
  unfold check_be2, deref. cbn [bind]. rewrite bind_ok.
  setoid_rewrite (each_st_plain _ _ _ _ (check_name_ok e (bd_mode b) (protos b))).
  assert (E : forall l s,
    okall (fun s n => q_name (fst s) (e_ascii e n, (bd_mode b, protos b)) /\
                      okall q_key h_key (snd s) (keys_of (e_ascii e n, (bd_mode b, protos b))))
          (fun s n => (h_name (fst s) (e_ascii e n, (bd_mode b, protos b)),
                       fold_left h_key (keys_of (e_ascii e n, (bd_mode b, protos b))) (snd s))) s l <->
    okall q_entry h_entry s (map (fun n => (n, (bd_mode b, protos b))) (map (e_ascii e) l))).
  { induction l as [|n l IH]; intros t; cbn [okall map]; [tauto|]. rewrite IH. reflexivity. }
  assert (F : forall l s,
    fold_left (fun s n => (h_name (fst s) (e_ascii e n, (bd_mode b, protos b)),
                       fold_left h_key (keys_of (e_ascii e n, (bd_mode b, protos b))) (snd s))) l s =
    fold_left h_entry (map (fun n => (n, (bd_mode b, protos b))) (map (e_ascii e) l)) s).
  { induction l as [|n l IH]; intros t; cbn [fold_left map]; [reflexivity|]. apply IH. }
  unfold entries, the_names. setoid_rewrite E. setoid_rewrite F. split.
  - intros (x & [H ->] & [= <-]). auto.
  - intros [H ->]. eexists. split; [split; [exact H|reflexivity]|reflexivity].
Qed.

(** *** Authorities and groups *)

Definition pki_ok (e : env) (names : list (str * str)) (p : pki) : Prop :=
  pi_name p <> [] /\
  (pi_endpoint p <> [] -> exists h m, host_of e (pi_endpoint p) = Some h /\ assoc h names = Some m /\
     In (to_upper m) [lit "LOCAL"; lit "CONSOLE"]).
Lemma check_pki_ok e names s p r :
  check_pki e names s (Some p) = Ok r <->
  (~ In (pi_name p) s /\ pki_ok e names p) /\ r = (pi_name p :: s, Some p).
Proof.
  unfold check_pki, deref, pki_ok. cbn [bind]. rewrite !need_then, bind_ok, set_spec, fresh_spec.
  destruct (set (pi_endpoint p)) eqn:S.
  - apply set_spec in S. destruct (host_of e (pi_endpoint p)) as [h|].
    + destruct (assoc h names) as [m|] eqn:A.
      * setoid_rewrite need_ok. setoid_rewrite mem_spec. split.
        -- intros (H1 & H2 & x & H3 & [= <-]). split; [|reflexivity]. split; [exact H2|]. split; [exact H1|].
           intros _. exists h, m. auto.
        -- intros [(H1 & H2 & H3) ->]. split; [exact H2|]. split; [exact H1|]. exists tt.
           destruct (H3 S) as (h' & m' & [= <-] & Hm & H). split; [|reflexivity]. congruence.
      * split; [intros (_ & _ & x & H & _); discriminate|]. intros [(H1 & H2 & H3) ->].
        destruct (H3 S) as (h' & m' & [= <-] & Hm & H). congruence.
    + split; [intros (_ & _ & x & H & _); discriminate|]. intros [(H1 & H2 & H3) ->].
      destruct (H3 S) as (h' & m' & H & _). discriminate.
  - split.
    + intros (H1 & H2 & x & _ & [= <-]). split; [|reflexivity]. split; [exact H2|]. split; [exact H1|].
      intros K. apply set_spec in K. congruence.
    + intros [(H1 & H2 & H3) ->]. split; [exact H2|]. split; [exact H1|]. exists tt. auto.
Qed.

Definition ssh_ok (e : env) (names : list (str * str)) (p : sshca) : Prop :=
  sh_name p <> [] /\
  (sh_endpoint p <> [] -> exists h m, host_of e (sh_endpoint p) = Some h /\ assoc h names = Some m).
Lemma check_ssh_ok e names s p r :
  check_ssh e names s (Some p) = Ok r <->
  (~ In (sh_name p) s /\ ssh_ok e names p) /\ r = (sh_name p :: s, Some p).
Proof.
  unfold check_ssh, deref, ssh_ok. cbn [bind]. rewrite !need_then, bind_ok, set_spec, fresh_spec.
  destruct (set (sh_endpoint p)) eqn:S.
  - apply set_spec in S. destruct (host_of e (sh_endpoint p)) as [h|].
    + setoid_rewrite need_ok. destruct (assoc h names) as [m|] eqn:A.
      * split.
        -- intros (H1 & H2 & x & H3 & [= <-]). split; [|reflexivity]. split; [exact H2|]. split; [exact H1|].
           intros _. exists h, m. auto.
        -- intros [(H1 & H2 & H3) ->]. split; [exact H2|]. split; [exact H1|]. exists tt. auto.
      * split; [intros (_ & _ & x & H & _); discriminate|]. intros [(H1 & H2 & H3) ->].
        destruct (H3 S) as (h' & m' & [= <-] & Hm). congruence.
    + split; [intros (_ & _ & x & H & _); discriminate|]. intros [(H1 & H2 & H3) ->].
      destruct (H3 S) as (h' & m' & H & _). discriminate.
  - split.
    + intros (H1 & H2 & x & _ & [= <-]). split; [|reflexivity]. split; [exact H2|]. split; [exact H1|].
      intros K. apply set_spec in K. congruence.
    + intros [(H1 & H2 & H3) ->]. split; [exact H2|]. split; [exact H1|]. exists tt. auto.
Qed.
Lemma check_bw_ok s p r :
  check_bw s (Some p) = Ok r <-> ~ In (bw_name p) s /\ r = (bw_name p :: s, Some p).
Proof.
  unfold check_bw, deref. cbn [bind]. rewrite need_then, fresh_spec. split.
  - intros [H [= <-]]. auto.
  - intros [H ->]. auto.
Qed.

(** *** Third loop *)

Lemma len_spec {A} (l : list A) : negb (Nat.eqb (List.length l) 0) = true <-> l <> [].
Proof. destruct l; cbn; split; congruence. Qed.
Lemma len0_spec {A} (l : list A) : Nat.eqb (List.length l) 0 = true <-> l = [].
Proof. destruct l; cbn; split; congruence. Qed.

Lemma check_client_ok c r : check_client (Some c) = Ok r <-> client_ok c /\ r = Some (id c).
Proof.
  unfold check_client, deref. cbn [bind]. rewrite !need_then, !set_spec, len_spec. split.
  - intros (H1 & H2 & H3 & [= <-]). split; [constructor; assumption|reflexivity].
  - intros [[H1 H2 H3] ->]. auto.
Qed.
Lemma check_rule_ok e c r : check_rule e (Some c) = Ok r <-> rule_ok e c /\ r = Some (id c).
Proof.
  unfold check_rule, deref. cbn [bind]. rewrite !need_then, !set_spec. split.
  - intros (H1 & H2 & H3 & H4 & [= <-]). split; [constructor; auto|reflexivity].
  - intros [[H1 H2 [H3 H4]] ->]. auto.
Qed.
Definition server_ok (e : env) (s : bsso) : Prop :=
  forall cs rs, bs_server s = Some (cs, rs) ->
  (no_null cs /\ no_null rs) /\
  (forall x, In x (present cs) -> client_ok x) /\ (forall x, In x (present rs) -> rule_ok e x).
Lemma check_sso_ok e idps s u :
  check_sso e idps s = Ok u <-> In (bs_provider s) idps /\ server_ok e s.
Proof.
  unfold check_sso, server_ok. rewrite need_then, mem_spec. destruct (bs_server s) as [[cs rs]|].
  - setoid_rewrite bind_ok. setoid_rewrite bind_ok.
    setoid_rewrite (each_ok _ _ _ check_client_ok); [|intros y; discriminate].
    setoid_rewrite (each_ok _ _ _ (check_rule_ok e)); [|intros y; discriminate]. split.
    + intros (H1 & x & (N1 & C & _) & y & (N2 & R & _) & _). split; [exact H1|].
      intros cs' rs' [= <- <-]. auto.
    + intros (H1 & H). destruct (H _ _ eq_refl) as ([N1 N2] & C & R). split; [exact H1|].
      eexists. split; [split; [exact N1|split; [exact C|reflexivity]]|].
      eexists. split; [split; [exact N2|split; [exact R|reflexivity]]|]. destruct u. reflexivity.
  - destruct u. split; [intros [H _]; split; [exact H|discriminate]|intros [H _]; auto].
Qed.

Definition known (e : env) (pkis l : list str) : Prop := forall n, In n l -> In n pkis \/ e_certs e n = true.
Lemma roots_ok_spec e pkis l : roots_ok e pkis l = true <-> known e pkis l.
Proof.
  unfold roots_ok, known. rewrite forallb_forall. setoid_rewrite orb_true_iff. setoid_rewrite mem_spec. reflexivity.
Qed.
Lemma version_spec v : match validate_version v with Some _ => true | None => false end = true <-> validate_version v <> None.
Proof. destruct (validate_version v); split; congruence. Qed.
Lemma cidrs_spec e o :
  match o with None => true | Some l => forallb (e_cidr e) l end = true <->
  forall l n, o = Some l -> In n l -> e_cidr e n = true.
Proof.
  destruct o as [l|]; [|split; [discriminate|auto]]. rewrite forallb_forall. split.
  - intros H l' n [= <-]. apply H.
  - intros H n. apply H. reflexivity.
Qed.

Record over_ok' (e : env) (pkis : list str) (mode : str) (o : over) : Prop := {
  w_paths : ov_paths o <> [];
  w_slash : forall p, In p (ov_paths o) -> (exists r, p = lit "/" ++ r) /\ (exists r, p = r ++ lit "/");
  w_mode : In (to_upper (match ov_mode o with [] => mode | m => m end)) [lit "HTTP"; lit "HTTPS"];
  w_roots : known e pkis (ov_roots o);
  w_version : validate_version (ov_version o) <> None
}.
Definition full_over' (e : env) (mode : str) (o : over) : over :=
  {| ov_paths := ov_paths o; ov_mode := to_upper (match ov_mode o with [] => mode | m => m end);
     ov_roots := ov_roots o; ov_sni := e_ascii e (ov_sni o);
     ov_timeout := if ov_timeout o =? 0 then 30 else ov_timeout o; ov_version := ov_version o |}.
Lemma check_over_ok e pkis mode o r :
  check_over e pkis mode (Some o) = Ok r <-> over_ok' e pkis mode o /\ r = Some (full_over' e mode o).
Proof.
  unfold check_over, deref. cbn [bind]. rewrite !need_then, len_spec, roots_ok_spec, version_spec.
  assert (M : (if set (ov_mode o) then ov_mode o else mode) = match ov_mode o with [] => mode | m => m end).
  { destruct (ov_mode o); reflexivity. }
  rewrite M. unfold http_mode. rewrite mem_spec, forallb_forall.
  setoid_rewrite andb_true_iff. setoid_rewrite has_suffix_spec. setoid_rewrite has_prefix_spec. split.
  - intros (H1 & H2 & H3 & H4 & H5 & [= <-]). split; [constructor; assumption|reflexivity].
  - intros [[H1 H2 H3 H4 H5] ->]. auto 6.
Qed.

Record be3_ok (e : env) (idps pkis groups : list str) (b : bend) : Prop := {
  t_names : bd_names b <> [];
  t_addrs : bd_addrs b = [] -> In (bd_mode b) [lit "CONSOLE"; lit "HTTP"; lit "HTTPS"; lit "LOCAL"];
  t_no_addrs : In (bd_mode b) [lit "CONSOLE"; lit "LOCAL"] -> bd_addrs b = [];
  t_root : bd_root b <> [] -> bd_addrs b = [];
  t_limit : bd_limit b <> [] -> In (bd_limit b) groups;
  t_auth : forall a, bd_auth b = Some a ->
           known e pkis (au_roots a) /\ (forall f, In f (au_header a) -> In (to_lower f) xfcc_fields);
  t_provider : forall s, bd_sso b = Some s -> In (bs_provider s) idps /\ server_ok e s;
  t_roots : known e pkis (bd_roots b);
  t_allow : forall l n, bd_allow b = Some l -> In n l -> e_cidr e n = true;
  t_deny : forall l n, bd_deny b = Some l -> In n l -> e_cidr e n = true;
  t_version : validate_version (bd_version b) <> None;
  t_over_mode : bd_over b <> [] -> In (bd_mode b) [lit "HTTP"; lit "HTTPS"];
  t_no_null : no_null (bd_over b);
  t_over : forall o, In o (present (bd_over b)) -> over_ok' e pkis (bd_mode b) o
}.
Definition be3 (e : env) (b : bend) : bend := {|
  bd_names := bd_names b; bd_auth := bd_auth b; bd_allow := bd_allow b; bd_deny := bd_deny b;
  bd_sso := bd_sso b; bd_alpn := bd_alpn b; bd_proto := bd_proto b; bd_mode := bd_mode b;
  bd_root := bd_root b; bd_limit := bd_limit b; bd_addrs := bd_addrs b;
  bd_rate := if bd_rate b =? 0 then 5 else bd_rate b; bd_sni := e_ascii e (bd_sni b);
  bd_roots := bd_roots b; bd_timeout := if bd_timeout b =? 0 then 30 else bd_timeout b;
  bd_over := map (option_map (full_over' e (bd_mode b))) (bd_over b);
  bd_version := bd_version b; bd_sclose := bd_sclose b; bd_cclose := bd_cclose b |}.

Lemma imp_or (P : Prop) (a b : bool) : (a = true <-> P) -> negb a || b = true <-> (P -> b = true).
Proof. intros <-. destruct a, b; cbn; split; auto. Qed.

Lemma unit_then {B} (a : outcome unit) (P : Prop) (k : outcome B) r :
  (forall u, a = Ok u <-> P) -> (do _ <- a; k) = Ok r <-> P /\ k = Ok r.
Proof.
  intros H. rewrite bind_ok. split.
  - intros (u & Hu & K). apply H in Hu. auto.
  - intros [HP K]. exists tt. split; [apply H; exact HP|exact K].
Qed.

Lemma check_be3_ok e idps pkis groups b r :
  check_be3 e idps pkis groups (Some b) = Ok r <-> be3_ok e idps pkis groups b /\ r = Some (be3 e b).
Proof.
  assert (A1 : negb (Nat.eqb (List.length (bd_addrs b)) 0) || mem (bd_mode b) [lit "CONSOLE"; lit "HTTP"; lit "HTTPS"; lit "LOCAL"] = true <->
               (bd_addrs b = [] -> In (bd_mode b) [lit "CONSOLE"; lit "HTTP"; lit "HTTPS"; lit "LOCAL"])).
  { rewrite (imp_or (bd_addrs b = [])), mem_spec; [reflexivity|apply len0_spec]. }
  assert (A2 : Nat.eqb (List.length (bd_addrs b)) 0 || negb (mem (bd_mode b) [lit "CONSOLE"; lit "LOCAL"]) = true <->
               (In (bd_mode b) [lit "CONSOLE"; lit "LOCAL"] -> bd_addrs b = [])).
  { rewrite orb_comm, (imp_or (In (bd_mode b) [lit "CONSOLE"; lit "LOCAL"])), len0_spec; [reflexivity|apply mem_spec]. }
  assert (A3 : Nat.eqb (List.length (bd_over b)) 0 || http_mode (bd_mode b) = true <->
               (bd_over b <> [] -> In (bd_mode b) [lit "HTTP"; lit "HTTPS"])).
  { unfold http_mode. destruct (bd_over b); [cbn; split; congruence|]. cbn [List.length Nat.eqb orb].
    rewrite mem_spec. split; [auto|]. intros H. apply H. discriminate. }
  assert (A4 : forall u, match bd_auth b with None => Ok tt | Some a =>
                 do _ <- need (roots_ok e pkis (au_roots a)); need (forallb (fun f => mem (to_lower f) xfcc_fields) (au_header a)) end = Ok u <->
               (forall a, bd_auth b = Some a -> known e pkis (au_roots a) /\ (forall f, In f (au_header a) -> In (to_lower f) xfcc_fields))).
  { intros []. destruct (bd_auth b) as [a|]; [|split; [discriminate|reflexivity]].
    rewrite need_then, roots_ok_spec, need_ok, forallb_forall. setoid_rewrite mem_spec. split.
    - intros H a' [= <-]. exact H.
    - intros H. apply H. reflexivity. }
  assert (A5 : forall u, match bd_sso b with None => Ok tt | Some s => check_sso e idps s end = Ok u <->
               (forall s, bd_sso b = Some s -> In (bs_provider s) idps /\ server_ok e s)).
  { intros []. destruct (bd_sso b) as [s|]; [|split; [discriminate|reflexivity]].
    rewrite check_sso_ok. split; [intros H s' [= <-]; exact H|intros H; apply H; reflexivity]. }
  unfold check_be3, deref. cbn [bind]. rewrite !need_then, (unit_then _ _ _ _ A4), (unit_then _ _ _ _ A5), !need_then, bind_ok.
  setoid_rewrite (each_ok _ _ _ (check_over_ok e pkis (bd_mode b))); [|intros y; discriminate].
  rewrite A1, A2, A3, len_spec, roots_ok_spec, version_spec, !cidrs_spec, !unless_set, len0_spec, mem_spec.
  split.
  - intros (H1 & H2 & H3 & H4 & H5 & H6 & H7 & H8 & H9 & H10 & H11 & H12 & x & (H13 & H14 & ->) & [= <-]).
    split; [constructor; assumption|reflexivity].
  - intros [[H1 H2 H3 H4 H5 H6 H7 H8 H9 H10 H11 H12 H13 H14] ->].
    repeat (split; [assumption|]). eexists. split; [split; [assumption|split; [assumption|reflexivity]]|reflexivity].
Qed.
