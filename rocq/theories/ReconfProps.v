From Verif Require Import Base RouteModel ReconfModel ReconfProofs.
Local Open Scope Z_scope.

(** A small configuration to show that the hypotheses can be met. *)
Definition ok_env : env :=
  {| eQUIC := false; eIDNA := fun s => s; eOIDC := fun _ => true; eSAML := fun _ => true;
     ePasskey := fun _ => true; ePKI := fun _ => true; eLoad := fun _ => true;
     eCA := fun _ => true; eReload := fun _ => true; eSSH := fun _ => true |}.
Definition bad_ssh : env :=
  {| eQUIC := false; eIDNA := fun s => s; eOIDC := fun _ => true; eSAML := fun _ => true;
     ePasskey := fun _ => true; ePKI := fun _ => true; eLoad := fun _ => true;
     eCA := fun _ => true; eReload := fun _ => true; eSSH := fun _ => false |}.
Definition be (name mode limit : str) (sso : option str) : cbackend :=
  {| cbRaw := {| rNames := [name]; rMode := mode; rALPN := None; rClientAuth := None;
                 rDeny := None; rAllow := None;
                 rAddrs := [!"10.0.0.1:80"]; rPki := [] |};
     cbLimit := limit; cbSSO := sso; cbCAs := [] |}.
Definition cfg (gs : list group) (bs : list cbackend) (ssh : list str) : config :=
  {| cfOIDC := [!"google"]; cfSAML := []; cfPasskey := [(!"pk", !"google")]; cfPKI := [!"ca"];
     cfSSH := ssh; cfGroups := gs; cfBackends := bs; cfDefault := [] |}.
Definition g (n : str) (i o : Z) : group := {| gName := n; gIn := i; gOut := o |}.

(** ** C49 *)

(** Every group name in lower case: the limit of a backend's group is in force,
    whatever configurations were loaded, or failed to load, before. *)
Theorem C49_limit_is_applied_partial :
  forall h e c p' i b,
    reconfigure e c (after initial h) = (p', true) ->
    (forall g, In g (cfGroups c) -> to_lower (gName g) = gName g) ->
    nth_error (cfBackends c) i = Some b -> cbLimit b <> [] ->
    exists g l, In g (cfGroups c) /\ gName g = cbLimit b /\
      in_force p' (cell_of p' i) = Some l /\
      lIn l = gIn g /\ lOut l = gOut g /\
      lInBurst l = Z.max (gIn g) 131072 /\ lOutBurst l = Z.max (gOut g) 131072.
Proof.
  intros h e c p' i b R LC N NE.
  rewrite (cell_after _ _ _ _ _ _ R N).
  destruct (reconfigure_ok _ _ _ _ R) as (bes & idps & C & P & L & _ & _ & _).
  destruct (check_inv _ _ _ C) as (_ & _ & ND & Ref & _).
  destruct (Ref b (nth_error_In _ _ N)) as [X|X]; [contradiction|].
  rewrite L.
  destruct (set_limits_last (cbLimit b) (cfGroups c) (pLimits (after initial h)))
    as [(g & I & E & A) | (A & _)].
  - exists g, (limits_of g). rewrite A. unfold in_force. rewrite L, A.
    rewrite LC in E by auto. repeat split; auto.
  - exfalso. apply A. rewrite to_lower_fix_mem; auto.
Qed.
Print Assumptions C49_limit_is_applied_partial.

(** A backend without a group is not limited, if no configuration ever had a group
    without a name. *)
Theorem C49_no_group_no_limit_partial :
  forall h e c p' i b,
    reconfigure e c (after initial h) = (p', true) ->
    (forall e' c' g, In (e', c') (h ++ [(e, c)]) -> In g (cfGroups c') -> gName g <> []) ->
    nth_error (cfBackends c) i = Some b -> cbLimit b = [] ->
    in_force p' (cell_of p' i) = None.
Proof.
  intros h e c p' i b R NE N E.
  rewrite (cell_after _ _ _ _ _ _ R N), E.
  assert (A : assoc [] (pLimits p') = None).
  { replace p' with (after initial (h ++ [(e, c)])).
    - apply after_limits; auto. intros e' c' g I G X.
      apply (NE e' c' g I G). destruct (gName g); auto. discriminate.
    - clear - R. revert R. generalize initial. induction h as [|(e1, c1) h IH]; intros q R; simpl.
      + simpl in R. rewrite R. auto.
      + apply IH. exact R. }
  rewrite A. reflexivity.
Qed.
Print Assumptions C49_no_group_no_limit_partial.

(** A group name with an upper case letter: accepted, and no limit at all. *)
Theorem C49_upper_case_refuted :
  exists e c p' b g,
    reconfigure e c initial = (p', true) /\ nth_error (cfBackends c) 0 = Some b /\
    In g (cfGroups c) /\ gName g = cbLimit b /\ gIn g = 1000 /\
    in_force p' (cell_of p' 0) = None.
Proof.
  exists ok_env, (cfg [g !"Slow" 1000 1000] [be !"www" !"HTTP" !"Slow" None] []).
  eexists _, _, _. repeat split; try (left; reflexivity); vm_compute; reflexivity.
Qed.
Print Assumptions C49_upper_case_refuted.

(** Two groups that differ in the case of a letter: the one gets the limits of the other. *)
Theorem C49_case_collision_refuted :
  exists e c p' b g l,
    reconfigure e c initial = (p', true) /\ nth_error (cfBackends c) 0 = Some b /\
    In g (cfGroups c) /\ gName g = cbLimit b /\
    in_force p' (cell_of p' 0) = Some l /\ gIn g = 1000 /\ lIn l = 9000000.
Proof.
  exists ok_env, (cfg [g !"slow" 1000 1000; g !"SLOW" 9000000 9000000]
                      [be !"www" !"HTTP" !"slow" None] []).
  eexists _, _, _, _. repeat split; try (left; reflexivity); vm_compute; reflexivity.
Qed.
Print Assumptions C49_case_collision_refuted.

(** A group without a name limits the backends that have no group, also after it has
    been removed from the configuration. *)
Theorem C49_unnamed_group_refuted :
  exists e c1 c2 p1 p2 b l,
    reconfigure e c1 initial = (p1, true) /\ reconfigure e c2 p1 = (p2, true) /\
    cfGroups c2 = [] /\ nth_error (cfBackends c2) 0 = Some b /\ cbLimit b = [] /\
    in_force p2 (cell_of p2 0) = Some l /\ lIn l = 7.
Proof.
  exists ok_env, (cfg [g [] 7 7] [be !"www" !"HTTP" [] None] []),
         (cfg [] [be !"www" !"HTTP" [] None] []).
  eexists _, _, _, _. repeat split; vm_compute; reflexivity.
Qed.
Print Assumptions C49_unnamed_group_refuted.

Example C49_case :
  let c := cfg [g !"slow" 1000 2000; g !"fast" 900000 900000]
               [be !"www" !"HTTP" !"fast" (Some !"pk"); be !"a" !"TCP" !"slow" None; be !"b" !"TCP" [] None] [] in
  exists p', reconfigure ok_env c (after initial [(bad_ssh, cfg [g !"slow" 1 1] [] [!"x"])]) = (p', true) /\
    in_force p' (cell_of p' 0) = Some {| lIn := 900000; lInBurst := 900000; lOut := 900000; lOutBurst := 900000 |} /\
    in_force p' (cell_of p' 1) = Some {| lIn := 1000; lInBurst := 131072; lOut := 2000; lOutBurst := 131072 |} /\
    in_force p' (cell_of p' 2) = None.
Proof. eexists. repeat split; vm_compute; reflexivity. Qed.

(** ** C50 *)

(** After a failure, the backends in service, the routes, the CAs and the default
    server name are the ones from before; so is every limit, except those of groups
    in the rejected configuration whose values differ from the ones in force; and if
    the failure is in the checks, the identity providers or the CAs, everything. *)
Theorem C50_failed_reload_partial :
  forall e c p p',
    reconfigure e c p = (p', false) ->
    pServing p' = pServing p /\
    (forall i, cell_of p' i = cell_of p i) /\
    (forall n, (forall g, In g (cfGroups c) -> to_lower (gName g) <> n) ->
       assoc n (pLimits p') = assoc n (pLimits p)) /\
    (forall n l, (forall g, In g (cfGroups c) -> to_lower (gName g) = n ->
                   l = {| lIn := gIn g; lInBurst := Z.max (gIn g) 131072;
                          lOut := gOut g; lOutBurst := Z.max (gOut g) 131072 |}) ->
       assoc n (pLimits p) = Some l -> assoc n (pLimits p') = Some l) /\
    (check e c = None \/ prepare e c = None -> p' = p).
Proof.
  intros e c p p' R. destruct (reconfigure_fail _ _ _ _ R) as (S & _ & D).
  split; [exact S|]. split; [intros i; unfold cell_of; rewrite S; reflexivity|].
  destruct D as [-> | (A & B & L)].
  { repeat split; auto. }
  rewrite L. split; [|split].
  - intros n N. apply set_limits_other. intros X. apply in_map_iff in X as (g & E & I).
    apply (N g I E).
  - intros n l N E.
    destruct (set_limits_last n (cfGroups c) (pLimits p)) as [(g & I & G & ->) | (_ & ->)]; auto.
    rewrite (N g I G). reflexivity.
  - intros [X|X]; congruence.
Qed.
Print Assumptions C50_failed_reload_partial.

(** The limits of a rejected configuration are in force for the connections of the
    old one, and its HTTP servers keep running. *)
Theorem C50_failed_reload_refuted :
  exists e c1 c2 p1 p2 l1 l2,
    reconfigure e c1 initial = (p1, true) /\
    in_force p1 (cell_of p1 0) = Some l1 /\ lIn l1 = 1000 /\ pServers p1 = 1%nat /\
    exists e2, reconfigure e2 c2 p1 = (p2, false) /\
      in_force p2 (cell_of p2 0) = Some l2 /\ lIn l2 = 9000000 /\ pServers p2 = 2%nat.
Proof.
  exists ok_env, (cfg [g !"slow" 1000 1000] [be !"www" !"HTTP" !"slow" None] []),
         (cfg [g !"slow" 9000000 9000000] [be !"www" !"HTTP" !"slow" None] [!"ssh"]).
  eexists _, _, _, _. split; [vm_compute; reflexivity|].
  split; [vm_compute; reflexivity|]. split; [vm_compute; reflexivity|].
  split; [vm_compute; reflexivity|].
  exists bad_ssh. repeat split; vm_compute; reflexivity.
Qed.
Print Assumptions C50_failed_reload_refuted.

(** The backends in force that are served by an HTTP server of the proxy. *)
Definition http_backends (p : proxy) : nat :=
  match pServing p with
  | None => 0%nat
  | Some s => List.length (filter (fun a => existsb (mode_eqb (bMode (fst a))) [ModeConsole; ModeLocal; ModeHTTP; ModeHTTPS]) (svBackends s))
  end.
(** No reload in the history fails. *)
Fixpoint all_accepted (p : proxy) (h : list (env * config)) : Prop :=
  match h with
  | [] => True
  | (e, c) :: h' => snd (reconfigure e c p) = true /\ all_accepted (fst (reconfigure e c p)) h'
  end.
Lemma http_running p : http_backends p = match pServing p with Some s => running (svBackends s) | None => 0%nat end.
Proof.
  unfold http_backends, running. destruct (pServing p) as [s|]; [|reflexivity]. f_equal. apply filter_ext. intros [b c]. cbn [fst].
  destruct (bMode b); reflexivity.
Qed.
(** There are always enough HTTP servers for the backends in force, and after reloads that
    succeed, just one for each: those of earlier configurations are gone. *)
Theorem C50_servers : forall h,
  (http_backends (after initial h) <= pServers (after initial h))%nat /\
  (all_accepted initial h -> pServers (after initial h) = http_backends (after initial h)).
Proof.
  intro h. assert (G : forall h p, (http_backends p <= pServers p)%nat ->
    (http_backends (after p h) <= pServers (after p h))%nat /\
    (pServers p = http_backends p -> all_accepted p h -> pServers (after p h) = http_backends (after p h))).
  { clear h. induction h as [|[e c] h IH]; intros p L; [split; [exact L|auto]|]. cbn [after all_accepted].
    destruct (reconfigure e c p) as [p' ok] eqn:R. cbn [fst snd]. destruct ok.
    - apply reconfigure_ok in R as (bes & idps & _ & _ & _ & _ & _ & N). rewrite <- !http_running in N.
      destruct (IH p') as [A B]; [lia|]. split; [exact A|]. intros E [_ Q]. apply B; [lia|exact Q].
    - apply reconfigure_fail in R as (SV & LE & _).
      assert (EH : http_backends p' = http_backends p) by (rewrite !http_running, SV; reflexivity).
      destruct (IH p') as [A B]; [lia|]. split; [exact A|]. intros _ [X _]. discriminate X. }
  destruct (G h initial) as [A B]; [cbn; lia|]. split; [exact A|]. apply B. reflexivity.
Qed.
Print Assumptions C50_servers.
Example ex_servers :
  let c := cfg [] [be !"www" !"HTTP" [] None; be !"raw" !"TLS" [] None; be !"sec" !"HTTPS" [] None] [] in
  all_accepted initial [(ok_env, c); (ok_env, c)] /\ http_backends (after initial [(ok_env, c); (ok_env, c)]) = 2%nat.
Proof. vm_compute. auto. Qed.

(** A provider that Check accepted is never unknown later: the only failures after the
    checks come from outside the configuration or from a passkey provider that names
    itself. *)
Theorem C50_accepted_configuration_loads :
  forall e c p,
    check e c <> None ->
    (forall n, eOIDC e n = true) -> (forall n, eSAML e n = true) -> (forall n, ePasskey e n = true) ->
    (forall n, ePKI e n = true) -> (forall n, eCA e n = true) ->
    (forall n, eLoad e n = true -> eReload e n = true) -> (forall n, eSSH e n = true) ->
    (forall n o, In (n, o) (cfPasskey c) -> o <> n) ->
    exists p', reconfigure e c p = (p', true).
Proof.
  intros e c p CK O S K P CA L SSH SELF. unfold reconfigure.
  destruct (check e c) as [bes|] eqn:C; [|congruence]. clear CK.
  assert (T : forall (f : str -> bool) l, (forall n, f n = true) -> forallb f l = true).
  { intros f l F. apply forallb_forall. auto. }
  assert (MEM : forall a b : list str, (forall y, In y a <-> In y b) -> forall n, mem n a = mem n b).
  { intros a b E n. destruct (mem n a) eqn:A, (mem n b) eqn:B; auto.
    - apply mem_spec in A. apply mem_false in B. exfalso. apply B, E, A.
    - apply mem_spec in B. apply mem_false in A. exfalso. apply A, E, B. }
  unfold check in C.
  destruct (check_dups (cfOIDC c ++ cfSAML c) []) as [seen|] eqn:E1; try discriminate.
  destruct (check_passkeys (cfPasskey c) seen) as [idps|] eqn:E2; try discriminate.
  destruct (check_config _ _ _) as [b0|] eqn:E3; try discriminate.
  destruct (_ && _) eqn:E4 in C; try discriminate. injection C as ->.
  rewrite !andb_true_iff in E4. destruct E4 as (((_ & _) & _) & D).
  rewrite forallb_forall in D.
  assert (SEEN : forall l s r, check_dups l s = Some r -> forall x, In x r <-> In x (l ++ s)).
  { induction l as [|n l IH]; intros s r G x; simpl in G.
    - injection G as <-. reflexivity.
    - destruct (mem n s); try discriminate. rewrite (IH _ _ G x). simpl.
      rewrite !in_app_iff. simpl. tauto. }
  assert (PK : forall l s s' r, check_passkeys l s = Some r -> (forall x, In x s <-> In x s') ->
     (forall n o, In (n, o) l -> o <> n) ->
     exists r', make_passkeys e l s' = Some r' /\ forall x, In x r <-> In x r').
  { induction l as [|(n, o) l IH]; intros s s' r G X NS; simpl in G |- *.
    - injection G as <-. eauto.
    - destruct (mem n s); try discriminate. destruct (str_eqb o []); try discriminate.
      destruct (str_eqb o n) eqn:ON.
      { apply str_eqb_spec in ON. exfalso. apply (NS n o); auto. left; auto. }
      assert (Y : mem o s = mem o s') by (apply MEM; auto).
      try rewrite ON in G. rewrite <- Y.
      destruct (mem o s); cbn [negb] in G |- *; try discriminate.
      rewrite K. simpl. apply (IH (n :: s) (n :: s') r G).
      + intros x. simpl. specialize (X x). tauto.
      + intros; apply NS; right; auto. }
  destruct (PK _ _ (cfSAML c ++ cfOIDC c) _ E2) as (r' & PR & SAME); auto.
  { intros x. rewrite (SEEN _ _ _ E1), app_nil_r, !in_app_iff. tauto. }
  unfold prepare. rewrite !T by auto. cbn [negb]. rewrite PR.
  assert (ST : forall lim l, (forall x, In x l -> In (fst x) (cfBackends c)) ->
     exists act n, start e lim r' (cfPKI c) l = (Some act, n)).
  { intros lim. induction l as [|(cb, b) l IH]; intros X; simpl; eauto.
    destruct IH as (act & n & IH); [intros; apply X; right; auto|].
    assert (I : In cb (cfBackends c)) by (apply (X (cb, b)); left; auto).
    specialize (D _ I). unfold check_refs in D. rewrite !andb_true_iff in D.
    destruct D as ((_ & D1) & D2).
    replace (match cbSSO cb with Some p0 => mem p0 r' | None => true end) with true.
    2: { destruct (cbSSO cb); auto. rewrite <- D1. apply MEM. exact SAME. }
    replace (load_cas e (cfPKI c) (cbCAs cb)) with true.
    2: { symmetry. apply forallb_forall. intros y Y. rewrite forallb_forall in D2.
         specialize (D2 y Y). destruct (mem y (cfPKI c)); auto. }
    simpl. rewrite IH. eauto. }
  destruct (ST (set_limits (pLimits p) (cfGroups c)) (combine (cfBackends c) bes)) as (act & n & E).
  { intros (a, b) I. apply in_combine_l in I. exact I. }
  rewrite E. cbn iota beta. rewrite ?T by auto. cbn [negb]. eauto.
Qed.
Print Assumptions C50_accepted_configuration_loads.

(** A passkey provider that names itself passes the checks and is rejected later. *)
Example C50_self_reference :
  let c := {| cfOIDC := []; cfSAML := []; cfPasskey := [(!"pk", !"pk")]; cfPKI := []; cfSSH := [];
              cfGroups := []; cfBackends := []; cfDefault := [] |} in
  check ok_env c <> None /\ reconfigure ok_env c initial = (initial, false).
Proof. split; vm_compute; congruence. Qed.

Example C50_case :
  exists p1, reconfigure ok_env (cfg [g !"slow" 1000 1000] [be !"www" !"HTTP" !"slow" None] []) initial = (p1, true) /\
  exists p2, reconfigure bad_ssh (cfg [g !"fast" 5 5] [be !"xyz" !"HTTP" !"fast" None] [!"s"]) p1 = (p2, false) /\
    pServing p2 = pServing p1 /\ assoc !"slow" (pLimits p2) = assoc !"slow" (pLimits p1) /\
    assoc !"fast" (pLimits p2) <> assoc !"fast" (pLimits p1).
Proof.
  eexists. split; [vm_compute; reflexivity|]. eexists. split; [vm_compute; reflexivity|].
  repeat split; try (vm_compute; reflexivity). vm_compute; discriminate.
Qed.

(** ** C65 *)

(** A connection opened under a group follows the group: after a successful reload it
    has the new limits, or the old ones if the group is gone. *)
Theorem C65_open_connections_follow_their_group :
  forall e c p p' n,
    reconfigure e c p = (p', true) ->
    (forall g, In g (cfGroups c) -> to_lower (gName g) = gName g) ->
    (forall g, In g (cfGroups c) -> gName g = n ->
       exists l, in_force p' (Some n) = Some l /\ lIn l = gIn g /\ lOut l = gOut g) /\
    ((forall g, In g (cfGroups c) -> gName g <> n) -> in_force p' (Some n) = in_force p (Some n)).
Proof.
  intros e c p p' n R LC.
  destruct (reconfigure_ok _ _ _ _ R) as (bes & idps & C & P & L & _ & _ & _).
  destruct (check_inv _ _ _ C) as (_ & _ & ND & _).
  unfold in_force. rewrite L. split.
  - intros g I E.
    destruct (set_limits_last n (cfGroups c) (pLimits p)) as [(g' & I' & E' & ->) | (A & _)].
    + rewrite LC in E' by auto.
      assert (g = g') by (eapply nodup_group; eauto; congruence). subst g'.
      exists (limits_of g). repeat split.
    + exfalso. apply A. rewrite to_lower_fix_mem by auto. rewrite <- E. apply in_map; auto.
  - intros N. apply set_limits_other. intros X. apply in_map_iff in X as (g & E & I).
    rewrite LC in E by auto. apply (N g I E).
Qed.
Print Assumptions C65_open_connections_follow_their_group.

Example C65_case :
  exists p1 p2, reconfigure ok_env (cfg [g !"slow" 1000 1000] [be !"www" !"HTTP" !"slow" None] []) initial = (p1, true) /\
    reconfigure ok_env (cfg [g !"slow" 2000 3000] [] []) p1 = (p2, true) /\
    in_force p2 (cell_of p1 0) = Some {| lIn := 2000; lInBurst := 131072; lOut := 3000; lOutBurst := 131072 |}.
Proof. eexists _, _. repeat split; vm_compute; reflexivity. Qed.
