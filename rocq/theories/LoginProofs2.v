(** Proofs about the OpenID client and SAML. *)
From Verif Require Import Base TokenModel LoginModel LoginSpec LoginProofs.
Open Scope Z_scope.

Definition c_after d ops := fst (client_run d empty_client ops).
Lemma client_run_app d sv a b :
  client_run d sv (a ++ b) = (fst (client_run d (fst (client_run d sv a)) b), snd (client_run d sv a) ++ snd (client_run d (fst (client_run d sv a)) b)).
Proof.
  revert sv. induction a as [|o a IH]; intros sv; cbn [client_run app fst snd].
  - destruct (client_run d sv b); reflexivity.
  - destruct (client_step d sv o) as [s1 out]. rewrite IH. destruct (client_run d s1 a) as [s2 tr]. reflexivity.
Qed.
Lemma c_after_snoc d ops o : c_after d (ops ++ [o]) = fst (client_step d (c_after d ops) o).
Proof.
  unfold c_after. rewrite client_run_app. cbn [client_run fst]. destruct (client_step d (fst (client_run d empty_client ops)) o). reflexivity.
Qed.
Lemma client_outputs_snoc d ops o : client_outputs d (ops ++ [o]) = client_outputs d ops ++ [(o, client_answer d ops o)].
Proof.
  unfold client_outputs, client_answer. rewrite client_run_app. cbn [client_run snd].
  destruct (client_step d (fst (client_run d empty_client ops)) o). reflexivity.
Qed.

Definition fresh5 (now : Z) (kv : str * login_state) := negb (5 * minute <? now - ls_created (snd kv)).

Lemma client_step_nodup d st o : NoDup (map fst (cs_states st)) -> NoDup (map fst (cs_states (fst (client_step d st o)))).
Proof.
  intros N. destruct o as [b n now url host|id b state cookie now|id c]; cbn [client_step].
  - cbn [fst cs_states]. apply NoDup_set. exact N.
  - cbv zeta. destruct (assoc state _); [destruct (_ || _)|]; cbn [fst cs_states]; try apply NoDup_set; apply NoDup_filter_keys; exact N.
  - destruct (find _ _) as [[? [? ?]]|]; [|exact N]. cbv zeta.
    destruct (assoc _ _); [destruct (user_ok _ _)|]; cbn [fst cs_states]; apply NoDup_del; exact N.
Qed.
Lemma c_after_nodup d ops : NoDup (map fst (cs_states (c_after d ops))).
Proof.
  induction ops as [|o ops IH] using rev_ind; [constructor|]. rewrite c_after_snoc. apply client_step_nodup. exact IH.
Qed.

Lemma finish_frame d st id c :
  (exists k, cs_states (fst (client_step d st (Finish id c))) = assoc_del k (cs_states st)) \/
  cs_states (fst (client_step d st (Finish id c))) = cs_states st.
Proof.
  cbn [client_step]. destruct (find _ _) as [[? [? ?]]|]; [|auto]. cbv zeta.
  destruct (assoc _ (cs_states st)); [destruct (user_ok _ _)|]; cbn [fst cs_states]; left; eexists; reflexivity.
Qed.
Lemma finish_waiting d st id c w : In w (cs_waiting (fst (client_step d st (Finish id c)))) -> In w (cs_waiting st).
Proof.
  cbn [client_step]. destruct (find _ _) as [[? [? ?]]|]; [|auto]. cbv zeta.
  destruct (assoc _ (cs_states st)); [destruct (user_ok _ _)|]; cbn [fst cs_waiting]; rewrite filter_In; tauto.
Qed.

(** Where a pending login comes from. *)
Definition login_origin (ops : list client_op) (n : str) (s : login_state) : Prop :=
  exists before between b,
    ops = before ++ Login b n (ls_created s) (ls_url s) (ls_host s) :: between /\
    (ls_seen s = false -> forall id b' cookie t, ~ In (Begin id b' n cookie t) between).
Lemma login_origin_snoc ops n s o :
  (ls_seen s = false -> forall id b' cookie t, o <> Begin id b' n cookie t) -> login_origin ops n s -> login_origin (ops ++ [o]) n s.
Proof.
  intros U (before & between & b & -> & H). exists before, (between ++ [o]), b. rewrite <- app_assoc. split; [reflexivity|].
  intros Sn id b' cookie t I. apply in_app_iff in I as [I|[I|[]]]; [exact (H Sn _ _ _ _ I)|]. exact (U Sn _ _ _ _ I).
Qed.
Lemma login_origin_seen ops n s : login_origin ops n s -> login_origin ops n (seen s).
Proof. intros (before & between & b & H & _). exists before, between, b. split; [exact H|discriminate]. Qed.

Lemma states_origin d ops n s : assoc n (cs_states (c_after d ops)) = Some s -> login_origin ops n s.
Proof.
  revert n s. induction ops as [|o ops IH] using rev_ind; intros n s H; [discriminate|].
  rewrite c_after_snoc in H. pose proof (c_after_nodup d ops) as N.
  destruct o as [b n' now url host|id b state cookie now|id c]; cbn [client_step] in H.
  - cbn [fst cs_states] in H. apply assoc_set_inv in H as [[-> ->]|[Ne H]].
    + exists ops, [], b. split; [reflexivity|]. intros _ ? ? ? ? [].
    + apply login_origin_snoc; [discriminate|auto].
  - cbv zeta in H. fold (fresh5 now) in H.
    assert (K : forall s', assoc n (filter (fresh5 now) (cs_states (c_after d ops))) = Some s' -> login_origin ops n s').
    { intros s' A. apply (assoc_filter_Some (fun x => negb (5 * minute <? now - ls_created x))) in A as [A _]; [|exact N]. exact (IH _ _ A). }
    change (fun kv : str * login_state => negb (5 * minute <? now - ls_created (snd kv))) with (fresh5 now) in H.
    destruct (assoc state (filter (fresh5 now) (cs_states (c_after d ops)))) as [s0|] eqn:E0.
    + assert (H' : assoc n (assoc_set state (seen s0) (filter (fresh5 now) (cs_states (c_after d ops)))) = Some s).
      { destruct (ls_seen s0 || negb (str_eqb state cookie)); exact H. }
      clear H. apply assoc_set_inv in H' as [[-> ->]|[Ne H]].
      * apply login_origin_snoc; [discriminate|]. apply login_origin_seen. auto.
      * apply login_origin_snoc; [|auto]. intros _ id' b' cookie' t' [= -> -> -> -> ->]. contradiction.
    + cbn [fst cs_states] in H. apply login_origin_snoc; [|auto].
      intros _ id' b' cookie' t' [= -> -> -> -> ->]. rewrite E0 in H. discriminate.
  - apply login_origin_snoc; [discriminate|]. apply IH.
    destruct (finish_frame d (c_after d ops) id c) as [[k E]|E]; cbn [client_step] in E; rewrite E in H; [apply assoc_del_inv in H as [_ H]|]; exact H.
Qed.

(** Where a waiting callback comes from. *)
Definition callback_origin (ops : list client_op) (id b : nat) (n : str) : Prop :=
  exists before between after b0 t0 t1 url host,
    ops = before ++ Login b0 n t0 url host :: between ++ Begin id b n n t1 :: after /\ t1 - t0 <= 5 * minute /\
    (forall id' b' cookie t, ~ In (Begin id' b' n cookie t) between).

Lemma waiting_origin d ops id b n : In (id, (b, n)) (cs_waiting (c_after d ops)) -> callback_origin ops id b n.
Proof.
  induction ops as [|o ops IH] using rev_ind; intros H; [destruct H|].
  rewrite c_after_snoc in H. pose proof (c_after_nodup d ops) as N.
  assert (K : In (id, (b, n)) (cs_waiting (c_after d ops)) -> callback_origin (ops ++ [o]) id b n).
  { intros I. destruct (IH I) as (before & between & after & b0 & t0 & t1 & url & host & -> & H1 & H2).
    exists before, between, (after ++ [o]), b0, t0, t1, url, host. repeat split; auto.
    rewrite <- app_assoc. cbn. rewrite <- app_assoc. reflexivity. }
  destruct o as [b' n' now url host|id' b' state cookie now|id' c]; cbn [client_step] in H.
  - exact (K H).
  - cbv zeta in H.
    change (fun kv : str * login_state => negb (5 * minute <? now - ls_created (snd kv))) with (fresh5 now) in H.
    destruct (assoc state (filter (fresh5 now) (cs_states (c_after d ops)))) as [s0|] eqn:E0; [|exact (K H)].
    destruct (ls_seen s0 || negb (str_eqb state cookie)) eqn:Bad; [exact (K H)|].
    cbn [fst cs_waiting] in H. destruct H as [[= -> -> ->]|H]; [|exact (K H)]. clear K.
    apply orb_false_iff in Bad as [Sn Ck]. apply negb_false_iff in Ck. apply str_eqb_spec in Ck as <-.
    apply (assoc_filter_Some (fun x => negb (5 * minute <? now - ls_created x))) in E0 as [A P]; [|exact N].
    apply negb_true_iff in P. apply Z.ltb_ge in P.
    apply states_origin in A as (before & between & b0 & -> & U).
    exists before, between, [], b0, (ls_created s0), now, (ls_url s0), (ls_host s0). repeat split; auto.
    rewrite <- app_assoc. reflexivity.
  - apply K. exact (finish_waiting _ _ _ _ _ H).
Qed.

Lemma finish_spec d st id c b s :
  snd (client_step d st (Finish id c)) = CSession b s ->
  exists n sid ls, In (id, (b, n)) (cs_waiting st) /\ sid = (if str_eqb (pc_nonce c) [] then n else pc_nonce c) /\
    assoc sid (cs_states st) = Some ls /\ user_ok d c = true /\
    s = {| se_user := pc_sub c; se_email := pc_email c; se_sid := sid; se_host := ls_host ls; se_url := ls_url ls |} /\
    cs_states (fst (client_step d st (Finish id c))) = assoc_del sid (cs_states st).
Proof.
  cbn [client_step]. destruct (find _ _) as [[id' [b' n]]|] eqn:F; [|discriminate]. cbv zeta.
  apply find_some in F as [I E]. cbn [fst] in E. apply Nat.eqb_eq in E as ->.
  destruct (assoc _ (cs_states st)) as [ls|] eqn:A; [|discriminate].
  destruct (user_ok d c) eqn:U; [|discriminate]. cbn [fst snd]. intros [= <- <-].
  exists n, (if str_eqb (pc_nonce c) [] then n else pc_nonce c), ls. auto 7.
Qed.
Lemma not_finish_no_session d st o b s : snd (client_step d st o) = CSession b s -> exists id c, o = Finish id c.
Proof.
  destruct o as [b' n' now url host|id' b' state cookie now|id' c]; cbn [client_step]; [discriminate| |eauto].
  cbv zeta. destruct (assoc _ _); [destruct (_ || _)|]; discriminate.
Qed.

Lemma nonces_app a b : nonces (a ++ b) = nonces a ++ nonces b.
Proof. unfold nonces. apply flat_map_app. Qed.
Lemma In_login_nonces b n t url host ops : In (Login b n t url host) ops -> In n (nonces ops).
Proof. intros H. apply in_flat_map. exists (Login b n t url host). split; [exact H|left; reflexivity]. Qed.

Lemma login_unique ops b1 b2 n t1 t2 u1 u2 h1 h2 :
  NoDup (nonces ops) -> In (Login b1 n t1 u1 h1) ops -> In (Login b2 n t2 u2 h2) ops -> b1 = b2 /\ t1 = t2 /\ u1 = u2 /\ h1 = h2.
Proof.
  induction ops as [|o ops IH]; intros N H1 H2; [destruct H1|].
  change (nonces (o :: ops)) with ((match o with Login _ n _ _ _ => [n] | _ => [] end) ++ nonces ops) in N.
  destruct H1 as [->|H1], H2 as [E|H2].
  - injection E as -> -> -> ->. auto.
  - cbn [app] in N. inversion N; subst. apply In_login_nonces in H2. contradiction.
  - subst o. cbn [app] in N. inversion N; subst. apply In_login_nonces in H1. contradiction.
  - apply IH; auto. destruct o; cbn [app] in N; auto. inversion N; auto.
Qed.

Lemma session_origin d ops id c b s :
  NoDup (nonces ops) -> jars_ok ops -> client_answer d ops (Finish id c) = CSession b s ->
  exists before between after n t0 t1 url host,
    ops = before ++ Login b n t0 url host :: between ++ Begin id b n n t1 :: after /\
    t1 - t0 <= 5 * minute /\
    (forall id' b' cookie t, ~ In (Begin id' b' n cookie t) between) /\
    (pc_nonce c = [] \/ pc_nonce c = n -> se_url s = url /\ se_host s = host /\ se_sid s = n).
Proof.
  intros N J H. unfold client_answer in H. apply finish_spec in H as (n & sid & ls & W & Es & A & _ & -> & _).
  apply waiting_origin in W as (before & between & after & b0 & t0 & t1 & url & host & E & T & U).
  assert (E' : ops = (before ++ Login b0 n t0 url host :: between) ++ Begin id b n n t1 :: after).
  { rewrite E, <- app_assoc. reflexivity. }
  destruct (J _ _ _ _ _ _ _ E') as (t & url' & host' & Ij).
  assert (I0 : In (Login b0 n t0 url host) ops). { rewrite E. apply in_app_iff. right. left. reflexivity. }
  assert (I1 : In (Login b n t url' host') ops). { rewrite E'. apply in_app_iff. left. exact Ij. }
  destruct (login_unique _ _ _ _ _ _ _ _ _ _ N I0 I1) as (-> & _).
  exists before, between, after, n, t0, t1, url, host. split; [exact E|]. split; [exact T|]. split; [exact U|].
  intros Hn. assert (sid = n) as ->. { rewrite Es. destruct Hn as [->| ->]; [reflexivity|]. destruct (str_eqb n []); reflexivity. }
  apply states_origin in A as (bf & bt & b2 & E2 & _).
  assert (I2 : In (Login b2 n (ls_created ls) (ls_url ls) (ls_host ls)) ops). { rewrite E2. apply in_app_iff. right. left. reflexivity. }
  destruct (login_unique _ _ _ _ _ _ _ _ _ _ N I0 I2) as (_ & _ & -> & ->). cbn. auto.
Qed.

Lemma session_user d ops id c b s :
  client_answer d ops (Finish id c) = CSession b s ->
  se_user s = pc_sub c /\ se_email s = pc_email c /\ pc_email c <> [] /\ pc_verified c <> Some false /\
  (d = [] \/ (d = lit "*" /\ pc_domain c <> []) \/ (pc_domain c = d)).
Proof.
  intros H. unfold client_answer in H. apply finish_spec in H as (n & sid & ls & _ & _ & _ & U & -> & _). cbn [se_user se_email].
  unfold user_ok in U. apply andb_true_iff in U as [U U3]. apply andb_true_iff in U as [U1 U2].
  repeat split; auto.
  - intros E. rewrite E in U1. discriminate.
  - intros E. rewrite E in U2. discriminate.
  - apply orb_true_iff in U3 as [U3|U3]; [apply str_eqb_spec in U3; auto|]. apply andb_true_iff in U3 as [U3 U4].
    apply orb_true_iff in U4 as [U4|U4]; apply str_eqb_spec in U4; [|auto]. right; left. split; [exact U4|]. intros E. rewrite E in U3. discriminate.
Qed.

Definition login_count (n : str) (ops : list client_op) : nat := List.length (filter (fun m => str_eqb m n) (nonces ops)).
Lemma login_count_snoc n ops o : login_count n (ops ++ [o]) = (login_count n ops + (match o with Login _ m _ _ _ => if str_eqb m n then 1 else 0 | _ => 0 end))%nat.
Proof.
  unfold login_count. rewrite nonces_app, filter_app, app_length. f_equal. unfold nonces. cbn [flat_map]. rewrite app_nil_r.
  destruct o; try reflexivity. cbn. destruct (str_eqb nonce n); reflexivity.
Qed.

Lemma step_held d ops o n :
  (held n (cs_states (fst (client_step d (c_after d ops) o))) <=
   held n (cs_states (c_after d ops)) + (match o with Login _ m _ _ _ => if str_eqb m n then 1 else 0 | _ => 0 end))%nat.
Proof.
  pose proof (c_after_nodup d ops) as N.
  destruct o as [b' n' now url host|id' b' state cookie now|id' c].
  - cbn [client_step fst cs_states]. rewrite held_set. destruct (str_eqb n' n); lia.
  - cbn [client_step]. cbv zeta.
    pose proof (held_filter (fun x => negb (5 * minute <? now - ls_created x)) n _ N) as HF. cbv beta in HF.
    change (fun kv : str * login_state => negb (5 * minute <? now - ls_created (snd kv))) with (fresh5 now) in *.
    destruct (assoc state (filter (fresh5 now) (cs_states (c_after d ops)))) as [s0|] eqn:E0; [|cbn [fst cs_states]; lia].
    assert (held n (assoc_set state (seen s0) (filter (fresh5 now) (cs_states (c_after d ops)))) <= held n (cs_states (c_after d ops)))%nat as HS.
    { rewrite held_set. destruct (str_eqb state n) eqn:Es; [|lia]. apply str_eqb_spec in Es as <-. unfold held in HF at 1. rewrite E0 in HF. lia. }
    destruct (ls_seen s0 || negb (str_eqb state cookie)); cbn [fst cs_states]; lia.
  - pose proof (finish_frame d (c_after d ops) id' c) as [[k E]|E]; rewrite E; [rewrite held_del; destruct (str_eqb k n)|]; lia.
Qed.
Lemma sessions_bound d ops n :
  (sessions n (map snd (client_outputs d ops)) + held n (cs_states (c_after d ops)) <= login_count n ops)%nat.
Proof.
  induction ops as [|o ops IH] using rev_ind; [cbn; lia|].
  rewrite client_outputs_snoc, c_after_snoc, login_count_snoc, map_app. cbn [map snd].
  unfold sessions in *. rewrite filter_snoc_len. unfold client_answer. fold (c_after d ops).
  pose proof (step_held d ops o n) as SH.
  destruct (snd (client_step d (c_after d ops) o)) as [| |b s] eqn:E; [lia|lia|].
  destruct (not_finish_no_session _ _ _ _ _ E) as (id & c & ->).
  apply finish_spec in E as (m & sid & ls & _ & _ & A & _ & -> & ->). cbn [se_sid]. rewrite held_del.
  destruct (str_eqb sid n) eqn:Es; [|lia]. apply str_eqb_spec in Es as <-. unfold held in IH. rewrite A in IH. lia.
Qed.

Lemma NoDup_count (n : str) l : NoDup l -> (List.length (filter (fun m => str_eqb m n) l) <= 1)%nat.
Proof.
  induction 1 as [|x l H N IH]; [cbn; lia|]. cbn [filter]. destruct (str_eqb x n) eqn:E; [|exact IH].
  apply str_eqb_spec in E as ->. cbn [List.length].
  enough (filter (fun m => str_eqb m n) l = []) as -> by (cbn; lia).
  clear -H. induction l as [|y l IH]; [reflexivity|]. cbn. destruct (str_eqb y n) eqn:E.
  - apply str_eqb_spec in E as ->. exfalso. apply H. left. reflexivity.
  - apply IH. intros I. apply H. right. exact I.
Qed.
Lemma session_once d ops n : NoDup (nonces ops) -> (sessions n (map snd (client_outputs d ops)) <= 1)%nat.
Proof.
  intros N. pose proof (sessions_bound d ops n). pose proof (NoDup_count n _ N). unfold login_count in *. lia.
Qed.

(** ** SAML *)
Definition s_after cfg ops := fst (saml_run cfg [] ops).
Lemma saml_run_app d sv a b :
  saml_run d sv (a ++ b) = (fst (saml_run d (fst (saml_run d sv a)) b), snd (saml_run d sv a) ++ snd (saml_run d (fst (saml_run d sv a)) b)).
Proof.
  revert sv. induction a as [|o a IH]; intros sv; cbn [saml_run app fst snd].
  - destruct (saml_run d sv b); reflexivity.
  - destruct (saml_step d sv o) as [s1 out]. rewrite IH. destruct (saml_run d s1 a) as [s2 tr]. reflexivity.
Qed.
Lemma s_after_snoc d ops o : s_after d (ops ++ [o]) = fst (saml_step d (s_after d ops) o).
Proof.
  unfold s_after. rewrite saml_run_app. cbn [saml_run fst]. destruct (saml_step d (fst (saml_run d [] ops)) o). reflexivity.
Qed.
Lemma saml_outputs_snoc d ops o : saml_outputs d (ops ++ [o]) = saml_outputs d ops ++ [(o, saml_answer d ops o)].
Proof.
  unfold saml_outputs, saml_answer. rewrite saml_run_app. cbn [saml_run snd].
  destruct (saml_step d (fst (saml_run d [] ops)) o). reflexivity.
Qed.
Lemma s_after_nodup d ops : NoDup (map fst (s_after d ops)).
Proof.
  induction ops as [|o ops IH] using rev_ind; [constructor|]. rewrite s_after_snoc.
  destruct o as [b n now url host|b [a|] now later]; cbn [saml_step]; cbn [fst]; auto.
  - apply NoDup_set. exact IH.
  - cbv zeta. destruct (assoc _ _); cbn [fst]; try apply NoDup_del; apply NoDup_filter_keys; exact IH.
Qed.
Lemma saml_states_origin d ops n s : assoc n (s_after d ops) = Some s ->
  exists before after b, ops = before ++ SLogin b n (ls_created s) (ls_url s) (ls_host s) :: after.
Proof.
  revert n s. induction ops as [|o ops IH] using rev_ind; intros n s H; [discriminate|].
  assert (K : assoc n (s_after d ops) = Some s -> exists before after b, ops ++ [o] = before ++ SLogin b n (ls_created s) (ls_url s) (ls_host s) :: after).
  { intros A. destruct (IH _ _ A) as (before & after & b & ->). exists before, (after ++ [o]), b. rewrite <- app_assoc. reflexivity. }
  rewrite s_after_snoc in H. pose proof (s_after_nodup d ops) as N.
  destruct o as [b n' now url host|b [a|] now later]; cbn [saml_step] in H.
  - cbn [fst] in H. apply assoc_set_inv in H as [[-> ->]|[Ne H]]; [|exact (K H)]. exists ops, [], b. reflexivity.
  - cbv zeta in H. apply K. match type of H with context [match assoc (as_in_response_to a) ?l with _ => _ end] => destruct (assoc (as_in_response_to a) l) end; cbn [fst] in H; [apply assoc_del_inv in H as [_ H]|];
      apply (assoc_filter_Some (fun x => negb (5 * minute <? now - ls_created x))) in H as [H _]; auto.
  - exact (K H).
Qed.
Lemma saml_session_origin d ops b r now later b' s :
  saml_answer d ops (SResponse b r now later) = CSession b' s ->
  exists a before after b0 t0 t1 t2,
    r = Some a /\ ops = before ++ SLogin b0 (as_in_response_to a) t0 (se_url s) (se_host s) :: after /\ now - t0 <= 5 * minute /\
    as_recipient a = sc_acs d /\ as_audience a = sc_self d /\
    as_not_before a = Some t1 /\ t1 <= later /\ as_not_after a = Some t2 /\ later <= t2 /\
    b' = b /\ se_sid s = as_in_response_to a /\ se_user s = as_subject a /\ se_email s = as_subject a /\ as_subject a <> [].
Proof.
  unfold saml_answer. destruct r as [a|]; [|discriminate]. cbn [saml_step]. cbv zeta.
  destruct (assoc _ _) as [ls|] eqn:A; [|discriminate]. cbn [snd].
  destruct (assertion_ok d later a) eqn:Ok; [|discriminate]. intros [= <- <-]. cbn [se_url se_host se_sid se_user se_email].
  apply (assoc_filter_Some (fun x => negb (5 * minute <? now - ls_created x))) in A as [A P]; [|apply s_after_nodup].
  apply negb_true_iff in P. apply Z.ltb_ge in P.
  apply saml_states_origin in A as (before & after & b0 & E).
  unfold assertion_ok in Ok. repeat (apply andb_true_iff in Ok as [Ok ?]).
  destruct (as_not_before a) as [t1|] eqn:Enb; [|discriminate]. destruct (as_not_after a) as [t2|] eqn:Ena; [|discriminate].
  exists a, before, after, b0, (ls_created ls), t1, t2.
  repeat match goal with H : negb _ = true |- _ => apply negb_true_iff in H end.
  repeat match goal with H : (_ <? _) = false |- _ => apply Z.ltb_ge in H end.
  repeat match goal with H : str_eqb _ _ = true |- _ => apply str_eqb_spec in H end.
  repeat split; auto. intros E'. rewrite E' in *. discriminate.
Qed.
Definition saml_count (n : str) (ops : list saml_op) : nat := List.length (filter (fun m => str_eqb m n) (saml_ids ops)).
Lemma saml_count_snoc n ops o : saml_count n (ops ++ [o]) = (saml_count n ops + (match o with SLogin _ m _ _ _ => if str_eqb m n then 1 else 0 | _ => 0 end))%nat.
Proof.
  unfold saml_count, saml_ids. rewrite flat_map_app, filter_app, app_length. f_equal. cbn [flat_map]. rewrite app_nil_r.
  destruct o; try reflexivity. cbn. destruct (str_eqb id n); reflexivity.
Qed.
Lemma saml_bound d ops n : (sessions n (map snd (saml_outputs d ops)) + held n (s_after d ops) <= saml_count n ops)%nat.
Proof.
  induction ops as [|o ops IH] using rev_ind; [cbn; lia|].
  rewrite saml_outputs_snoc, s_after_snoc, saml_count_snoc, map_app. cbn [map snd].
  unfold sessions in *. rewrite filter_snoc_len. unfold saml_answer. fold (s_after d ops).
  pose proof (s_after_nodup d ops) as N.
  destruct o as [b n' now url host|b [a|] now later]; cbn [saml_step].
  - cbn [fst snd]. rewrite held_set. destruct (str_eqb n' n); lia.
  - cbv zeta. pose proof (held_filter (fun x => negb (5 * minute <? now - ls_created x)) n _ N) as HF.
    destruct (assoc (as_in_response_to a) _) as [ls|] eqn:A; cbn [fst snd]; [|lia].
    rewrite held_del. destruct (assertion_ok d later a); cbn [se_sid].
    + destruct (str_eqb (as_in_response_to a) n) eqn:Es; [|lia]. apply str_eqb_spec in Es as <-.
      unfold held in HF at 1. rewrite A in HF. lia.
    + destruct (str_eqb (as_in_response_to a) n); lia.
  - cbn [fst snd]. lia.
Qed.
Lemma saml_once d ops n : NoDup (saml_ids ops) -> (sessions n (map snd (saml_outputs d ops)) <= 1)%nat.
Proof. intros N. pose proof (saml_bound d ops n). pose proof (NoDup_count n _ N). unfold saml_count in *. lia. Qed.

Lemma draws_count code ops : draws code ops = List.length (filter (fun m => str_eqb m code) (codes_drawn ops)).
Proof.
  unfold draws, codes_drawn. induction ops as [|o ops IH]; [reflexivity|]. cbn [flat_map filter]. rewrite filter_app, app_length, <- IH.
  destruct o; try reflexivity. cbn [filter]. destruct (str_eqb code0 code); reflexivity.
Qed.
Lemma access_draws_count a ops : access_draws a ops = List.length (filter (fun m => str_eqb m a) (accesses_drawn ops)).
Proof.
  unfold access_draws, accesses_drawn. induction ops as [|o ops IH]; [reflexivity|]. cbn [flat_map filter]. rewrite filter_app, app_length, <- IH.
  destruct o; try reflexivity. cbn [filter]. destruct (str_eqb access a); reflexivity.
Qed.
