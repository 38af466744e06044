(** Proofs about the HTTP side of passkeys. *)
From Verif Require Import Base PasskeyModel PasskeySpec LoginProofs LoginProofs2 PasskeyProofs PasskeyProofs2 PasskeyProofs3 PasskeyHttpModel PasskeyHttpSpec.
From Verif Require HttpModel HttpSpec HttpProofs TokenModel HeadersModel.
Open Scope list_scope.
Open Scope Z_scope.

(** ** Histories *)

Lemma hrun_snoc e ops o : hrun e (ops ++ [o]) = fst (hstep e (hrun e ops) o).
Proof. unfold hrun. rewrite fold_left_app. reflexivity. Qed.

Lemma htrace_from_app e a b : forall st,
  htrace_from e st (a ++ b) = htrace_from e st a ++ htrace_from e (fold_left (fun st o => fst (hstep e st o)) a st) b.
Proof.
  induction a as [|o a IH]; intro st; cbn [app htrace_from fold_left]; [reflexivity|]. rewrite IH, app_assoc. reflexivity.
Qed.

Lemma htrace_snoc e ops o : htrace e (ops ++ [o]) = htrace e ops ++ plan_ops (snd (hplan e (hs_nonces (hrun e ops)) o)).
Proof. unfold htrace. rewrite htrace_from_app. cbn [htrace_from]. rewrite app_nil_r. reflexivity. Qed.

Lemma hstep_keys e st o :
  hs_keys (fst (hstep e st o)) = fst (prun (h_env e) (hs_keys st) (plan_ops (snd (hplan e (hs_nonces st) o)))).
Proof.
  unfold hstep. destruct (hplan e (hs_nonces st) o) as [ns [a|b l k]]; cbn [snd plan_ops]; [reflexivity|].
  rewrite prun_app. cbn [fst prun]. destruct (pstep (h_env e) (fst (prun (h_env e) (hs_keys st) b)) l). reflexivity.
Qed.

Lemma hrun_keys e ops : hs_keys (hrun e ops) = pafter (h_env e) (htrace e ops).
Proof.
  induction ops as [|o ops IH] using rev_ind; [reflexivity|]. rewrite hrun_snoc, htrace_snoc, hstep_keys, IH.
  unfold pafter. rewrite prun_app. reflexivity.
Qed.

(** Which critical sections a plan can have. *)
Definition shape (p : plan) : Prop :=
  match p with
  | Done _ => True
  | Run b l _ => b = [] \/ exists v, b = [Vacuum v]
  end.
Lemma hplan_shape e ns o : shape (snd (hplan e ns o)).
Proof.
  destruct o as [n now url hint host|q|q]; cbn [hplan snd request_login]; [exact I| |].
  - unfold handle_callback. destruct (take_nonce _ _ _) as [[d|] ns1]; [exact I|]. cbn [snd]. destruct (str_eqb _ _); [exact I|].
    destruct (q_redirect q); [|exact I]. destruct (TokenModel.accept_url _ _ _ _); [|exact I].
    destruct (match q_other q with None => _ | Some _ => _ end); [exact I|]. unfold callback_mode.
    repeat (match goal with |- context [if ?x then _ else _] => destruct x end; try exact I);
      repeat (match goal with |- context [match ?x with None => _ | Some _ => _ end] => destruct x as [x'|] end; try exact I);
      try (destruct (negb _)); try (destruct (q_attest q) as [[? ?]|]); cbn; eauto.
  - unfold manage_keys, request_login. destruct (negb _); [exact I|]. destruct (fresh_session e q) as [s|]; [|exact I]. destruct (ms_key s); [|exact I].
    cbn [snd]. unfold manage_mode. cbv zeta.
    repeat (match goal with |- context [if ?x then _ else _] => destruct x end; try exact I);
      try (destruct (q_attest q) as [[? ?]|]); try (destruct (q_id q)); cbn; eauto.
Qed.

Lemma post_spec q : post q = true <-> own_script q.
Proof. unfold post, own_script. rewrite andb_true_iff, !str_eqb_spec. tauto. Qed.

(** What the login endpoint may do. *)
Definition cb_case (e : henv) (q : preq) (url : str) (b : list pop) (l : pop) (k : pout -> answer) : Prop :=
  match l with
  | Vacuum now => now = q_now q /\ b = [] /\ k = (fun _ => AError)
  | AssOptions ch now => q_get q = lit "AssertionOptions" /\ ch = q_challenge q /\ now = q_now q /\ b = [Vacuum (q_now q)] /\ k = (fun _ => AOptions)
  | AttOptions c uid ch now =>
      q_get q = lit "AttestationOptions" /\ q_other q = Some c /\ uid = q_uid q /\ ch = q_challenge q /\ now = q_now q /\ b = [Vacuum (q_now q)] /\
      k = (fun o => match o with PRefused => AError | _ => AOptions end)
  | Check a token now =>
      q_get q = lit "Check" /\ q_assert q = Some a /\ token = q_other q /\ now = q_now q /\ b = [Vacuum (q_now q)] /\ k = set_auth_token e url
  | AddKey c host cdata att allow =>
      q_get q = lit "AddKey" /\ allow = false /\ host = q_host q /\ q_other q = Some c /\ q_attest q = Some (cdata, att) /\
      subject_allowed (e_acl (h_env e)) (email_of c) = true /\ b = [Vacuum (q_now q)] /\ k = set_auth_token e url
  | DeleteKey _ _ _ => False
  end.
Lemma callback_inv e q ns b l k :
  snd (handle_callback e q ns) = Run b l k ->
  own_script q /\ fst (take_nonce (q_now q) (q_nonce q) ns) = None /\ exists url, login_of_this_browser e q url /\ cb_case e q url b l k.
Proof.
  unfold handle_callback. destruct (take_nonce _ _ _) as [[d|] ns1]; [discriminate|]. cbn [snd fst]. destruct (str_eqb (q_get q) (lit "JS")); [discriminate|].
  destruct (q_redirect q) as [t|] eqn:Et; [|discriminate]. destruct (TokenModel.accept_url _ _ _ _) as [url|] eqn:Eu; [|discriminate].
  destruct (match q_other q with None => _ | Some _ => _ end); [discriminate|]. intro H.
  assert (L : login_of_this_browser e q url) by (exists t; auto).
  unfold callback_mode in H. destruct (mem _ _); [discriminate|].
  destruct (str_eqb (q_get q) (lit "AssertionOptions")) eqn:E1.
  { destruct (post q) eqn:Ep; [|discriminate]. apply str_eqb_spec in E1. apply post_spec in Ep. injection H as <- <- <-.
    split; [exact Ep|]. split; [reflexivity|]. exists url. split; [exact L|]. cbn. auto. }
  destruct (str_eqb (q_get q) (lit "AttestationOptions")) eqn:E2.
  { destruct (post q) eqn:Ep; [|discriminate]. apply str_eqb_spec in E2. apply post_spec in Ep. cbn [negb] in H. destruct (q_other q) as [c|] eqn:Eo; [|discriminate].
    injection H as <- <- <-. split; [exact Ep|]. split; [reflexivity|]. exists url. split; [exact L|]. cbn. auto 10. }
  destruct (str_eqb (q_get q) (lit "Check")) eqn:E3.
  { destruct (post q) eqn:Ep; [|discriminate]. apply str_eqb_spec in E3. apply post_spec in Ep. cbn [negb] in H.
    split; [exact Ep|]. split; [reflexivity|]. exists url. split; [exact L|]. destruct (q_assert q) as [a|] eqn:Ea; injection H as <- <- <-; cbn; auto 10. }
  destruct (str_eqb (q_get q) (lit "AddKey")) eqn:E4.
  { destruct (post q) eqn:Ep; [|discriminate]. apply str_eqb_spec in E4. apply post_spec in Ep. cbn [negb] in H. destruct (q_other q) as [c|] eqn:Eo; [|discriminate].
    fold (email_of c) in H. destruct (subject_allowed _ _) eqn:Es; [|discriminate]. cbn [negb] in H.
    split; [exact Ep|]. split; [reflexivity|]. exists url. split; [exact L|]. destruct (q_attest q) as [[cd at_]|] eqn:Ea; injection H as <- <- <-; cbn; auto 10. }
  destruct (str_eqb (q_get q) (lit "Switch")); [destruct (negb (post q))|]; discriminate.
Qed.

(** What the management endpoint may do. *)
Definition mk_case (q : preq) (s : session) (key : str) (b : list pop) (l : pop) (k : pout -> answer) : Prop :=
  match l with
  | Vacuum now => now = q_now q /\ b = [] /\ k = (fun _ => AError)
  | AttOptions c uid ch now => q_get q = lit "AttestationOptions" /\ c = ms_claims s /\ uid = q_uid q /\ ch = q_challenge q /\ now = q_now q /\ b = [Vacuum (q_now q)] /\
      k = (fun o => match o with PRefused => AError | _ => AOptions end)
  | AddKey c host cdata att allow =>
      q_get q = lit "AddKey" /\ allow = true /\ host = q_host q /\ c = ms_claims s /\ q_attest q = Some (cdata, att) /\ b = [Vacuum (q_now q)] /\
      k = (fun o => match o with PAdded _ _ => AOk | _ => AError end)
  | DeleteKey c sk id => q_get q = lit "DeleteKey" /\ c = ms_claims s /\ sk = key /\ q_id q = Some id /\ b = [] /\ k = (fun o => match o with PRefused => ABad | _ => AOk end)
  | _ => False
  end.
Lemma manage_inv e q ns b l k :
  snd (manage_keys e q ns) = Run b l k ->
  own_script q /\ ep_host (h_endpoint e) (q_host q) = q_host q /\
  exists s key t, q_session q = Some s /\ ms_key s = Some key /\ ms_hhash s = Some (e_hash (h_env e) (q_host q)) /\
    u_iat (ms_claims s) = Some t /\ q_now q - t <= 600 /\ mk_case q s key b l k.
Proof.
  unfold manage_keys, request_login. destruct (str_eqb (ep_host _ _) (q_host q)) eqn:Eh; [|discriminate]. apply str_eqb_spec in Eh. cbn [negb].
  unfold fresh_session. destruct (q_session q) as [s|] eqn:Es; [|discriminate].
  destruct (opt_eqb str_eqb (ms_hhash s) _) eqn:Ehh; [|discriminate]. apply opt_eqb_str in Ehh. cbn [negb].
  destruct (u_iat (ms_claims s)) as [t|] eqn:Et; [|discriminate]. destruct (600 <? q_now q - t) eqn:Eq; [discriminate|]. apply Z.ltb_ge in Eq.
  destruct (ms_key s) as [key|] eqn:Ek; [|discriminate]. cbn [snd]. unfold manage_mode. cbv zeta. intro H.
  assert (G : own_script q /\ mk_case q s key b l k).
  { destruct (str_eqb (q_get q) (lit "AttestationOptions")) eqn:E1.
    { destruct (post q) eqn:Ep; [|discriminate]. apply str_eqb_spec in E1. apply post_spec in Ep. injection H as <- <- <-. split; [exact Ep|]. cbn. auto 10. }
    destruct (str_eqb (q_get q) (lit "AddKey")) eqn:E2.
    { destruct (post q) eqn:Ep; [|discriminate]. apply str_eqb_spec in E2. apply post_spec in Ep. cbn [negb] in H. split; [exact Ep|].
      destruct (q_attest q) as [[cd at_]|] eqn:Ea; injection H as <- <- <-; cbn; auto 10. }
    destruct (str_eqb (q_get q) (lit "DeleteKey")) eqn:E3.
    { destruct (post q) eqn:Ep; [|discriminate]. apply str_eqb_spec in E3. apply post_spec in Ep. cbn [negb] in H. split; [exact Ep|].
      destruct (q_id q) as [id|] eqn:Ei; [|discriminate]. injection H as <- <- <-. cbn. auto 10. }
    destruct (str_eqb (q_get q) (lit "JS")); [discriminate|]. destruct (str_eqb (q_get q) []); discriminate. }
  destruct G as [G1 G2]. split; [exact G1|]. split; [exact Eh|]. exists s, key, t. auto 10.
Qed.

Lemma ep_host_spec e host : ep_host (h_endpoint e) host = host -> at_endpoint e host.
Proof.
  unfold ep_host, at_endpoint. fold (endpoint_name e). destruct (HeadersModel.port_of host) as [|c p]; intro H; [left; auto|right; exists (c :: p); auto].
Qed.

(** How keys change in a request. *)
Lemma hkeys_step e ops o m :
  distinct_handles e (ops ++ [o]) ->
  hkeys e (ops ++ [o]) m =
  match snd (hplan e (hs_nonces (hrun e ops)) o) with
  | Done _ => hkeys e ops m
  | Run b l _ => keys_change (h_env e) m (hkeys e ops m) l (panswer (h_env e) (htrace e ops ++ b) l)
  end.
Proof.
  unfold distinct_handles, hkeys. rewrite !hrun_keys, htrace_snoc. intro N.
  pose proof (hplan_shape e (hs_nonces (hrun e ops)) o) as Sh. destruct (snd (hplan e (hs_nonces (hrun e ops)) o)) as [a|b l k]; cbn [plan_ops] in *.
  - rewrite app_nil_r. reflexivity.
  - rewrite app_assoc in *. rewrite uids_app in N. apply NoDup_app_l in N. rewrite keys_history by exact N. f_equal.
    destruct Sh as [->|(v & ->)]; [rewrite app_nil_r; reflexivity|].
    rewrite uids_app in N. apply NoDup_app_l in N. rewrite keys_history by exact N. reflexivity.
Qed.

Lemma panswer_added e ops c host cdata att allow c' k :
  panswer e ops (AddKey c host cdata att allow) = PAdded c' k ->
  c' = c /\ (allow = true \/ forall m, u_email c = Some m -> keys_of (pafter e ops) m = []).
Proof.
  unfold panswer. cbn [pstep]. destruct (negb allow && negb _); [discriminate|].
  destruct (attestation_spec e c host cdata att allow (pafter e ops)) as [[E _]|(k1 & E & A)]; [congruence|]. intro H. split; [congruence|].
  destruct A as (m & cd & uid & created & raw & ad & aaguid & Em & _ & _ & _ & _ & _ & _ & _ & _ & _ & _ & _ & _ & A).
  destruct A as [(h & u & A1 & A2 & [A3|A3] & _)|(A & _)].
  - left. exact A3.
  - right. intros m' Em'. assert (m' = m) by congruence. subst. unfold keys_of. rewrite A1, A2. exact A3.
  - right. intros m' Em'. assert (m' = m) by congruence. subst. unfold keys_of. destruct A as [A|(h & A1 & A2)]; [rewrite A|rewrite A1, A2]; reflexivity.
Qed.

(** ** Nonces *)

Lemma take_nonce_some now n ns d ns1 : take_nonce now n ns = (Some d, ns1) -> In (n, d) ns /\ now <= nd_created d + 300.
Proof.
  unfold take_nonce. intro H. injection H as H _. apply assoc_In in H. apply filter_In in H. destruct H as [H1 H2]. split; [exact H1|].
  apply negb_true_iff, Z.ltb_ge in H2. exact H2.
Qed.

Lemma In_assoc_set {A} k (v : A) l k' v' : In (k', v') (assoc_set k v l) -> (k' = k /\ v' = v) \/ (k' <> k /\ In (k', v') l).
Proof.
  unfold assoc_set, assoc_del. intros [E|H]; [left; split; congruence|]. right. apply filter_In in H. destruct H as [H1 H2]. cbn [fst] in H2.
  split; [|exact H1]. intros ->. rewrite str_eqb_refl in H2. discriminate.
Qed.

Lemma take_nonce_left now n ns k d : In (k, d) (snd (take_nonce now n ns)) -> In (k, d) ns /\ k <> n.
Proof.
  unfold take_nonce, assoc_del. cbn [snd]. intro H. apply filter_In in H. destruct H as [H1 H2]. apply filter_In in H1. split; [apply H1|].
  cbn [fst] in H2. intros ->. rewrite str_eqb_refl in H2. discriminate.
Qed.

Lemma hstep_nonces e st o : hs_nonces (fst (hstep e st o)) = fst (hplan e (hs_nonces st) o).
Proof. unfold hstep. destruct (hplan e (hs_nonces st) o) as [ns [a|b l k]]; [reflexivity|]. destruct (pstep _ _ l). reflexivity. Qed.

Lemma callback_nonces e q ns : fst (handle_callback e q ns) = snd (take_nonce (q_now q) (q_nonce q) ns).
Proof. unfold handle_callback. destruct (take_nonce _ _ _) as [[d|] ns1]; reflexivity. Qed.

Lemma nonce_origin e ops n d :
  In (n, d) (hs_nonces (hrun e ops)) ->
  exists before o between host, ops = before ++ o :: between /\ draws e o n (nd_created d) (nd_url d) (nd_hint d) /\
    hanswer e before o = AToLogin host n /\ (forall q, In (HCallback q) between -> q_nonce q <> n).
Proof.
  induction ops as [|o ops IH] using rev_ind; [intros []|]. rewrite hrun_snoc, hstep_nonces.
  assert (K : In (n, d) (hs_nonces (hrun e ops)) -> (forall q, o = HCallback q -> q_nonce q <> n) ->
    exists before o' between host, ops ++ [o] = before ++ o' :: between /\ draws e o' n (nd_created d) (nd_url d) (nd_hint d) /\
    hanswer e before o' = AToLogin host n /\ (forall q, In (HCallback q) between -> q_nonce q <> n)).
  { intros H D. destruct (IH H) as (before & o' & between & host & -> & H1 & H2 & H3). exists before, o', (between ++ [o]), host.
    rewrite <- app_assoc. cbn [app]. repeat split; auto. intros q Hq. apply in_app_iff in Hq. destruct Hq as [Hq|[Hq|[]]]; [auto|]. exact (D _ Hq). }
  destruct o as [n' now url hint host|q|q]; cbn [hplan].
  - cbn [request_login fst]. intro H. apply In_assoc_set in H. destruct H as [[-> ->]|[_ H]].
    + exists ops, (HLogin n' now url hint host), [], (ep_host (h_endpoint e) host). cbn. repeat split; auto. left. eauto.
    + apply K; [exact H|discriminate].
  - rewrite callback_nonces. intro H. apply take_nonce_left in H. destruct H as [H1 H2]. apply K; [exact H1|]. intros q' E. injection E as <-. auto.
  - unfold manage_keys. destruct (negb _) eqn:En; [intro H; apply K; [exact H|discriminate]|].
    destruct (fresh_session e q) as [s|] eqn:Ef.
    { destruct (ms_key s); intro H; (apply K; [exact H|discriminate]). }
    cbn [request_login fst]. intro H. apply In_assoc_set in H. destruct H as [[-> ->]|[_ H]]; [|apply K; [exact H|discriminate]].
    exists ops, (HManage q), [], (ep_host (h_endpoint e) (q_host q)). repeat split; auto.
    + right. exists q. cbn. auto.
    + unfold hanswer, hstep. cbn [hplan]. unfold manage_keys. rewrite En, Ef. reflexivity.
Qed.

(** ** Answers *)

Lemma hanswer_plan e ops o :
  hanswer e ops o =
  match snd (hplan e (hs_nonces (hrun e ops)) o) with
  | Done a => a
  | Run b l k => k (panswer (h_env e) (htrace e ops ++ b) l)
  end.
Proof.
  unfold hanswer, hstep. destruct (hplan e (hs_nonces (hrun e ops)) o) as [ns [a|b l k]]; [reflexivity|]. cbn [snd].
  unfold panswer, pafter. rewrite prun_app. cbn [fst]. rewrite hrun_keys. unfold pafter. destruct (pstep _ _ l). reflexivity.
Qed.

Definition plain (a : answer) : Prop := match a with AToken _ _ _ | ASession _ _ _ _ => False | _ => True end.
Lemma callback_done e q ns a :
  snd (handle_callback e q ns) = Done a ->
  plain a \/ exists d, fst (take_nonce (q_now q) (q_nonce q) ns) = Some d /\ a = AToken (nd_url d) (q_sid q) (nd_hint d).
Proof.
  unfold handle_callback. destruct (take_nonce _ _ _) as [[d|] ns1]; cbn [snd fst].
  - intro H. injection H as <-. right. exists d. auto.
  - intro H. left. destruct (str_eqb (q_get q) (lit "JS")); [injection H as <-; exact I|].
    destruct (q_redirect q) as [t|] eqn:Et; [|injection H as <-; exact I]. destruct (TokenModel.accept_url _ _ _ _) as [url|] eqn:Eu; [|injection H as <-; exact I].
    destruct (match q_other q with None => _ | Some _ => _ end) as [a'|] eqn:Eo.
    + injection H as <-. destruct (q_other q); [discriminate|]. unfold no_other in Eo.
      destruct (str_eqb (q_get q) (lit "RegisterNewID")); [injection Eo as <-; exact I|].
      destruct (str_eqb (q_get q) (lit "RefreshID")); [injection Eo as <-; exact I|]. destruct (_ || _); [injection Eo as <-; exact I|discriminate].
    + clear Eo. unfold callback_mode in H.
      repeat (match type of H with (if ?x then _ else _) = _ => destruct x end; try (injection H as <-; exact I); try discriminate H);
      destruct (q_other q); try (injection H as <-; exact I); try discriminate H;
      try (destruct (q_assert q); discriminate H);
      repeat (match type of H with (if ?x then _ else _) = _ => destruct x end; try (injection H as <-; exact I); try discriminate H);
      destruct (q_attest q) as [[? ?]|]; discriminate H.
Qed.
Lemma manage_answer e q ops : plain (hanswer e ops (HManage q)).
Proof.
  rewrite hanswer_plan. cbn [hplan]. destruct (snd (manage_keys e q _)) as [a|b l k] eqn:E.
  - unfold manage_keys in E. destruct (negb _); [injection E as <-; exact I|]. destruct (fresh_session e q) as [s|].
    + destruct (ms_key s); [|injection E as <-; exact I]. cbn [snd] in E. unfold manage_mode in E. cbv zeta in E.
      repeat (match type of E with (if ?x then _ else _) = _ => destruct x end; try (injection E as <-; exact I); try discriminate E);
      try (destruct (q_attest q) as [[? ?]|]; discriminate E). destruct (q_id q); [discriminate E|injection E as <-; exact I].
    + cbn [request_login snd] in E. injection E as <-. exact I.
  - apply manage_inv in E. destruct E as (_ & _ & s & key & t & _ & _ & _ & _ & _ & C). destruct l; cbn in C; try contradiction;
      repeat match goal with H : _ /\ _ |- _ => destruct H end; subst k; cbn; try exact I; destruct (panswer _ _ _); exact I.
Qed.
