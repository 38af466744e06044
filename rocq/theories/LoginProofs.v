(** Proofs about logins. *)
From Verif Require Import Base TokenModel LoginModel LoginSpec.
Open Scope Z_scope.

Lemma assoc_filter_Some {A} (p : A -> bool) k (l : list (str * A)) v :
  NoDup (map fst l) -> assoc k (filter (fun kv => p (snd kv)) l) = Some v -> assoc k l = Some v /\ p v = true.
Proof.
  induction l as [|[k' v'] l IH]; cbn; intros N H; [discriminate|].
  inversion N as [|? ? Nin N']; subst.
  destruct (p v') eqn:P; cbn in H.
  - destruct (str_eqb k k') eqn:E; [injection H as <-; auto|auto].
  - destruct (str_eqb k k') eqn:E; [|auto].
    apply str_eqb_spec in E as ->. destruct (IH N' H) as [H1 _].
    exfalso. apply Nin. apply assoc_In in H1. apply (in_map fst) in H1. exact H1.
Qed.
Lemma filter_keys {A} (p : str * A -> bool) (l : list (str * A)) k : In k (map fst (filter p l)) -> In k (map fst l).
Proof.
  rewrite !in_map_iff. intros (x & <- & H). apply filter_In in H as [H _]. exists x. auto.
Qed.
Lemma NoDup_filter_keys {A} (p : str * A -> bool) (l : list (str * A)) : NoDup (map fst l) -> NoDup (map fst (filter p l)).
Proof.
  induction l as [|a l IH]; cbn; intros N; [constructor|].
  inversion N; subst. destruct (p a); cbn; auto. constructor; auto.
  intros H. apply filter_keys in H. contradiction.
Qed.
Lemma NoDup_del {A} k (l : list (str * A)) : NoDup (map fst l) -> NoDup (map fst (assoc_del k l)).
Proof. apply NoDup_filter_keys. Qed.
Lemma NoDup_set {A} k (v : A) (l : list (str * A)) : NoDup (map fst l) -> NoDup (map fst (assoc_set k v l)).
Proof.
  intros N. unfold assoc_set. cbn. constructor; [|apply NoDup_del; exact N].
  apply assoc_None. apply assoc_del_eq.
Qed.
Lemma assoc_set_inv {A} k (v : A) l k' v' : assoc k' (assoc_set k v l) = Some v' -> (k' = k /\ v' = v) \/ (k' <> k /\ assoc k' l = Some v').
Proof.
  destruct (str_eq_dec k' k) as [->|N].
  - rewrite assoc_set_eq. intros [= <-]. auto.
  - rewrite assoc_set_neq by auto. auto.
Qed.
Lemma assoc_del_inv {A} k (l : list (str * A)) k' v' : assoc k' (assoc_del k l) = Some v' -> k' <> k /\ assoc k' l = Some v'.
Proof.
  destruct (str_eq_dec k' k) as [->|N].
  - rewrite assoc_del_eq. discriminate.
  - rewrite assoc_del_neq by auto. auto.
Qed.

(** ** The OpenID server *)
Definition after cfg ops := fst (run cfg empty_server ops).

Lemma run_app cfg sv a b :
  run cfg sv (a ++ b) = (fst (run cfg (fst (run cfg sv a)) b), snd (run cfg sv a) ++ snd (run cfg (fst (run cfg sv a)) b)).
Proof.
  revert sv. induction a as [|o a IH]; intros sv; cbn [run app fst snd].
  - destruct (run cfg sv b); reflexivity.
  - destruct (step cfg sv o) as [s1 out]. rewrite IH. destruct (run cfg s1 a) as [s2 tr]. reflexivity.
Qed.
Lemma after_snoc cfg ops o : after cfg (ops ++ [o]) = fst (step cfg (after cfg ops) o).
Proof.
  unfold after. rewrite run_app. cbn [run fst]. destruct (step cfg (fst (run cfg empty_server ops)) o). reflexivity.
Qed.
Lemma outputs_snoc cfg ops o : outputs cfg (ops ++ [o]) = outputs cfg ops ++ [(o, answer cfg ops o)].
Proof.
  unfold outputs, answer. rewrite run_app. cbn [run snd].
  destruct (step cfg (fst (run cfg empty_server ops)) o). reflexivity.
Qed.

Lemma step_nodup cfg sv o :
  NoDup (map fst (sv_codes sv)) /\ NoDup (map fst (sv_access sv)) ->
  NoDup (map fst (sv_codes (fst (step cfg sv o)))) /\ NoDup (map fst (sv_access (fst (step cfg sv o)))).
Proof.
  intros [N1 N2]. destruct o; cbn [step].
  - cbn. split; apply NoDup_filter_keys; assumption.
  - unfold authorize. destruct (ar_user ar); [|cbn; auto].
    destruct (negb (str_eqb _ _)); [cbn; auto|]. destruct (negb (existsb _ _)); [cbn; auto|]. destruct (negb (cf_parses _ _)); [cbn; auto|].
    destruct (create_token _ _ _ _); [|cbn; auto]. cbn [fst sv_codes sv_access]. split; apply NoDup_set; assumption.
  - unfold exchange. destruct (negb (tr_post tr)); [cbn; auto|]. destruct (negb (str_eqb (tr_grant tr) _)); [cbn; auto|]. destruct (negb (existsb _ _)); [cbn; auto|].
    cbv zeta.
    destruct (assoc (tr_code tr) (sv_codes sv)); [destruct (negb (str_eqb _ _))|]; cbn [fst sv_codes sv_access]; split; try assumption; apply NoDup_del; assumption.
  - unfold user_info. cbv zeta. destruct (assoc access (sv_access sv)); cbn [fst sv_codes sv_access]; split; try assumption; apply NoDup_del; assumption.
Qed.
Lemma after_nodup cfg ops : NoDup (map fst (sv_codes (after cfg ops))) /\ NoDup (map fst (sv_access (after cfg ops))).
Proof.
  induction ops as [|o ops IH] using rev_ind; [cbn; split; constructor|]. rewrite after_snoc. apply step_nodup. exact IH.
Qed.

(** What a successful authorization adds. *)
Lemma authorize_inv cfg keys now code access rw ar sv uri st c sc :
  snd (authorize cfg keys now code access rw ar sv) = SendTo uri st c sc ->
  uri = ar_redirect ar /\ st = ar_state ar /\ c = code /\ registered cfg (ar_client ar) (ar_redirect ar).
Proof.
  unfold authorize. destruct (ar_user ar); [|discriminate].
  destruct (negb (str_eqb _ _)); [discriminate|]. destruct (negb (existsb _ _)) eqn:E; [discriminate|]. destruct (negb (cf_parses _ _)); [discriminate|].
  destruct (create_token _ _ _ _); [|discriminate]. intros [= <- <- <- <-]. repeat split.
  apply negb_false_iff in E. apply existsb_exists in E as (x & I & B). apply andb_true_iff in B as [B1 B2].
  apply str_eqb_spec in B1. apply mem_spec in B2. exists x. auto.
Qed.

Definition id_claims cfg user now rw ar : claims :=
  apply_rewrites rw (oidc_claims (cf_issuer cfg) (ar_client ar) user now (ar_nonce ar) (ar_scopes ar)).

Lemma authorize_spec cfg keys now code access rw ar sv :
  (fst (authorize cfg keys now code access rw ar sv) = sv /\ snd (authorize cfg keys now code access rw ar sv) = Refused) \/
  exists user t, ar_user ar = Some user /\ create_token keys now RSA (id_claims cfg user now rw ar) = Some t /\
    authorize cfg keys now code access rw ar sv =
    ({| sv_codes := assoc_set code {| cd_created := now; cd_client := ar_client ar; cd_token := t; cd_scope := scope_of (ar_scopes ar); cd_access := access |} (sv_codes sv);
        sv_access := assoc_set access {| ad_created := now; ad_client := ar_client ar; ad_claims := id_claims cfg user now rw ar |} (sv_access sv) |},
     SendTo (ar_redirect ar) (ar_state ar) code (scope_of (ar_scopes ar))).
Proof.
  unfold authorize. destruct (ar_user ar) as [user|]; [|auto].
  destruct (negb (str_eqb _ _)); [auto|]. destruct (negb (existsb _ _)) eqn:E; [auto|]. destruct (negb (cf_parses _ _)); [auto|].
  fold (id_claims cfg user now rw ar).
  destruct (create_token _ _ _ _) as [t|] eqn:Ct; [|auto]. right. exists user, t. auto.
Qed.

(** Where a stored code comes from. *)
Definition code_origin cfg ops code (d : code_data) : Prop :=
  exists before between keys rw ar user,
    ops = before ++ Authorize keys (cd_created d) code (cd_access d) rw ar :: between /\
    ar_client ar = cd_client d /\ ar_user ar = Some user /\
    create_token keys (cd_created d) RSA (id_claims cfg user (cd_created d) rw ar) = Some (cd_token d) /\
    answer cfg before (Authorize keys (cd_created d) code (cd_access d) rw ar) = SendTo (ar_redirect ar) (ar_state ar) code (cd_scope d) /\
    (forall v, In (Vacuum v) between -> v <= cd_created d + 2 * minute).

Lemma code_origin_snoc cfg ops o code d :
  (forall v, o = Vacuum v -> v <= cd_created d + 2 * minute) -> code_origin cfg ops code d -> code_origin cfg (ops ++ [o]) code d.
Proof.
  intros V (before & between & keys & rw & ar & user & -> & H1 & H2 & H3 & H4 & H5).
  exists before, (between ++ [o]), keys, rw, ar, user. rewrite <- app_assoc. repeat split; auto.
  intros v Iv. apply in_app_iff in Iv as [Iv|[->|[]]]; auto.
Qed.

Lemma codes_origin cfg ops code d : assoc code (sv_codes (after cfg ops)) = Some d -> code_origin cfg ops code d.
Proof.
  revert code d. induction ops as [|o ops IH] using rev_ind; intros code d H; [discriminate|].
  rewrite after_snoc in H. pose proof (after_nodup cfg ops) as [N _].
  destruct o as [v|keys now c a rw ar|tr|a]; cbn [step] in H.
  - cbn [vacuum fst sv_codes] in H.
    apply (assoc_filter_Some (fun d => negb (cd_created d + 2 * minute <? v))) in H as [H P]; [|exact N].
    apply code_origin_snoc; [|auto]. intros v' [= <-]. apply negb_true_iff in P. apply Z.ltb_ge in P. exact P.
  - destruct (authorize_spec cfg keys now c a rw ar (after cfg ops)) as [[E1 _]|(user & t & U & Ct & E)].
    + rewrite E1 in H. apply code_origin_snoc; [discriminate|auto].
    + rewrite E in H. cbn [fst sv_codes] in H. apply assoc_set_inv in H as [[-> ->]|[Ne H]].
      * exists ops, [], keys, rw, ar, user. cbn [cd_created cd_client cd_token cd_scope cd_access]. repeat split; auto.
        -- unfold answer. cbn [step]. fold (after cfg ops). rewrite E. reflexivity.
        -- intros v [].
      * apply code_origin_snoc; [discriminate|auto].
  - apply code_origin_snoc; [discriminate|]. apply IH.
    unfold exchange in H. destruct (negb (tr_post tr)); [exact H|]. destruct (negb (str_eqb (tr_grant tr) _)); [exact H|]. destruct (negb (existsb _ _)); [exact H|].
    cbv zeta in H. destruct (assoc (tr_code tr) (sv_codes (after cfg ops))); [destruct (negb (str_eqb _ _))|]; cbn [fst sv_codes] in H; apply assoc_del_inv in H as [_ H]; exact H.
  - apply code_origin_snoc; [discriminate|]. apply IH. unfold user_info in H. cbv zeta in H. destruct (assoc a (sv_access (after cfg ops))); exact H.
Qed.

Lemma exchange_spec cfg tr sv t a s :
  snd (exchange cfg tr sv) = Tokens t a s ->
  registered_secret cfg (tr_client tr) (tr_secret tr) (tr_redirect tr) /\
  exists d, assoc (tr_code tr) (sv_codes sv) = Some d /\ cd_client d = tr_client tr /\ t = cd_token d /\ a = cd_access d /\ s = cd_scope d /\
            fst (exchange cfg tr sv) = {| sv_codes := assoc_del (tr_code tr) (sv_codes sv); sv_access := sv_access sv |}.
Proof.
  unfold exchange. destruct (negb (tr_post tr)); [discriminate|]. destruct (negb (str_eqb (tr_grant tr) _)); [discriminate|].
  destruct (negb (existsb _ _)) eqn:E; [discriminate|]. cbv zeta.
  destruct (assoc (tr_code tr) (sv_codes sv)) as [d|]; [|discriminate].
  destruct (negb (str_eqb _ _)) eqn:Ec; [discriminate|]. intros [= <- <- <-]. split.
  - apply negb_false_iff in E. apply existsb_exists in E as (c & I & B). apply andb_true_iff in B as [B B3]. apply andb_true_iff in B as [B1 B2].
    apply str_eqb_spec in B1, B2. apply mem_spec in B3. exists c. auto.
  - apply negb_false_iff in Ec. apply str_eqb_spec in Ec. exists d. repeat split; auto.
Qed.

Lemma exchange_origin cfg before tr t a s :
  answer cfg before (Exchange tr) = Tokens t a s ->
  registered_secret cfg (tr_client tr) (tr_secret tr) (tr_redirect tr) /\
  exists pre between keys now rw ar user,
    before = pre ++ Authorize keys now (tr_code tr) a rw ar :: between /\
    answer cfg pre (Authorize keys now (tr_code tr) a rw ar) = SendTo (ar_redirect ar) (ar_state ar) (tr_code tr) s /\
    ar_client ar = tr_client tr /\ ar_user ar = Some user /\
    create_token keys now RSA (apply_rewrites rw (oidc_claims (cf_issuer cfg) (ar_client ar) user now (ar_nonce ar) (ar_scopes ar))) = Some t /\
    (forall v, In (Vacuum v) between -> v <= now + 2 * minute).
Proof.
  unfold answer at 1. cbn [step]. intros H. apply exchange_spec in H as (R & d & A & Cl & -> & -> & -> & _). split; [exact R|].
  apply codes_origin in A as (pre & between & keys & rw & ar & user & E & H1 & H2 & H3 & H4 & H5).
  exists pre, between, keys, (cd_created d), rw, ar, user. repeat split; auto. congruence.
Qed.

(** Clocks. *)
Lemma clock_later t a o b u : clock_from t (a ++ o :: b) -> op_time o = Some u -> t <= u.
Proof.
  revert t. induction a as [|x a IH]; intros t H E; cbn in H.
  - rewrite E in H. tauto.
  - destruct (op_time x); [destruct H as [H1 H2]; specialize (IH _ H2 E); lia|exact (IH _ H E)].
Qed.
Lemma clock_drop t a b : clock_from t (a ++ b) -> exists t', t <= t' /\ clock_from t' b.
Proof.
  revert t. induction a as [|x a IH]; intros t H; cbn in H; [exists t; split; [lia|auto]|].
  destruct (op_time x) as [u|]; [destruct H as [H1 H2]; destruct (IH _ H2) as (t' & L & C); exists t'; split; [lia|exact C]|exact (IH _ H)].
Qed.
Lemma clock_order t a o b p c u v : clock_from t (a ++ o :: b ++ p :: c) -> op_time o = Some u -> op_time p = Some v -> u <= v.
Proof.
  intros H E1 E2. destruct (clock_drop _ _ _ H) as (t' & _ & C). cbn in C. rewrite E1 in C. destruct C as [_ C].
  exact (clock_later _ _ _ _ _ C E2).
Qed.

(** The reading of the request's own vacuum bounds the age of the code. *)
Lemma split_mid {A} (a b c d : list A) (x y : A) :
  a ++ x :: b = c ++ y :: d -> (a = c /\ x = y /\ b = d) \/ (exists m, a = c ++ y :: m /\ d = m ++ x :: b) \/ (exists m, c = a ++ x :: m /\ b = m ++ y :: d).
Proof.
  revert c. induction a as [|z a IH]; intros [|w c] H; cbn in *.
  - injection H as -> ->. auto.
  - injection H as -> ->. right; right. exists c. auto.
  - injection H as -> <-. right; left. exists a. auto.
  - injection H as -> H. destruct (IH _ H) as [(-> & -> & ->)|[(m & -> & ->)|(m & -> & ->)]]; [auto|right; left; exists m; auto|right; right; exists m; auto].
Qed.

Lemma exchange_in_time cfg tr t a s before v inside t0 :
  clock_from t0 (before ++ Vacuum v :: inside) ->
  answer cfg (before ++ Vacuum v :: inside) (Exchange tr) = Tokens t a s ->
  exists pre between keys now rw ar,
    before ++ Vacuum v :: inside = pre ++ Authorize keys now (tr_code tr) a rw ar :: between /\
    ar_client ar = tr_client tr /\ v <= now + 2 * minute.
Proof.
  intros C H. apply exchange_origin in H as (_ & pre & between & keys & now & rw & ar & user & E & _ & Cl & _ & _ & V).
  exists pre, between, keys, now, rw, ar. repeat split; auto.
  destruct (split_mid _ _ _ _ _ _ E) as [(_ & B & _)|[(m & -> & ->)|(m & -> & ->)]]; [discriminate| |].
  - apply V. apply in_app_iff. right. left. reflexivity.
  - assert (v <= now) by (exact (clock_order _ _ _ _ _ _ _ _ C eq_refl eq_refl)). unfold minute. lia.
Qed.

(** Counting. *)
Definition held {A} k (l : list (str * A)) : nat := match assoc k l with Some _ => 1 | None => 0 end.
Lemma held_filter {A} (p : A -> bool) k (l : list (str * A)) : NoDup (map fst l) -> (held k (filter (fun kv => p (snd kv)) l) <= held k l)%nat.
Proof.
  intros N. unfold held. destruct (assoc k (filter _ l)) eqn:E; [|lia].
  apply assoc_filter_Some in E as [-> _]; [lia|exact N].
Qed.
Lemma held_del {A} k k' (l : list (str * A)) : held k (assoc_del k' l) = if str_eqb k' k then 0%nat else held k l.
Proof.
  unfold held. destruct (str_eqb k' k) eqn:E.
  - apply str_eqb_spec in E as ->. rewrite assoc_del_eq. reflexivity.
  - rewrite assoc_del_neq; [reflexivity|]. intros ->. rewrite str_eqb_refl in E. discriminate.
Qed.
Lemma held_set {A} k k' (v : A) (l : list (str * A)) : held k (assoc_set k' v l) = if str_eqb k' k then 1%nat else held k l.
Proof.
  unfold held. destruct (str_eqb k' k) eqn:E.
  - apply str_eqb_spec in E as ->. rewrite assoc_set_eq. reflexivity.
  - rewrite assoc_set_neq; [reflexivity|]. intros ->. rewrite str_eqb_refl in E. discriminate.
Qed.

Lemma filter_snoc_len {A} (p : A -> bool) l x : List.length (filter p (l ++ [x])) = (List.length (filter p l) + (if p x then 1 else 0))%nat.
Proof. rewrite filter_app, app_length. cbn. destruct (p x); reflexivity. Qed.

Lemma exchanges_bound cfg ops code :
  (exchanges code (outputs cfg ops) + held code (sv_codes (after cfg ops)) <= draws code ops)%nat.
Proof.
  induction ops as [|o ops IH] using rev_ind; [cbn; lia|].
  rewrite outputs_snoc, after_snoc. unfold exchanges, draws in *. rewrite !filter_snoc_len.
  pose proof (after_nodup cfg ops) as [N _].
  destruct o as [v|keys now c a rw ar|tr|a]; unfold answer; fold (after cfg ops); cbn [step].
  - cbn [vacuum fst snd sv_codes].
    pose proof (held_filter (fun d => negb (cd_created d + 2 * minute <? v)) code _ N). lia.
  - destruct (authorize_spec cfg keys now c a rw ar (after cfg ops)) as [[E1 _]|(user & t & U & Ct & E)].
    + rewrite E1. destruct (str_eqb c code); lia.
    + rewrite E. cbn [fst snd sv_codes]. rewrite held_set. destruct (str_eqb c code); lia.
  - destruct (snd (exchange cfg tr (after cfg ops))) eqn:E.
    4: { apply exchange_spec in E as (_ & d & A & _ & _ & _ & _ & ->). cbn [sv_codes]. rewrite held_del.
         destruct (str_eqb (tr_code tr) code) eqn:Ec; [|lia].
         apply str_eqb_spec in Ec as <-. unfold held in IH. rewrite A in IH. lia. }
    all: assert (L : (held code (sv_codes (fst (exchange cfg tr (after cfg ops)))) <= held code (sv_codes (after cfg ops)))%nat);
      [unfold exchange; destruct (negb (tr_post tr)); [cbn; lia|]; destruct (negb (str_eqb (tr_grant tr) _)); [cbn; lia|]; destruct (negb (existsb _ _)); [cbn; lia|];
       cbv zeta; destruct (assoc (tr_code tr) (sv_codes (after cfg ops))); [destruct (negb (str_eqb _ _))|]; cbn [fst sv_codes]; rewrite held_del; destruct (str_eqb (tr_code tr) code); lia
      |lia].
  - unfold user_info. cbv zeta. destruct (assoc a (sv_access (after cfg ops))); cbn [fst snd sv_codes]; lia.
Qed.

Lemma infos_bound cfg ops access :
  (infos access (outputs cfg ops) + held access (sv_access (after cfg ops)) <= access_draws access ops)%nat.
Proof.
  induction ops as [|o ops IH] using rev_ind; [cbn; lia|].
  rewrite outputs_snoc, after_snoc. unfold infos, access_draws in *. rewrite !filter_snoc_len.
  pose proof (after_nodup cfg ops) as [_ N].
  destruct o as [v|keys now c a rw ar|tr|a]; unfold answer; fold (after cfg ops); cbn [step].
  - cbn [vacuum fst snd sv_access].
    pose proof (held_filter (fun d => negb (ad_created d + 2 * minute <? v)) access _ N). lia.
  - destruct (authorize_spec cfg keys now c a rw ar (after cfg ops)) as [[E1 _]|(user & t & U & Ct & E)].
    + rewrite E1. destruct (str_eqb a access); lia.
    + rewrite E. cbn [fst snd sv_access]. rewrite held_set. destruct (str_eqb a access); lia.
  - assert (L : sv_access (fst (exchange cfg tr (after cfg ops))) = sv_access (after cfg ops)).
    { unfold exchange. destruct (negb (tr_post tr)); [reflexivity|]. destruct (negb (str_eqb (tr_grant tr) _)); [reflexivity|]. destruct (negb (existsb _ _)); [reflexivity|].
      cbv zeta. destruct (assoc (tr_code tr) (sv_codes (after cfg ops))); [destruct (negb (str_eqb _ _))|]; reflexivity. }
    rewrite L. lia.
  - unfold user_info. cbv zeta. destruct (assoc a (sv_access (after cfg ops))) eqn:A; cbn [fst snd sv_access]; rewrite held_del.
    + destruct (str_eqb a access) eqn:E; [|lia]. apply str_eqb_spec in E as <-. unfold held in IH. rewrite A in IH. lia.
    + destruct (str_eqb a access); lia.
Qed.

(** Access tokens. *)
Definition access_origin cfg ops access (d : access_data) : Prop :=
  exists before between keys code rw ar user,
    ops = before ++ Authorize keys (ad_created d) code access rw ar :: between /\
    ar_user ar = Some user /\ ad_claims d = id_claims cfg user (ad_created d) rw ar /\
    (exists sc, answer cfg before (Authorize keys (ad_created d) code access rw ar) = SendTo (ar_redirect ar) (ar_state ar) code sc) /\
    (forall v, In (Vacuum v) between -> v <= ad_created d + 2 * minute).
Lemma access_origin_snoc cfg ops o a d :
  (forall v, o = Vacuum v -> v <= ad_created d + 2 * minute) -> access_origin cfg ops a d -> access_origin cfg (ops ++ [o]) a d.
Proof.
  intros V (before & between & keys & code & rw & ar & user & -> & H2 & H3 & H4 & H5).
  exists before, (between ++ [o]), keys, code, rw, ar, user. rewrite <- app_assoc. repeat split; auto.
  intros v Iv. apply in_app_iff in Iv as [Iv|[->|[]]]; auto.
Qed.
Lemma accesses_origin cfg ops a d : assoc a (sv_access (after cfg ops)) = Some d -> access_origin cfg ops a d.
Proof.
  revert a d. induction ops as [|o ops IH] using rev_ind; intros a d H; [discriminate|].
  rewrite after_snoc in H. pose proof (after_nodup cfg ops) as [_ N].
  destruct o as [v|keys now c a' rw ar|tr|a']; cbn [step] in H.
  - cbn [vacuum fst sv_access] in H.
    apply (assoc_filter_Some (fun d => negb (ad_created d + 2 * minute <? v))) in H as [H P]; [|exact N].
    apply access_origin_snoc; [|auto]. intros v' [= <-]. apply negb_true_iff in P. apply Z.ltb_ge in P. exact P.
  - destruct (authorize_spec cfg keys now c a' rw ar (after cfg ops)) as [[E1 _]|(user & t & U & Ct & E)].
    + rewrite E1 in H. apply access_origin_snoc; [discriminate|auto].
    + rewrite E in H. cbn [fst sv_access] in H. apply assoc_set_inv in H as [[-> ->]|[Ne H]].
      * exists ops, [], keys, c, rw, ar, user. cbn [ad_created ad_client ad_claims]. repeat split; auto.
        -- unfold answer. cbn [step]. fold (after cfg ops). rewrite E. eexists. reflexivity.
        -- intros v [].
      * apply access_origin_snoc; [discriminate|auto].
  - apply access_origin_snoc; [discriminate|]. apply IH.
    unfold exchange in H. destruct (negb (tr_post tr)); [exact H|]. destruct (negb (str_eqb (tr_grant tr) _)); [exact H|]. destruct (negb (existsb _ _)); [exact H|].
    cbv zeta in H. destruct (assoc (tr_code tr) (sv_codes (after cfg ops))); [destruct (negb (str_eqb _ _))|]; exact H.
  - apply access_origin_snoc; [discriminate|]. apply IH. unfold user_info in H. cbv zeta in H.
    destruct (assoc a' (sv_access (after cfg ops))); cbn [fst sv_access] in H; apply assoc_del_inv in H as [_ H]; exact H.
Qed.
Lemma info_origin cfg before access c :
  answer cfg before (UserInfo access) = Info c ->
  exists pre between keys now code rw ar user,
    before = pre ++ Authorize keys now code access rw ar :: between /\ ar_user ar = Some user /\
    (exists sc, answer cfg pre (Authorize keys now code access rw ar) = SendTo (ar_redirect ar) (ar_state ar) code sc) /\
    (forall v, In (Vacuum v) between -> v <= now + 2 * minute) /\
    c = filter (fun kv => negb (mem (fst kv) hidden_claims))
          (apply_rewrites rw (oidc_claims (cf_issuer cfg) (ar_client ar) user now (ar_nonce ar) (ar_scopes ar))).
Proof.
  unfold answer at 1. cbn [step]. unfold user_info. cbv zeta.
  destruct (assoc access (sv_access (fst (run cfg empty_server before)))) as [d|] eqn:A; [|discriminate]. cbn [snd]. intros [= <-].
  apply accesses_origin in A as (pre & between & keys & code & rw & ar & user & E & H2 & H3 & H4 & H5).
  exists pre, between, keys, (ad_created d), code, rw, ar, user. repeat split; auto. rewrite H3. reflexivity.
Qed.
