(** Proofs about the passkey manager. *)
From Verif Require Import Base PasskeyModel PasskeySpec LoginProofs PasskeyProofs.
Open Scope Z_scope.

Lemma opt_eqb_str x y : opt_eqb str_eqb x y = true <-> x = y.
Proof.
  destruct x, y; cbn; split; intros H; try discriminate; try reflexivity.
  - apply str_eqb_spec in H as ->. reflexivity.
  - injection H as ->. apply str_eqb_refl.
Qed.
Lemma opt_eqb_Z x y : opt_eqb Z.eqb x y = true <-> x = y.
Proof.
  destruct x, y; cbn; split; intros H; try discriminate; try reflexivity.
  - apply Z.eqb_eq in H as ->. reflexivity.
  - injection H as ->. apply Z.eqb_refl.
Qed.
Lemma claims_eqb_spec a b : claims_eqb a b = true <-> a = b.
Proof.
  unfold claims_eqb. rewrite !andb_true_iff, opt_eqb_str, opt_eqb_Z, !str_eqb_spec, Nat.eqb_eq.
  destruct a, b; cbn. split; [intros ((((-> & ->) & ->) & ->) & ->); reflexivity|intros [= -> -> -> -> ->]; auto].
Qed.

(** Histories. *)
Lemma prun_app e sv a b :
  prun e sv (a ++ b) = (fst (prun e (fst (prun e sv a)) b), snd (prun e sv a) ++ snd (prun e (fst (prun e sv a)) b)).
Proof.
  revert sv. induction a as [|o a IH]; intros sv; cbn [prun app fst snd].
  - destruct (prun e sv b); reflexivity.
  - destruct (pstep e sv o) as [s1 out]. rewrite IH. destruct (prun e s1 a) as [s2 tr]. reflexivity.
Qed.
Lemma pafter_snoc e ops o : pafter e (ops ++ [o]) = fst (pstep e (pafter e ops) o).
Proof. unfold pafter. rewrite prun_app. cbn [prun fst]. destruct (pstep e (fst (prun e empty_pstate ops)) o). reflexivity. Qed.
Lemma poutputs_snoc e ops o : poutputs e (ops ++ [o]) = poutputs e ops ++ [(o, panswer e ops o)].
Proof. unfold poutputs, panswer, pafter. rewrite prun_app. cbn [prun snd]. destruct (pstep e (fst (prun e empty_pstate ops)) o). reflexivity. Qed.
Lemma uids_app a b : uids (a ++ b) = uids a ++ uids b.
Proof. apply flat_map_app. Qed.

(** Challenges unchanged or one taken out; users unchanged. *)
Definition drops (st st' : pstate) : Prop :=
  p_subjects st' = p_subjects st /\ p_handles st' = p_handles st /\
  (p_challenges st' = p_challenges st \/ exists k, p_challenges st' = assoc_del k (p_challenges st)).
Lemma drops_refl st : drops st st.
Proof. repeat split; auto. Qed.

(** What a successful registration checked, and did. *)
Definition attested e c host cdata att (allow : bool) st st' (k : ukey) : Prop :=
  exists m cd uid created raw ad aaguid,
    u_email c = Some m /\ e_client_data e cdata = Some cd /\ cd_type cd = lit "webauthn.create" /\ cd_origin cd = lit "https://" ++ host /\
    assoc (cd_challenge cd) (p_challenges st) = Some {| ch_created := created; ch_for := Some (c, uid) |} /\
    e_attestation e att = Some raw /\ parse_auth_data (e_cbor e) raw = Ok ad /\
    ad_rp ad = e_hash e (e_hostname e host) /\ ad_up ad = true /\ ad_uv ad = true /\ ad_creds ad = Some (aaguid, k_id k, k_pub k) /\ k_rp k = ad_rp ad /\
    p_challenges st' = assoc_del (cd_challenge cd) (p_challenges st) /\
    ((exists h u, assoc m (p_subjects st) = Some h /\ assoc h (p_handles st) = Some u /\ (allow = true \/ us_keys u = []) /\
        p_subjects st' = p_subjects st /\ p_handles st' = assoc_set h {| us_claims := us_claims u; us_keys := us_keys u ++ [k] |} (p_handles st)) \/
     ((assoc m (p_subjects st) = None \/ exists h, assoc m (p_subjects st) = Some h /\ assoc h (p_handles st) = None) /\
        p_subjects st' = assoc_set m uid (p_subjects st) /\ p_handles st' = assoc_set uid {| us_claims := c; us_keys := [k] |} (p_handles st))).

Lemma attestation_spec e c host cdata att allow st :
  (snd (process_attestation e c host cdata att allow st) = PRefused /\ drops st (fst (process_attestation e c host cdata att allow st))) \/
  (exists k, snd (process_attestation e c host cdata att allow st) = PAdded c k /\ attested e c host cdata att allow st (fst (process_attestation e c host cdata att allow st)) k).
Proof.
  unfold process_attestation.
  destruct (u_email c) as [m|] eqn:Em; [|left; split; [reflexivity|apply drops_refl]].
  destruct (e_client_data e cdata) as [cd|] eqn:Ecd; [|left; split; [reflexivity|apply drops_refl]].
  destruct (str_eqb (cd_type cd) _) eqn:Et; cbn [negb]; [|left; split; [reflexivity|apply drops_refl]].
  destruct (str_eqb (cd_origin cd) _) eqn:Eo; cbn [negb]; [|left; split; [reflexivity|apply drops_refl]].
  apply str_eqb_spec in Et, Eo. cbv zeta.
  set (st1 := {| p_challenges := assoc_del (cd_challenge cd) (p_challenges st); p_subjects := p_subjects st; p_handles := p_handles st |}).
  assert (D : drops st st1) by (repeat split; auto; right; eexists; reflexivity).
  destruct (assoc (cd_challenge cd) (p_challenges st)) as [[created [[c' uid]|]]|] eqn:Ech; [|left; auto|left; auto].
  destruct (claims_eqb c' c) eqn:Ec; cbn [negb]; [|left; auto]. apply claims_eqb_spec in Ec as ->.
  destruct (e_attestation e att) as [raw|] eqn:Ea; [|left; auto].
  destruct (parse_auth_data (e_cbor e) raw) as [ad| | |] eqn:Ep; [|left; auto|left; auto|left; auto].
  destruct (str_eqb (ad_rp ad) _) eqn:Er; cbn [negb]; [|left; auto]. apply str_eqb_spec in Er.
  destruct (ad_up ad) eqn:Eu; cbn [negb]; [|left; auto]. destruct (ad_uv ad) eqn:Ev; cbn [negb]; [|left; auto].
  destruct (ad_creds ad) as [[[aaguid id] pub]|] eqn:Ecr; [|left; auto].
  destruct (assoc m (p_subjects st)) as [h|] eqn:Es.
  - destruct (assoc h (p_handles st)) as [u|] eqn:Eh.
    + destruct (negb allow && negb (match us_keys u with [] => true | _ => false end)) eqn:Ek; [left; auto|].
      right. exists {| k_id := id; k_pub := pub; k_rp := ad_rp ad |}. split; [reflexivity|].
      exists m, cd, uid, created, raw, ad, aaguid. cbn [k_id k_pub k_rp fst]. repeat split; auto. left.
      exists h, u. repeat split; auto. destruct allow; [auto|]. right. cbn in Ek. destruct (us_keys u); [reflexivity|discriminate].
    + right. exists {| k_id := id; k_pub := pub; k_rp := ad_rp ad |}. split; [reflexivity|].
      exists m, cd, uid, created, raw, ad, aaguid. cbn [k_id k_pub k_rp fst]. repeat split; auto. right. split; [eauto|auto].
  - right. exists {| k_id := id; k_pub := pub; k_rp := ad_rp ad |}. split; [reflexivity|].
    exists m, cd, uid, created, raw, ad, aaguid. cbn [k_id k_pub k_rp fst]. repeat split; auto.
Qed.

(** What a successful login checked, and did. *)
Definition asserted e (a : assertion) token st st' (c : pclaims) (k : ukey) : Prop :=
  exists cd ad h u id created,
    e_client_data e (a_cdata a) = Some cd /\ cd_type cd = lit "webauthn.get" /\ parse_auth_data (e_cbor e) (a_adata a) = Ok ad /\
    ad_up ad = true /\ ad_uv ad = true /\ assoc (cd_challenge cd) (p_challenges st) = Some created /\
    assoc h (p_handles st) = Some u /\ a_id a = Some id /\ find (fun k => str_eqb (k_id k) id) (us_keys u) = Some k /\
    ad_rp ad = k_rp k /\ e_verify e (k_pub k) (a_adata a) (a_cdata a) (a_sig a) = true /\
    c = refreshed token (us_claims u) /\
    p_challenges st' = assoc_del (cd_challenge cd) (p_challenges st) /\ p_subjects st' = p_subjects st /\
    p_handles st' = assoc_set h {| us_claims := c; us_keys := us_keys u |} (p_handles st).

Lemma assertion_spec e a token st :
  (snd (process_assertion e a token st) = None /\ drops st (fst (process_assertion e a token st))) \/
  (exists c k, snd (process_assertion e a token st) = Some (c, k) /\ asserted e a token st (fst (process_assertion e a token st)) c k).
Proof.
  unfold process_assertion.
  destruct (e_client_data e (a_cdata a)) as [cd|] eqn:Ecd; [|left; split; [reflexivity|apply drops_refl]].
  destruct (str_eqb (cd_type cd) _) eqn:Et; cbn [negb]; [|left; split; [reflexivity|apply drops_refl]]. apply str_eqb_spec in Et.
  destruct (parse_auth_data (e_cbor e) (a_adata a)) as [ad| | |] eqn:Ep; try (left; split; [reflexivity|apply drops_refl]).
  destruct (ad_up ad) eqn:Eu; cbn [negb]; [|left; split; [reflexivity|apply drops_refl]].
  destruct (ad_uv ad) eqn:Ev; cbn [negb]; [|left; split; [reflexivity|apply drops_refl]].
  destruct (assoc (cd_challenge cd) (p_challenges st)) as [ch|] eqn:Ech; [|left; split; [reflexivity|apply drops_refl]].
  cbv zeta. set (h := if str_eqb (a_handle a) [] && _ then _ else a_handle a).
  set (st1 := {| p_challenges := assoc_del (cd_challenge cd) (p_challenges st); p_subjects := p_subjects st; p_handles := p_handles st |}).
  assert (D : drops st st1) by (repeat split; auto; right; eexists; reflexivity).
  destruct (assoc h (p_handles st)) as [u|] eqn:Eh; [|left; auto]. destruct (a_id a) as [id|] eqn:Eid; [|left; auto].
  destruct (find _ (us_keys u)) as [k|] eqn:Ef; [|left; auto].
  destruct (str_eqb (ad_rp ad) _) eqn:Er; cbn [negb]; [|left; auto]. apply str_eqb_spec in Er.
  destruct (e_verify e (k_pub k) (a_adata a) (a_cdata a) (a_sig a)) eqn:Es; cbn [negb]; [|left; auto].
  right. exists (refreshed token (us_claims u)), k. split; [reflexivity|].
  exists cd, ad, h, u, id, ch. repeat split; auto.
Qed.

Lemma check_spec e a token now st :
  (accepted (snd (check e a token now st)) = false /\ drops st (fst (check e a token now st))) \/
  (exists c k, asserted e a token st (fst (check e a token now st)) c k /\
     (snd (check e a token now st) = PRefresh \/ snd (check e a token now st) = PRefused \/
      (snd (check e a token now st) = PLogin c k /\ u_email c <> None /\ (0 < e_refresh e -> exists t, u_iat c = Some t /\ now - t <= e_refresh e)))).
Proof.
  unfold check. destruct (assertion_spec e a token st) as [[E D]|(c & k & E & A)]; destruct (process_assertion e a token st) as [st1 r]; cbn [fst snd] in *; subst r.
  - left. auto.
  - right. exists c, k.
    destruct ((0 <? e_refresh e) && match u_iat c with Some t => e_refresh e <? now - t | None => true end) eqn:R; [cbn; auto|].
    destruct (u_email c) eqn:Em; cbn [fst snd]; [|auto]. split; [exact A|]. right; right. repeat split; auto; [discriminate|].
    intros P. apply Z.ltb_lt in P. rewrite P in R. cbn in R. destruct (u_iat c) as [t|]; [|discriminate]. apply Z.ltb_ge in R. eauto.
Qed.

Lemma refreshed_email token c : u_email (refreshed token c) = u_email c.
Proof.
  unfold refreshed. destruct token as [nc|]; [|reflexivity]. destruct (str_eqb (u_sub nc) (u_sub c) && opt_eqb str_eqb (u_email nc) (u_email c)) eqn:E; [|reflexivity].
  apply andb_true_iff in E as [_ E]. apply opt_eqb_str in E. exact E.
Qed.

(** The invariant. *)
Record Inv (drawn : list str) (st : pstate) : Prop := {
  i_nodup : NoDup (map fst (p_challenges st));
  i_handle : forall h u, assoc h (p_handles st) = Some u -> exists m, u_email (us_claims u) = Some m /\ assoc m (p_subjects st) = Some h;
  i_subject : forall m h, assoc m (p_subjects st) = Some h -> exists u, assoc h (p_handles st) = Some u /\ u_email (us_claims u) = Some m;
  i_ch : forall k t c uid, assoc k (p_challenges st) = Some {| ch_created := t; ch_for := Some (c, uid) |} ->
         u_email c <> None /\ In uid drawn /\ (forall u, assoc uid (p_handles st) = Some u -> u_email (us_claims u) = u_email c);
  i_pair : forall k1 t1 c1 k2 t2 c2 uid, assoc k1 (p_challenges st) = Some {| ch_created := t1; ch_for := Some (c1, uid) |} ->
           assoc k2 (p_challenges st) = Some {| ch_created := t2; ch_for := Some (c2, uid) |} -> u_email c1 = u_email c2;
  i_drawn : forall h u, assoc h (p_handles st) = Some u -> In h drawn
}.

(** Challenges may only disappear. *)
Lemma Inv_sub drawn st st' :
  Inv drawn st -> p_subjects st' = p_subjects st -> p_handles st' = p_handles st ->
  NoDup (map fst (p_challenges st')) -> (forall k c, assoc k (p_challenges st') = Some c -> assoc k (p_challenges st) = Some c) -> Inv drawn st'.
Proof.
  intros I Es Eh N S. constructor; rewrite ?Es, ?Eh; try apply I; auto.
  - intros k t c uid A. exact (i_ch _ _ I _ _ _ _ (S _ _ A)).
  - intros k1 t1 c1 k2 t2 c2 uid A1 A2. exact (i_pair _ _ I _ _ _ _ _ _ _ (S _ _ A1) (S _ _ A2)).
Qed.
Lemma Inv_drops drawn st st' : Inv drawn st -> drops st st' -> Inv drawn st'.
Proof.
  intros I (Es & Eh & D). apply (Inv_sub drawn st); auto.
  - destruct D as [-> |[k ->]]; [apply I|apply NoDup_del; apply I].
  - intros k c A. destruct D as [E|[k' E]]; rewrite E in A; [exact A|]. apply assoc_del_inv in A. tauto.
Qed.

(** Changing one existing user, keeping the e-mail address. *)
Lemma Inv_update drawn st h u u' :
  Inv drawn st -> assoc h (p_handles st) = Some u -> u_email (us_claims u') = u_email (us_claims u) ->
  Inv drawn {| p_challenges := p_challenges st; p_subjects := p_subjects st; p_handles := assoc_set h u' (p_handles st) |}.
Proof.
  intros I A E. constructor; cbn [p_challenges p_subjects p_handles]; try apply I.
  - intros h' u'' B. apply assoc_set_inv in B as [[-> ->]|[Ne B]]; [|exact (i_handle _ _ I _ _ B)]. rewrite E. exact (i_handle _ _ I _ _ A).
  - intros m h' B. destruct (i_subject _ _ I _ _ B) as (v & Av & Ev). destruct (str_eq_dec h h') as [->|Ne].
    + rewrite assoc_set_eq. exists u'. split; [reflexivity|]. congruence.
    + rewrite assoc_set_neq by auto. eauto.
  - intros k t c uid B. destruct (i_ch _ _ I _ _ _ _ B) as (B1 & B2 & B3). repeat split; auto.
    intros v Av. apply assoc_set_inv in Av as [[-> ->]|[Ne Av]]; [rewrite E|]; auto.
  - intros h' u'' B. apply assoc_set_inv in B as [[-> ->]|[Ne B]]; [exact (i_drawn _ _ I _ _ A)|exact (i_drawn _ _ I _ _ B)].
Qed.

Lemma Inv_more drawn drawn' st : Inv drawn st -> (forall x, In x drawn -> In x drawn') -> Inv drawn' st.
Proof.
  intros I S. constructor; try apply I.
  - intros k t c uid B. destruct (i_ch _ _ I _ _ _ _ B) as (B1 & B2 & B3). auto.
  - intros h u B. apply S. exact (i_drawn _ _ I _ _ B).
Qed.

Lemma Inv_del drawn st k : Inv drawn st -> Inv drawn {| p_challenges := assoc_del k (p_challenges st); p_subjects := p_subjects st; p_handles := p_handles st |}.
Proof. intros I. apply (Inv_drops drawn st); [exact I|]. repeat split; auto. right. eexists. reflexivity. Qed.

Lemma Inv_attested drawn st st' e c host cdata att allow k :
  Inv drawn st -> attested e c host cdata att allow st st' k -> Inv drawn st'.
Proof.
  intros I (m & cd & uid & created & raw & ad & aaguid & Em & _ & _ & _ & Ech & _ & _ & _ & _ & _ & _ & _ & Ec & [(h & u & Es & Eh & _ & Es' & Eh')|(Es & Es' & Eh')]).
  - destruct st' as [ch' su' ha']. cbn in *. subst.
    refine (Inv_update drawn {| p_challenges := assoc_del (cd_challenge cd) (p_challenges st); p_subjects := p_subjects st; p_handles := p_handles st |} h u {| us_claims := us_claims u; us_keys := us_keys u ++ [k] |} (Inv_del _ _ _ I) Eh _). reflexivity.
  - assert (Es0 : assoc m (p_subjects st) = None).
    { destruct Es as [Es|(h & Es & Eh)]; [exact Es|]. destruct (i_subject _ _ I _ _ Es) as (u & A & _). congruence. }
    destruct (i_ch _ _ I _ _ _ _ Ech) as (_ & Dr & Hu).
    assert (Eh0 : assoc uid (p_handles st) = None).
    { destruct (assoc uid (p_handles st)) as [u|] eqn:A; [|reflexivity]. specialize (Hu u eq_refl).
      destruct (i_handle _ _ I _ _ A) as (m' & E1 & E2). congruence. }
    destruct st' as [ch' su' ha']. cbn in *. subst. constructor; cbn [p_challenges p_subjects p_handles].
    + apply NoDup_del. apply I.
    + intros h u A. apply assoc_set_inv in A as [[-> ->]|[Ne A]].
      * exists m. cbn. split; [exact Em|apply assoc_set_eq].
      * destruct (i_handle _ _ I _ _ A) as (m' & E1 & E2). exists m'. split; [exact E1|]. rewrite assoc_set_neq; [exact E2|]. congruence.
    + intros m' h A. apply assoc_set_inv in A as [[-> ->]|[Ne A]].
      * exists {| us_claims := c; us_keys := [k] |}. rewrite assoc_set_eq. auto.
      * destruct (i_subject _ _ I _ _ A) as (u & B1 & B2). exists u. split; [|exact B2]. rewrite assoc_set_neq; [exact B1|]. congruence.
    + intros k' t c' uid' A. apply assoc_del_inv in A as [Ne A]. destruct (i_ch _ _ I _ _ _ _ A) as (B1 & B2 & B3). repeat split; auto.
      intros u Au. apply assoc_set_inv in Au as [[-> ->]|[Ne' Au]]; [|auto]. cbn. exact (i_pair _ _ I _ _ _ _ _ _ _ Ech A).
    + intros k1 t1 c1 k2 t2 c2 uid' A1 A2. apply assoc_del_inv in A1 as [_ A1], A2 as [_ A2]. exact (i_pair _ _ I _ _ _ _ _ _ _ A1 A2).
    + intros h u A. apply assoc_set_inv in A as [[-> ->]|[Ne A]]; [exact Dr|exact (i_drawn _ _ I _ _ A)].
Qed.

Lemma Inv_asserted drawn st st' e a token c k : Inv drawn st -> asserted e a token st st' c k -> Inv drawn st'.
Proof.
  intros I (cd & ad & h & u & id & created & _ & _ & _ & _ & _ & _ & Eh & _ & _ & _ & _ & -> & Ec & Es & Eh').
  destruct st' as [ch' su' ha']. cbn in *. subst.
  exact (Inv_update drawn {| p_challenges := assoc_del (cd_challenge cd) (p_challenges st); p_subjects := p_subjects st; p_handles := p_handles st |} h u {| us_claims := refreshed token (us_claims u); us_keys := us_keys u |} (Inv_del _ _ _ I) Eh (refreshed_email _ _)).
Qed.

Lemma Inv_options drawn st c uid ch now :
  Inv drawn st -> ~ In uid drawn -> Inv (drawn ++ [uid]) (fst (attestation_options c uid ch now st)).
Proof.
  intros I Fr.
  assert (I' : Inv (drawn ++ [uid]) st) by (apply (Inv_more drawn); [exact I|intros x Hx; apply in_app_iff; auto]).
  unfold attestation_options. destruct (u_email c) as [m|] eqn:Em; [|exact I'].
  assert (K : forall id, In id (drawn ++ [uid]) -> (forall u, assoc id (p_handles st) = Some u -> u_email (us_claims u) = u_email c) ->
              (forall k t c', assoc k (p_challenges st) = Some {| ch_created := t; ch_for := Some (c', id) |} -> u_email c' = u_email c) ->
              Inv (drawn ++ [uid]) {| p_challenges := assoc_set ch {| ch_created := now; ch_for := Some (c, id) |} (p_challenges st); p_subjects := p_subjects st; p_handles := p_handles st |}).
  { intros id Hin Hu Hc. constructor; cbn [p_challenges p_subjects p_handles]; try apply I'.
    - apply NoDup_set. apply I'.
    - intros k t c' uid' A. apply assoc_set_inv in A as [[-> A]|[Ne A]]; [|exact (i_ch _ _ I' _ _ _ _ A)]. injection A as -> -> ->.
      repeat split; auto. congruence.
    - intros k1 t1 c1 k2 t2 c2 uid' A1 A2. apply assoc_set_inv in A1 as [[-> A1]|[Ne1 A1]], A2 as [[-> A2]|[Ne2 A2]].
      + injection A1 as -> -> ->. injection A2 as _ ->. reflexivity.
      + injection A1 as -> -> ->. symmetry. exact (Hc _ _ _ A2).
      + injection A2 as -> -> ->. exact (Hc _ _ _ A1).
      + exact (i_pair _ _ I' _ _ _ _ _ _ _ A1 A2). }
  destruct (assoc m (p_subjects st)) as [h|] eqn:Es.
  - destruct (assoc h (p_handles st)) as [u|] eqn:Eh; [|exact I']. cbn [fst]. destruct (i_subject _ _ I _ _ Es) as (u' & A1 & A2).
    apply K.
    + apply in_app_iff. left. exact (i_drawn _ _ I _ _ Eh).
    + intros v Av. congruence.
    + intros k t c' A. destruct (i_ch _ _ I _ _ _ _ A) as (_ & _ & B). rewrite Em, <- A2. symmetry. apply B. exact A1.
  - cbn [fst]. apply K.
    + apply in_app_iff. right. left. reflexivity.
    + intros v Av. exfalso. apply Fr. exact (i_drawn _ _ I _ _ Av).
    + intros k t c' A. exfalso. apply Fr. destruct (i_ch _ _ I _ _ _ _ A) as (_ & B & _). exact B.
Qed.

Lemma Inv_delete drawn st m id : Inv drawn st -> Inv drawn (delete_key m id st).
Proof.
  intros I. unfold delete_key. destruct (assoc m (p_subjects st)) as [h|]; [|exact I]. destruct (assoc h (p_handles st)) as [u|] eqn:Eh; [|exact I].
  apply (Inv_update _ _ _ u); [exact I|exact Eh|reflexivity].
Qed.

Lemma Inv_step e drawn st o :
  Inv drawn st -> (forall u, In u (uids [o]) -> ~ In u drawn) -> Inv (drawn ++ uids [o]) (fst (pstep e st o)).
Proof.
  intros I Fr.
  destruct o as [now|c uid ch now|c host cdata att allow|ch now|a token now|c sk id]; unfold uids in *; cbn [flat_map app] in *; rewrite ?app_nil_r; cbn [pstep].
  - apply (Inv_sub drawn st); auto; cbn [vacuum fst p_challenges].
    + apply NoDup_filter_keys. apply I.
    + intros k c A. apply (assoc_filter_Some (fun x => negb (ch_created x + 300 <? now))) in A as [A _]; [exact A|apply I].
  - apply Inv_options; [exact I|]. apply Fr. left. reflexivity.
  - destruct (negb allow && negb _); [exact I|].
    destruct (attestation_spec e c host cdata att allow st) as [[_ D]|(k & _ & A)]; [exact (Inv_drops _ _ _ I D)|exact (Inv_attested _ _ _ _ _ _ _ _ _ _ I A)].
  - cbn [assertion_options fst]. constructor; cbn [p_challenges p_subjects p_handles]; try apply I.
    + apply NoDup_set. apply I.
    + intros k t c uid A. apply assoc_set_inv in A as [[-> A]|[Ne A]]; [discriminate|]. exact (i_ch _ _ I _ _ _ _ A).
    + intros k1 t1 c1 k2 t2 c2 uid A1 A2. apply assoc_set_inv in A1 as [[-> A1]|[Ne1 A1]]; [discriminate|]. apply assoc_set_inv in A2 as [[-> A2]|[Ne2 A2]]; [discriminate|].
      exact (i_pair _ _ I _ _ _ _ _ _ _ A1 A2).
  - destruct (check_spec e a token now st) as [[_ D]|(c & k & A & _)]; [exact (Inv_drops _ _ _ I D)|exact (Inv_asserted _ _ _ _ _ _ _ _ I A)].
  - destruct (str_eqb sk (e_hash e id)); [exact I|]. cbn [fst]. apply Inv_delete. exact I.
Qed.

Lemma NoDup_app_l {A} (a b : list A) : NoDup (a ++ b) -> NoDup a.
Proof. induction a; cbn; intros H; [constructor|]. inversion H; subst. constructor; auto. intros I. apply H2. apply in_app_iff. auto. Qed.
Lemma NoDup_app_disj {A} (a b : list A) x : NoDup (a ++ b) -> In x b -> ~ In x a.
Proof.
  induction a as [|y a IH]; cbn; intros H Hb; [auto|]. inversion H; subst. intros [->|Ha]; [apply H2; apply in_app_iff; auto|exact (IH H3 Hb Ha)].
Qed.

Lemma pafter_Inv e ops : NoDup (uids ops) -> Inv (uids ops) (pafter e ops).
Proof.
  induction ops as [|o ops IH] using rev_ind; intros N.
  - constructor; cbn; try discriminate. constructor.
  - rewrite uids_app in N. rewrite pafter_snoc, uids_app. apply Inv_step; [apply IH; exact (NoDup_app_l _ _ N)|].
    intros u Hu. exact (NoDup_app_disj _ _ _ N Hu).
Qed.
