(** Proofs about the HTTP side of passkeys: a registration and a login that go well. *)
From Verif Require Import Base PasskeyModel PasskeySpec LoginProofs LoginProofs2 PasskeyProofs PasskeyProofs2 PasskeyProofs3 PasskeyHttpModel PasskeyHttpSpec.
Open Scope list_scope.
Open Scope Z_scope.

Lemma leaves_challenge e ch x st o :
  leaves_alone e ch (ch_created x) o -> assoc ch (p_challenges st) = Some x ->
  assoc ch (p_challenges (fst (pstep e st o))) = Some x.
Proof.
  intros L A. destruct o as [now|c uid ch' now|c host cdata att allow|ch' now|a token now|c sk id]; cbn [pstep leaves_alone] in *.
  - cbn [vacuum fst p_challenges]. induction (p_challenges st) as [|[k v] l IH]; [discriminate|]. cbn [assoc] in A. cbn [filter snd].
    destruct (str_eqb ch k) eqn:E.
    + injection A as ->. assert (ch_created x + 300 <? now = false) as -> by (apply Z.ltb_ge; lia). cbn [negb assoc]. rewrite E. reflexivity.
    + destruct (negb _); [cbn [assoc]; rewrite E|]; apply IH; exact A.
  - unfold attestation_options. destruct (u_email c); [|exact A]. destruct (assoc l _) as [h|]; [destruct (assoc h _)|]; cbn [fst p_challenges]; try exact A;
      rewrite assoc_set_neq by auto; exact A.
  - destruct (negb allow && negb _); [exact A|]. unfold challenge_of in L.
    assert (D : forall cd, e_client_data e cdata = Some cd -> cd_challenge cd <> ch) by (intros cd Hc Hd; rewrite Hc in L; apply L; cbn; congruence). clear L.
    unfold process_attestation. destruct (u_email c); [|exact A]. destruct (e_client_data e cdata) as [cd|]; [|exact A]. specialize (D _ eq_refl).
    destruct (negb _); [exact A|]. destruct (negb _); [exact A|]. cbv zeta.
    assert (B : assoc ch (assoc_del (cd_challenge cd) (p_challenges st)) = Some x) by (rewrite assoc_del_neq by auto; exact A).
    destruct (assoc (cd_challenge cd) (p_challenges st)) as [[? [[c' uid]|]]|]; try exact B. destruct (negb _); [exact B|].
    destruct (match e_attestation e att with Some _ => _ | None => _ end) as [ad| | |]; try exact B.
    destruct (negb _); [exact B|]. destruct (negb _); [exact B|]. destruct (negb _); [exact B|]. destruct (ad_creds ad) as [[[? ?] ?]|]; [|exact B].
    destruct (match assoc l (p_subjects st) with Some _ => _ | None => _ end) as [[h u]|]; [destruct (negb allow && _)|]; exact B.
  - unfold assertion_options. cbn [fst p_challenges]. rewrite assoc_set_neq by congruence. exact A.
  - unfold challenge_of in L.
    assert (D : forall cd, e_client_data e (a_cdata a) = Some cd -> cd_challenge cd <> ch) by (intros cd Hc Hd; rewrite Hc in L; apply L; cbn; congruence). clear L.
    assert (B : assoc ch (p_challenges (fst (process_assertion e a token st))) = Some x).
    { unfold process_assertion. destruct (e_client_data e (a_cdata a)) as [cd|]; [|exact A]. specialize (D _ eq_refl).
      destruct (negb _); [exact A|]. destruct (parse_auth_data _ _) as [ad| | |]; try exact A. destruct (negb _); [exact A|]. destruct (negb _); [exact A|].
      destruct (assoc (cd_challenge cd) (p_challenges st)); [|exact A]. cbv zeta.
      assert (B : assoc ch (assoc_del (cd_challenge cd) (p_challenges st)) = Some x) by (rewrite assoc_del_neq by auto; exact A).
      destruct (assoc _ (p_handles st)) as [u|]; [|exact B]. destruct (a_id a); [|exact B]. destruct (find _ _); [|exact B]. destruct (negb _); [exact B|]. destruct (negb _); exact B. }
    unfold check. destruct (process_assertion e a token st) as [st1 [[c k]|]]; cbn [fst] in *; [|exact B].
    destruct (_ && _); [exact B|]. destruct (u_email c); exact B.
  - destruct (str_eqb sk _); [exact A|]. unfold delete_key. destruct (assoc _ (p_subjects st)) as [h|]; [|exact A]. destruct (assoc h _); exact A.
Qed.

Lemma leaves_history e ch x ops : forall st,
  Forall (leaves_alone e ch (ch_created x)) ops -> assoc ch (p_challenges st) = Some x -> assoc ch (p_challenges (fst (prun e st ops))) = Some x.
Proof.
  induction ops as [|o ops IH]; intros st F A; [exact A|]. inversion F as [|? ? F1 F2]; subst. cbn [prun].
  pose proof (leaves_challenge e ch x st o F1 A) as B. destruct (pstep e st o) as [st1 out]. cbn [fst] in B. specialize (IH st1 F2 B).
  destruct (prun e st1 ops). exact IH.
Qed.

Lemma pafter_app e a b : pafter e (a ++ b) = fst (prun e (pafter e a) b).
Proof. unfold pafter. rewrite prun_app. reflexivity. Qed.

(** A challenge for a registration is there until it is used or old. *)
Lemma registration_challenge e before c m uid ch t between :
  NoDup (uids before) -> u_email c = Some m -> Forall (leaves_alone e ch t) between ->
  exists uid', assoc ch (p_challenges (pafter e (before ++ AttOptions c uid ch t :: between))) = Some {| ch_created := t; ch_for := Some (c, uid') |}.
Proof.
  intros N Em F. change (before ++ AttOptions c uid ch t :: between) with (before ++ [AttOptions c uid ch t] ++ between).
  rewrite app_assoc, pafter_app, pafter_snoc. cbn [pstep]. unfold attestation_options. rewrite Em.
  pose proof (pafter_Inv e before N) as Iv.
  destruct (assoc m (p_subjects (pafter e before))) as [h|] eqn:Eh.
  - destruct (i_subject _ _ Iv _ _ Eh) as (u & Eu & _). rewrite Eu. exists h. cbn [fst].
    apply (leaves_history e ch {| ch_created := t; ch_for := Some (c, h) |}); [exact F|]. cbn [p_challenges]. apply assoc_set_eq.
  - exists uid. apply (leaves_history e ch {| ch_created := t; ch_for := Some (c, uid) |}); [exact F|]. cbn [p_challenges fst]. apply assoc_set_eq.
Qed.
Lemma login_challenge_there e before ch t between :
  Forall (leaves_alone e ch t) between ->
  assoc ch (p_challenges (pafter e (before ++ AssOptions ch t :: between))) = Some {| ch_created := t; ch_for := None |}.
Proof.
  intros F. change (before ++ AssOptions ch t :: between) with (before ++ [AssOptions ch t] ++ between).
  rewrite app_assoc, pafter_app, pafter_snoc. apply (leaves_history e ch {| ch_created := t; ch_for := None |}); [exact F|].
  cbn [pstep assertion_options fst p_challenges]. apply assoc_set_eq.
Qed.

Lemma str_eqb_same s : str_eqb s s = true.
Proof. apply str_eqb_refl. Qed.
Lemma claims_eqb_refl c : claims_eqb c c = true.
Proof. apply claims_eqb_spec. reflexivity. Qed.

Lemma honest_added e before c m uid ch t between host cdata att allow k :
  NoDup (uids before) -> u_email c = Some m -> Forall (leaves_alone e ch t) between ->
  honest_registration e (e_hostname e host) (lit "https://" ++ host) ch k cdata att ->
  (allow = true \/ (subject_allowed (e_acl e) m = true /\ keys_of (pafter e (before ++ AttOptions c uid ch t :: between)) m = [])) ->
  panswer e (before ++ AttOptions c uid ch t :: between) (AddKey c host cdata att allow) = PAdded c k.
Proof.
  intros N Em F (Hc & Hr & raw & ad & aaguid & Ha & Hp & H1 & H2 & H3 & H4) Hk.
  destruct (registration_challenge e before c m uid ch t between N Em F) as (uid' & Ech).
  unfold panswer. set (st := pafter e _) in *. cbn [pstep]. rewrite Em.
  assert (negb allow && negb (subject_allowed (e_acl e) m) = false) as -> by (destruct Hk as [->|[-> _]]; [reflexivity|apply andb_false_r]).
  unfold process_attestation. rewrite Em, Hc. cbn [cd_type cd_challenge cd_origin]. rewrite !str_eqb_refl. cbn [negb]. cbv zeta. rewrite Ech, claims_eqb_refl, Ha, Hp.
  rewrite H1, H2, H3, H4, str_eqb_refl. cbn [negb].
  assert (K : {| k_id := k_id k; k_pub := k_pub k; k_rp := e_hash e (e_hostname e host) |} = k) by (destruct k; cbn in *; subst; reflexivity).
  destruct (match assoc m (p_subjects st) with Some _ => _ | None => _ end) as [[h u]|] eqn:Eu; [|cbn [snd]; rewrite K; reflexivity].
  assert (G : negb allow && negb match us_keys u with [] => true | _ :: _ => false end = false).
  { destruct Hk as [->|[_ Hk]]; [reflexivity|]. unfold keys_of in Hk. destruct (assoc m (p_subjects st)) as [h'|]; [|discriminate].
    destruct (assoc h' (p_handles st)) as [u'|] eqn:E'; [|discriminate]. injection Eu as -> ->. rewrite Hk. apply andb_false_r. }
  rewrite G. cbn [snd]. rewrite K. reflexivity.
Qed.

Lemma find_nodup (ks : list ukey) k : NoDup (map k_id ks) -> In k ks -> find (fun x => str_eqb (k_id x) (k_id k)) ks = Some k.
Proof.
  induction ks as [|x ks IH]; intros N H; [destruct H|]. cbn [find]. cbn [map] in N. inversion N as [|? ? N1 N2]; subst.
  destruct (str_eqb (k_id x) (k_id k)) eqn:E.
  - apply str_eqb_spec in E. destruct H as [->|H]; [reflexivity|]. destruct N1. rewrite E. apply in_map. exact H.
  - destruct H as [->|H]; [rewrite str_eqb_refl in E; discriminate|]. auto.
Qed.

Lemma honest_login e before ch t between m h k a token now :
  let ops := before ++ AssOptions ch t :: between in
  NoDup (uids ops) -> Forall (leaves_alone e ch t) between ->
  In k (keys_of (pafter e ops) m) -> NoDup (map k_id (keys_of (pafter e ops) m)) ->
  assoc m (p_subjects (pafter e ops)) = Some h ->
  honest_assertion e ch k m h a ->
  exists c, u_email c = Some m /\ (panswer e ops (Check a token now) = PLogin c k \/ (panswer e ops (Check a token now) = PRefresh /\ too_old e c now)).
Proof.
  intros ops N F Hin Nk Hh ((origin & Hc) & (ad & Hp & H1 & H2 & H3) & Hid & Hha & Hv).
  pose proof (login_challenge_there e before ch t between F) as Ech. fold ops in Ech. pose proof (pafter_Inv e ops N) as Iv.
  destruct (i_subject _ _ Iv _ _ Hh) as (u & Eu & Eem). unfold keys_of in Hin, Nk. rewrite Hh, Eu in Hin, Nk.
  exists (refreshed token (us_claims u)). split; [rewrite refreshed_email; exact Eem|].
  unfold panswer. cbn [pstep]. unfold check, process_assertion. rewrite Hc. cbn [cd_type cd_challenge]. rewrite str_eqb_refl. cbn [negb]. rewrite Hp, H2, H3. cbn [negb]. rewrite Ech. cbv zeta.
  set (hd := if str_eqb (a_handle a) [] && negb (str_eqb (a_login a) []) then _ else _).
  assert (hd = h) as ->.
  { subst hd. destruct Hha as [[Hne ->]|[-> [-> Hm]]].
    - destruct h; [congruence|]. reflexivity.
    - destruct m; [congruence|]. cbn [str_eqb]. rewrite Hh. reflexivity. }
  rewrite Eu, Hid, (find_nodup _ _ Nk Hin), H1, str_eqb_refl, Hv. cbn [negb].
  destruct ((0 <? e_refresh e) && _) eqn:R; cbn [snd].
  - right. split; [reflexivity|]. apply andb_true_iff in R. destruct R as [R1 R2]. apply Z.ltb_lt in R1. split; [exact R1|].
    intros t0 Et. rewrite Et in R2. apply Z.ltb_lt in R2. exact R2.
  - left. rewrite refreshed_email, Eem. reflexivity.
Qed.
