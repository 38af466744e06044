(** Config.Check accepts exactly the valid configurations. *)
From Verif Require Import Base HttpModel SettingsModel ConfigModel ConfigSpec ConfigProofs ConfigProofs2.
Local Open Scope Z_scope.

Lemma present_map {A B} (g : A -> B) l : present (map (option_map g) l) = map g (present l).
Proof. induction l as [|[a|] l IH]; cbn; [reflexivity| |exact IH]. unfold present in IH. rewrite IH. reflexivity. Qed.
Lemma no_null_map {A B} (g : A -> B) l : no_null (map (option_map g) l) <-> no_null l.
Proof.
  unfold no_null. rewrite in_map_iff. split.
  - intros H K. apply H. exists None. auto.
  - intros H (o & E & K). destruct o; [discriminate|]. exact (H K).
Qed.
Lemma option_map_id {A} (l : list (option A)) : map (option_map id) l = l.
Proof. induction l as [|[a|] l IH]; cbn; [reflexivity| |]; rewrite IH; reflexivity. Qed.

(** *** Providers *)

Lemma named_ok {A} (f : A -> str) (P : A -> Prop) (s : list str) l :
  okall (fun s p => ~ In (f p) s /\ P p) (fun s p => f p :: s) s l <->
  (NoDup (map f l) /\ (forall n, In n (map f l) -> ~ In n s)) /\ forall p, In p l -> P p.
Proof.
  rewrite (okall_and (fun s p => ~ In (f p) s) (fun _ p => P p)), okall_fresh, okall_const. reflexivity.
Qed.

Lemma passkeys_ok (P : passkey -> Prop) s l :
  okall (fun s p => ~ In (pk_name p) s /\ (P p /\ In (pk_other p) (pk_name p :: s))) (fun s p => pk_name p :: s) s l <->
  ((NoDup (map pk_name l) /\ (forall n, In n (map pk_name l) -> ~ In n s)) /\ forall p, In p l -> P p) /\
  (forall l1 p l2, l = l1 ++ p :: l2 -> In (pk_other p) s \/ In (pk_other p) (map pk_name (l1 ++ [p]))).
Proof.
  rewrite <- named_ok.
  assert (E : forall l s, okall (fun s p => ~ In (pk_name p) s /\ (P p /\ In (pk_other p) (pk_name p :: s))) (fun s p => pk_name p :: s) s l <->
          okall (fun s p => ~ In (pk_name p) s /\ P p) (fun s p => pk_name p :: s) s l /\
          okall (fun s p => In (pk_other p) (pk_name p :: s)) (fun s p => pk_name p :: s) s l).
  { intros l0 s0. rewrite <- okall_and. apply okall_ext; [intros; tauto|reflexivity]. }
  rewrite E. apply and_iff_compat_l. rewrite okall_split.
  assert (F : forall l1 p, In (pk_other p) (pk_name p :: fold_left (fun s p => pk_name p :: s) l1 s) <->
              In (pk_other p) s \/ In (pk_other p) (map pk_name (l1 ++ [p]))).
  { intros l1 p. rewrite fold_cons, map_app, in_app_iff. cbn [In map]. rewrite in_app_iff, <- in_rev. tauto. }
  setoid_rewrite F. reflexivity.
Qed.

(** *** Server names *)

Definition all_entries (e : env) (quic : bool) (bs : list bend) : list entry :=
  flat_map (entries e) (map (be1 quic) bs).

Lemma entries_be1 e quic b :
  entries e (be1 quic b) = map (fun n => (n, (the_mode b, the_alpn quic b))) (the_names e b).
Proof. reflexivity. Qed.
Lemma keys_entries (ns al : list str) m :
  flat_map keys_of (map (fun n => (n, (m, al))) ns) = list_prod ns al.
Proof. induction ns as [|n ns IH]; cbn; [reflexivity|]. rewrite IH. reflexivity. Qed.
Lemma keys_all e quic bs :
  flat_map keys_of (all_entries e quic bs) = flat_map (fun b => list_prod (the_names e b) (the_alpn quic b)) bs.
Proof.
  unfold all_entries. induction bs as [|b bs IH]; cbn [map flat_map]; [reflexivity|].
  rewrite flat_map_app, entries_be1, keys_entries, IH. reflexivity.
Qed.
Lemma listed_all e quic bs :
  map (fun en : entry => (fst en, snd (snd en))) (all_entries e quic bs) =
  flat_map (fun b => map (fun n => (n, the_alpn quic b)) (the_names e b)) bs.
Proof.
  unfold all_entries. induction bs as [|b bs IH]; cbn [map flat_map]; [reflexivity|].
  rewrite map_app, IH, entries_be1, map_map. reflexivity.
Qed.

Lemma assoc_names l : forall s h,
  assoc h (fold_left h_name l s) =
  match assoc h s with
  | Some m => Some m
  | None => match find (fun en => str_eqb h (fst en)) l with Some en => Some (fst (snd en)) | None => None end
  end.
Proof.
  induction l as [|[n [m al]] l IH]; intros s h; cbn [fold_left find fst snd].
  - destruct (assoc h s); reflexivity.
  - rewrite IH. unfold h_name. cbn [fst snd]. destruct (assoc n s) as [m'|] eqn:A.
    + destruct (assoc h s) eqn:B; [reflexivity|]. destruct (str_eqb h n) eqn:E; [|reflexivity].
      apply str_eqb_spec in E. congruence.
    + cbn [assoc]. destruct (str_eqb h n) eqn:E; [|destruct (assoc h s); reflexivity].
      apply str_eqb_spec in E. subst. rewrite A. reflexivity.
Qed.
Lemma seen_names l h : assoc h (fold_left h_name l []) <> None <-> In h (map fst l).
Proof.
  rewrite assoc_names. cbn [assoc]. destruct (find (fun en => str_eqb h (fst en)) l) as [en|] eqn:F.
  - apply find_some in F as [Hi E]. apply str_eqb_spec in E. split; [intros _|discriminate].
    apply in_map_iff. exists en. auto.
  - split; [congruence|]. intros H. apply in_map_iff in H as (en & <- & Hi).
    pose proof (find_none _ _ F _ Hi) as E. cbn in E. rewrite str_eqb_refl in E. discriminate.
Qed.

Lemma names_ok e quic bs :
  okall q_entry h_entry ([], []) (all_entries e quic bs) <->
  NoDup (flat_map (fun b => list_prod (the_names e b) (the_alpn quic b)) bs) /\
  (forall l1 n l2, flat_map (fun b => map (fun n => (n, the_alpn quic b)) (the_names e b)) bs = l1 ++ (n, []) :: l2 ->
     ~ In n (map fst l1)).
Proof.
  unfold q_entry, h_entry.
  rewrite (okall_pair q_name (fun k en => okall q_key h_key k (keys_of en)) h_name (fun k en => fold_left h_key (keys_of en) k)).
  cbn [fst snd]. rewrite okall_flat, keys_all, <- listed_all.
  assert (K : forall l, okall q_key h_key [] l <-> NoDup l).
  { intros l. unfold q_key, h_key. rewrite (okall_fresh (fun k : str * str => k) l []), map_id.
    split; [tauto|]. intros N. split; [exact N|]. intros n _ []. }
  rewrite K, okall_split. unfold q_name. setoid_rewrite seen_names. split.
  - intros [H N]. split; [exact N|]. intros l1 n l2 E Hi.
    apply map_eq_app in E as (a & b & Ea & <- & Eb).
    destruct b as [|en b]; [discriminate|]. cbn [map] in Eb. injection Eb as E1 E2 _.
    rewrite map_map in Hi. cbn [fst] in Hi. apply (H a en b Ea); [|exact E2]. rewrite E1. exact Hi.
  - intros [N H]. split; [|exact N]. intros l1 en l2 E Hi K2.
    apply (H (map (fun en : entry => (fst en, snd (snd en))) l1) (fst en) (map (fun en : entry => (fst en, snd (snd en))) l2)).
    + rewrite E, map_app. cbn [map]. rewrite K2. reflexivity.
    + rewrite map_map. cbn [fst]. exact Hi.
Qed.

Lemma find_app {A} (p : A -> bool) a b :
  find p (a ++ b) = match find p a with Some x => Some x | None => find p b end.
Proof. induction a as [|x a IH]; cbn; [reflexivity|]. destruct (p x); [reflexivity|exact IH]. Qed.
Lemma find_entries h ns (m : str) (al : list str) :
  find (fun en : entry => str_eqb h (fst en)) (map (fun n => (n, (m, al))) ns) =
  if mem h ns then Some (h, (m, al)) else None.
Proof.
  induction ns as [|n ns IH]; cbn [map find fst mem]; [reflexivity|].
  destruct (str_eqb h n) eqn:E; cbn [orb]; [apply str_eqb_spec in E; subst; reflexivity|exact IH].
Qed.
Lemma owner e quic bs h m :
  assoc h (fold_left h_name (all_entries e quic bs) []) = Some m <->
  exists b l1 l2, bs = l1 ++ b :: l2 /\ In h (the_names e b) /\ (forall b', In b' l1 -> ~ In h (the_names e b')) /\
                  m = the_mode b.
Proof.
  rewrite assoc_names. cbn [assoc]. unfold all_entries. induction bs as [|b bs IH].
  - cbn. split; [discriminate|]. intros (b & l1 & l2 & E & _). destruct l1; discriminate.
  - cbn [map flat_map]. rewrite find_app, entries_be1, find_entries. destruct (mem h (the_names e b)) eqn:M.
    + apply mem_spec in M. cbn [fst snd]. split.
      * intros [= <-]. exists b, [], bs. split; [reflexivity|]. split; [exact M|]. split; [intros b' []|reflexivity].
      * intros (b' & l1 & l2 & E & Hi & Hn & ->). destruct l1 as [|x l1]; cbn in E; injection E as <- E; [reflexivity|].
        exfalso. exact (Hn b (or_introl eq_refl) M).
    + apply mem_false in M. rewrite IH. split.
      * intros (b' & l1 & l2 & E & Hi & Hn & ->). exists b', (b :: l1), l2. subst. split; [reflexivity|]. split; [exact Hi|].
        split; [|reflexivity]. intros x [<-|Hx]; auto.
      * intros (b' & l1 & l2 & E & Hi & Hn & ->). destruct l1 as [|x l1]; cbn in E; injection E as <- E; [contradiction|].
        exists b', l1, l2. split; [exact E|]. split; [exact Hi|]. split; [|reflexivity].
        intros y Hy. apply Hn. right. exact Hy.
Qed.
Lemma owned e quic bs h :
  (exists m, assoc h (fold_left h_name (all_entries e quic bs) []) = Some m) <->
  exists b, In b bs /\ In h (the_names e b).
Proof.
  split.
  - intros (m & H). apply owner in H as (b & l1 & l2 & -> & Hi & _). exists b. split; [|exact Hi].
    apply in_or_app. right. left. reflexivity.
  - intros (b & Hb & Hi).
    assert (N : assoc h (fold_left h_name (all_entries e quic bs) []) <> None).
    { apply seen_names. unfold all_entries. apply in_map_iff. exists (h, (the_mode b, the_alpn quic b)). split; [reflexivity|].
      apply in_flat_map. exists (be1 quic b). split; [apply in_map; exact Hb|]. rewrite entries_be1.
      apply in_map_iff. exists h. auto. }
    destruct (assoc h _) as [m|]; [eauto|congruence].
Qed.

(** *** Backends *)

Lemma full_bend_eq e quic b : be3 e (be2 e (be1 quic b)) = full_bend e quic b.
Proof. reflexivity. Qed.

Lemma be_ok e c (idps pkis groups : list str) quic b :
  (forall n, In n idps <-> In n (idp_names c)) ->
  (forall n, In n pkis <-> In n (map pi_name (present (cf_pki c)))) ->
  (forall n, In n groups <-> In n (map bw_name (present (cf_bw c)))) ->
  (be1_ok b /\ be3_ok e idps pkis groups (be2 e (be1 quic b))) <->
  (backend_ok e c b /\ no_null (bd_over b) /\
   (forall s cs rs, bd_sso b = Some s -> bs_server s = Some (cs, rs) -> no_null cs /\ no_null rs)).
Proof.
  intros HI HP HG.
  assert (R : forall l, known e pkis l <-> roots_known e c l).
  { intros l. unfold known, roots_known. setoid_rewrite HP. reflexivity. }
  split.
  - intros [(H1 & H2 & H3) [T1 T2 T3 T4 T5 T6 T7 T8 T9 T10 T11 T12 T13 T14]]. cbn in T1, T2, T3, T4, T5, T6, T7, T8, T9, T10, T11, T12, T13, T14.
    split; [|split; [exact T13|]].
    + constructor; try assumption.
      * intros E. apply T1. unfold the_names. rewrite E. reflexivity.
      * intros K. apply HG. auto.
      * intros a Ha. destruct (T6 a Ha) as [K1 K2]. split; [apply R; exact K1|exact K2].
      * intros s Hs. apply HI. apply (T7 s Hs).
      * intros s cs rs Hs Hr. apply (proj2 (T7 s Hs) _ _ Hr).
      * apply R. exact T8.
      * intros o Ho. destruct (T14 o Ho) as [W1 W2 W3 W4 W5]. constructor; try assumption. apply R. exact W4.
    + intros s cs rs Hs Hr. apply (proj2 (T7 s Hs) _ _ Hr).
  - intros ([B1 B2 B3 B4 B5 B6 B7 B8 B9 B10 B11 B12 B13 B14 B15 B16 B17] & N1 & N2). split.
    + split; [exact B1|]. split; assumption.
    + constructor; cbn; try assumption.
      * intros E. apply B4. unfold the_names in E. destruct (bd_names b); [reflexivity|discriminate].
      * intros K. apply HG. auto.
      * intros a Ha. destruct (B9 a Ha) as [K1 K2]. split; [apply R; exact K1|exact K2].
      * intros s Hs. split; [apply HI; auto|]. intros cs rs Hr. split; [exact (N2 _ _ _ Hs Hr)|exact (B11 _ _ _ Hs Hr)].
      * apply R. exact B12.
      * intros o Ho. destruct (B17 o Ho) as [W1 W2 W3 W4 W5]. constructor; try assumption. apply R. exact W4.
Qed.

(** *** All of it *)

Lemma cache_ok e c x :
  (if set (cf_cache c) then Ok (cf_cache c) else match e_cache e with Some d => Ok d | None => Err end) = Ok x <->
  (cf_cache c = [] -> e_cache e <> None) /\
  x = match cf_cache c with [] => match e_cache e with Some d => d | None => [] end | d => d end.
Proof.
  destruct (cf_cache c) as [|a l].
  - cbn. destruct (e_cache e) as [d|].
    + split; [intros [= <-]; split; [discriminate|reflexivity]|intros [_ ->]; reflexivity].
    + split; [discriminate|]. intros [H _]. destruct (H eq_refl). reflexivity.
  - replace (set (a :: l)) with true by reflexivity.
    split; [intros [= <-]; split; [discriminate|reflexivity]|intros [_ ->]; reflexivity].
Qed.
Lemma max_ok e c x :
  (if cf_max c =? 0 then match e_files e with Some n => Ok (default_max n) | None => Err end else Ok (cf_max c)) = Ok x <->
  (cf_max c = 0 -> e_files e <> None) /\
  x = if cf_max c =? 0 then match e_files e with Some n => Z.quot n 2 - 100 | None => 0 end else cf_max c.
Proof.
  destruct (cf_max c =? 0) eqn:E.
  - apply Z.eqb_eq in E. unfold default_max. destruct (e_files e) as [n|].
    + split; [intros H; injection H as <-; split; [discriminate|reflexivity]|intros [_ ->]; reflexivity].
    + split; [discriminate|]. intros [H _]. destruct (H E). reflexivity.
  - apply Z.eqb_neq in E. split; [intros [= <-]; split; [contradiction|reflexivity]|intros [_ ->]; reflexivity].
Qed.

Lemma full_map e quic (l : list (option bend)) :
  map (option_map (be3 e)) (map (option_map (be2 e)) (map (option_map (be1 quic)) l)) = map (option_map (full_bend e quic)) l.
Proof. induction l as [|[b|] l IH]; cbn [map option_map]; [reflexivity| |]; rewrite IH; reflexivity. Qed.

Lemma nodup3 (a b c : list str) :
  NoDup ((a ++ b) ++ c) <->
  (NoDup a /\ (forall n, In n a -> ~ In n [])) /\
  (NoDup b /\ (forall n, In n b -> ~ In n (rev a ++ []))) /\
  (NoDup c /\ (forall n, In n c -> ~ In n (rev b ++ rev a ++ []))).
Proof.
  rewrite !nodup_app_iff, !app_nil_r.
  assert (E1 : forall n, In n (rev a) <-> In n a) by (intros; rewrite <- in_rev; reflexivity).
  assert (E2 : forall n, In n (rev b ++ rev a) <-> In n (a ++ b)).
  { intros. rewrite !in_app_iff, <- !in_rev. tauto. }
  setoid_rewrite E1. setoid_rewrite E2. cbn [In]. intuition.
Qed.

Lemma in_folded {A} (f : A -> str) l n s : In n (fold_left (fun s p => f p :: s) l s) <-> In n (map f l) \/ In n s.
Proof. rewrite fold_cons, in_app_iff, <- in_rev. reflexivity. Qed.

Theorem check_ok e c r : check e c = Ok r <-> no_nulls c /\ valid e c /\ r = full e c.
Proof.
  unfold check. rewrite bind_ok. setoid_rewrite cache_ok. setoid_rewrite bind_ok. setoid_rewrite max_ok.
  fold (quic_on e c).
  assert (NO : forall s y, check_oidc e s None <> Ok y) by discriminate.
  assert (NS : forall s y, check_saml e s None <> Ok y) by discriminate.
  assert (NP : forall s y, check_passkey e s None <> Ok y) by discriminate.
  assert (N1 : forall y, check_be1 e (quic_on e c) None <> Ok y) by discriminate.
  assert (N2 : forall s y, check_be2 e s None <> Ok y) by discriminate.
  assert (NK : forall n s y, check_pki e n s None <> Ok y) by discriminate.
  assert (NH : forall n s y, check_ssh e n s None <> Ok y) by discriminate.
  assert (NB : forall s y, check_bw s None <> Ok y) by discriminate.
  assert (N3 : forall i k g y, check_be3 e i k g None <> Ok y) by discriminate.
  assert (IDP : forall n, In n (fold_left (fun s p => pk_name p :: s) (present (cf_passkey c))
                          (fold_left (fun s p => sa_name p :: s) (present (cf_saml c))
                          (fold_left (fun s p => oi_name p :: s) (present (cf_oidc c)) []))) <-> In n (idp_names c)).
  { intros n. rewrite !in_folded. unfold idp_names, other_names. rewrite !in_app_iff. cbn. tauto. }
  assert (OTH : forall n, In n (fold_left (fun s p => sa_name p :: s) (present (cf_saml c))
                          (fold_left (fun s p => oi_name p :: s) (present (cf_oidc c)) [])) <-> In n (other_names c)).
  { intros n. rewrite !in_folded. unfold other_names. rewrite !in_app_iff. cbn. tauto. }
  assert (PKI : forall n, In n (fold_left (fun s p => pi_name p :: s) (present (cf_pki c)) []) <-> In n (map pi_name (present (cf_pki c)))).
  { intros n. rewrite in_folded. cbn. tauto. }
  assert (GRP : forall n, In n (fold_left (fun s p => bw_name p :: s) (present (cf_bw c)) []) <-> In n (map bw_name (present (cf_bw c)))).
  { intros n. rewrite in_folded. cbn. tauto. }
  pose proof (fun b => be_ok e c _ _ _ (quic_on e c) b IDP PKI GRP) as BE.
  assert (IDS : NoDup (idp_names c) <->
     (NoDup (map oi_name (present (cf_oidc c))) /\ (forall n, In n (map oi_name (present (cf_oidc c))) -> ~ In n [])) /\
     (NoDup (map sa_name (present (cf_saml c))) /\ (forall n, In n (map sa_name (present (cf_saml c))) ->
        ~ In n (fold_left (fun s p => oi_name p :: s) (present (cf_oidc c)) []))) /\
     (NoDup (map pk_name (present (cf_passkey c))) /\ (forall n, In n (map pk_name (present (cf_passkey c))) ->
        ~ In n (fold_left (fun s p => sa_name p :: s) (present (cf_saml c)) (fold_left (fun s p => oi_name p :: s) (present (cf_oidc c)) []))))).
  { unfold idp_names, other_names. rewrite nodup3, !fold_cons. reflexivity. }
  split.
  - intros (cache & [C1 ->] & mx & [M1 ->] & H).
    apply need_then in H as [Q1 H]. apply need_then in H as [A1 H].
    apply bind_ok in H as (oi & HO & H). apply (each_st_opt _ _ _ _ (check_oidc_ok e) NO) in HO as (ON & OO & ->). cbn [fst snd] in H.
    apply bind_ok in H as (sa & HS & H). apply (each_st_opt _ _ _ _ (check_saml_ok e) NS) in HS as (SN & SO & ->). cbn [fst snd] in H.
    apply bind_ok in H as (pk & HP & H). apply (each_st_opt _ _ _ _ (check_passkey_ok e) NP) in HP as (PN & PO & ->). cbn [fst snd] in H.
    apply bind_ok in H as (b1 & HB1 & H). apply (each_ok _ _ _ (check_be1_ok e (quic_on e c)) N1) in HB1 as (BN & B1 & ->).
    apply bind_ok in H as (b2 & HB2 & H). apply (each_st_opt _ _ _ _ (check_be2_ok e) N2) in HB2 as (_ & B2 & ->). cbn [fst snd] in H.
    rewrite present_map, okall_flat in B2. fold (all_entries e (quic_on e c) (present (cf_backends c))) in B2.
    rewrite present_map, fold_flat in H. fold (all_entries e (quic_on e c) (present (cf_backends c))) in H.
    apply names_ok in B2 as [VP VB].
    unfold h_entry in H. rewrite (fold_pair h_name (fun k en => fold_left h_key (keys_of en) k)) in H. cbn [fst snd] in H.
    apply bind_ok in H as (pi & HK & H). apply (each_st_opt _ _ _ id (check_pki_ok e _) (NK _)) in HK as (KN & KO & ->). cbn [fst snd] in H.
    apply bind_ok in H as (sh & HH & H). apply (each_st_opt _ _ _ id (check_ssh_ok e _) (NH _)) in HH as (HN & HO & ->). cbn [fst snd] in H.
    apply bind_ok in H as (bw & HW & H). apply (each_st_opt _ _ _ id check_bw_ok NB) in HW as (WN & WO & ->). cbn [fst snd] in H.
    apply bind_ok in H as (b3 & HB3 & H). apply (each_ok _ _ _ (check_be3_ok e _ _ _) (N3 _ _ _)) in HB3 as (_ & B3 & ->).
    apply need_then in H as [MK H]. injection H as <-.
    apply (named_ok oi_name (oidc_ok e)) in OO as [OD OV]. apply (named_ok sa_name (saml_ok e)) in SO as [SD SV].
    apply (passkeys_ok (passkey_ok e)) in PO as [[PD PV] PR].
    apply (named_ok pi_name (pki_ok e _)) in KO as [KD KV]. apply (named_ok sh_name (ssh_ok e _)) in HO as [HD HV].
    apply (okall_fresh bw_name) in WO as [WD _].
    assert (B : forall b, In b (present (cf_backends c)) -> backend_ok e c b /\ no_null (bd_over b) /\
       (forall s cs rs, bd_sso b = Some s -> bs_server s = Some (cs, rs) -> no_null cs /\ no_null rs)).
    { intros b Hb. apply BE. split; [exact (B1 b Hb)|]. apply B3. rewrite !present_map.
      apply in_map. apply in_map. exact Hb. }
    split; [|split].
    + constructor; try assumption.
      * intros b Hb. apply (B b Hb).
      * intros b s cs rs Hb. apply (B b Hb).
    + constructor; try assumption.
      * intros E. rewrite E in Q1. exact Q1.
      * intros n Hn. rewrite forallb_forall in A1. exact (A1 n Hn).
      * apply IDS. auto.
      * intros l1 p l2 E. destruct (PR _ _ _ E) as [K|K]; [left; apply OTH; exact K|right; exact K].
      * intros b Hb. apply (B b Hb).
      * split; [apply KD|]. intros Hi. apply in_map_iff in Hi as (p & E & Hp). exact (proj1 (KV p Hp) E).
      * intros p Hp E. destruct (proj2 (KV p Hp) E) as (h & m & Hh & Hm & Hmm).
        apply owner in Hm as (b & l1 & l2 & Eb & Hi & Hf & ->). exists h, b. split; [exact Hh|]. split; [|exact Hmm].
        exists l1, l2. auto.
      * split; [apply HD|]. intros Hi. apply in_map_iff in Hi as (p & E & Hp). exact (proj1 (HV p Hp) E).
      * intros p Hp E. destruct (proj2 (HV p Hp) E) as (h & m & Hh & Hm).
        destruct (proj1 (owned e (quic_on e c) (present (cf_backends c)) h) (ex_intro _ m Hm)) as (b & Hb & Hi).
        exists h, b. auto.
    + rewrite full_map. unfold full. f_equal. destruct (cf_tls c); reflexivity.
  - intros (NN & V & ->). destruct NN as [ON SN PN KN HN WN BN VN RN].
    destruct V as [V1 V2 V3 V4 V5 V6 V7 V8 V9 V10 V11 V12 V13 V14 V15 V16 V17 V18].
    apply IDS in V6 as (OD & SD & PD).
    eexists. split; [split; [exact V1|reflexivity]|]. eexists. split; [split; [exact V3|reflexivity]|].
    apply need_then. split; [destruct (quic_on e c); [rewrite (V4 eq_refl)|]; reflexivity|].
    apply need_then. split; [apply forallb_forall; exact V5|].
    apply bind_ok. eexists. split.
    { apply (each_st_opt _ _ _ _ (check_oidc_ok e) NO). split; [exact ON|]. split; [|reflexivity].
      apply (named_ok oi_name (oidc_ok e)). auto. }
    cbn [fst snd]. apply bind_ok. eexists. split.
    { apply (each_st_opt _ _ _ _ (check_saml_ok e) NS). split; [exact SN|]. split; [|reflexivity].
      apply (named_ok sa_name (saml_ok e)). auto. }
    cbn [fst snd]. apply bind_ok. eexists. split.
    { apply (each_st_opt _ _ _ _ (check_passkey_ok e) NP). split; [exact PN|]. split; [|reflexivity].
      apply (passkeys_ok (passkey_ok e)). split; [auto|].
      intros l1 p l2 E. destruct (V10 _ _ _ E) as [K|K]; [left; apply OTH; exact K|right; exact K]. }
    pose proof (fun b Hb => proj2 (BE b) (conj (V11 b Hb) (conj (VN b Hb) (fun s cs rs => RN b s cs rs Hb)))) as B.
    cbn [fst snd]. apply bind_ok. eexists. split.
    { apply (each_ok _ _ _ (check_be1_ok e (quic_on e c)) N1). split; [exact BN|]. split; [|reflexivity].
      intros b Hb. apply (B b Hb). }
    apply bind_ok. eexists. split.
    { apply (each_st_opt _ _ _ _ (check_be2_ok e) N2). split; [apply no_null_map; exact BN|]. split; [|reflexivity].
      rewrite present_map, okall_flat. apply names_ok. split; [exact V12|exact V13]. }
    cbn [fst snd]. rewrite present_map, fold_flat. fold (all_entries e (quic_on e c) (present (cf_backends c))).
    unfold h_entry. rewrite (fold_pair h_name (fun k en => fold_left h_key (keys_of en) k)). cbn [fst snd].
    apply bind_ok. eexists. split.
    { apply (each_st_opt _ _ _ id (check_pki_ok e _) (NK _)). split; [exact KN|]. split; [|reflexivity].
      apply (named_ok pi_name (pki_ok e _)). destruct V14 as [K1 K2]. split; [split; [exact K1|intros n _ []]|].
      intros p Hp. split; [intros E; apply K2; rewrite <- E; apply in_map; exact Hp|].
      intros E. destruct (V15 p Hp E) as (h & b & Hh & (l1 & l2 & Eb & Hi & Hf) & Hm).
      exists h, (the_mode b). split; [exact Hh|]. split; [|exact Hm]. apply owner. exists b, l1, l2. auto. }
    cbn [fst snd]. apply bind_ok. eexists. split.
    { apply (each_st_opt _ _ _ id (check_ssh_ok e _) (NH _)). split; [exact HN|]. split; [|reflexivity].
      apply (named_ok sh_name (ssh_ok e _)). destruct V16 as [K1 K2]. split; [split; [exact K1|intros n _ []]|].
      intros p Hp. split; [intros E; apply K2; rewrite <- E; apply in_map; exact Hp|].
      intros E. destruct (V17 p Hp E) as (h & b & Hh & Hb & Hi).
      destruct (proj2 (owned e (quic_on e c) (present (cf_backends c)) h) (ex_intro _ b (conj Hb Hi))) as (m & Hm).
      exists h, m. auto. }
    cbn [fst snd]. apply bind_ok. eexists. split.
    { apply (each_st_opt _ _ _ id check_bw_ok NB). split; [exact WN|]. split; [|reflexivity].
      apply (okall_fresh bw_name). split; [exact V18|intros n _ []]. }
    cbn [fst snd]. apply bind_ok. eexists. split.
    { apply (each_ok _ _ _ (check_be3_ok e _ _ _) (N3 _ _ _)). split; [do 2 apply no_null_map; exact BN|]. split; [|reflexivity].
      intros b Hb. rewrite !present_map in Hb. apply in_map_iff in Hb as (b' & <- & Hb). apply in_map_iff in Hb as (b'' & <- & Hb).
      apply (B b'' Hb). }
    apply need_then. split; [exact V2|]. rewrite full_map. unfold full. f_equal. f_equal. destruct (cf_tls c); reflexivity.
Qed.
