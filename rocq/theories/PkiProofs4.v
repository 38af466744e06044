(** Proofs about the certificate authority: who gets and who revokes certificates. *)
From Verif Require Import Base PkiModel PkiSpec PkiProofs PkiProofs2 PkiProofs3.
Open Scope Z_scope.

Lemma request_cert_inv w cr : request_cert w = Some cr ->
  exists claim r, w_claims w = Some claim /\ w_csr w = Some r /\ w_method w = lit "POST" /\ w_csrf w = lit "1" /\
    cs_emails cr = [email_of claim] /\ cs_pub cr = cs_pub r /\ cs_dns cr = cs_dns r /\ cs_ips cr = [] /\ cs_uris cr = [] /\
    ((cs_cn r = [] /\ cs_cn cr = email_of claim) \/ (cs_cn r <> [] /\ cs_cn cr = email_of claim ++ lit "::" ++ cs_cn r)).
Proof.
  unfold request_cert. destruct (w_claims w) as [claim|]; [|discriminate].
  destruct (str_eqb (w_method w) (lit "POST")) eqn:M; cbn [negb]; [|discriminate]. destruct (str_eqb (w_csrf w) (lit "1")) eqn:C; cbn [negb]; [|discriminate].
  destruct (negb _); [discriminate|]. destruct (w_csr w) as [r|]; [|discriminate]. intros H.
  apply str_eqb_spec in M. apply str_eqb_spec in C. exists claim, r. injection H as <-. cbn [cs_emails cs_pub cs_dns cs_ips cs_uris cs_cn]. repeat split; auto.
  destruct (cs_cn r); [left|right]; split; try reflexivity. discriminate.
Qed.

Theorem issued_identity o before i w sn now x c : answer o before (Issue i w sn now x) = OCert c ->
  exists claim r, w_claims w = Some claim /\ w_csr w = Some r /\ w_method w = lit "POST" /\ w_csrf w = lit "1" /\
    xc_serial c = sn /\ xc_emails c = [email_of claim] /\ xc_pub c = cs_pub r /\ xc_dns c = cs_dns r /\ xc_ips c = [] /\ xc_uris c = [] /\ xc_ca c = false /\
    (xc_cn c = email_of claim \/ xc_cn c = email_of claim ++ lit "::" ++ cs_cn r) /\
    xc_usages c = match xc_dns c with [] => [ClientAuth] | _ => [ServerAuth] end /\
    xc_not_before c <= now /\ xc_not_after c <= now + 3650 * day.
Proof.
  intros A. destruct (issue_answer _ _ _ _ _ _ _ _ A) as (m & cr & _ & _ & _ & R & ->).
  apply request_cert_inv in R as (claim & r & H1 & H2 & H3 & H4 & H5 & H6 & H7 & H8 & H9 & H10).
  exists claim, r. cbn [issued_cert xc_serial xc_emails xc_pub xc_dns xc_ips xc_uris xc_ca xc_cn xc_usages xc_not_before xc_not_after].
  split; [exact H1|]. split; [exact H2|]. split; [exact H3|]. split; [exact H4|]. split; [reflexivity|]. split; [exact H5|]. split; [exact H6|]. split; [exact H7|].
  split; [exact H8|]. split; [exact H9|]. split; [reflexivity|]. split; [destruct H10 as [[_ H]|[_ H]]; auto|].
  split; [rewrite H8; destruct (cs_dns cr); reflexivity|]. split; [apply trunc_le|].
  pose proof (trunc_le (now + issued_lifetime)). unfold issued_lifetime in *. lia.
Qed.

(** Every certificate that can be used by a client was asked for by the user it names. *)
Theorem client_certificates o ops e : In e (d_issued (s_disk (after o ops))) -> In ClientAuth (xc_usages (en_cert e)) ->
  exists i w sn now x claim, In (Issue i w sn now x) ops /\ w_claims w = Some claim /\ xc_emails (en_cert e) = [email_of claim] /\ xc_dns (en_cert e) = [].
Proof.
  revert e. refine (proj1 (db_inv_in o (fun d => forall e, In e (d_issued d) -> In ClientAuth (xc_usages (en_cert e)) ->
    exists i w sn now x claim, In (Issue i w sn now x) ops /\ w_claims w = Some claim /\ xc_emails (en_cert e) = [email_of claim] /\ xc_dns (en_cert e) = []) _ ops _)).
  - intros e [].
  - intros p d d' I G A e Ie U. destruct (grow_issued o p d d' G) as [[E _]|[(c & E & _ & S & O)|(i & sn & now & x & -> & _ & R)]].
    + rewrite E in Ie. auto.
    + rewrite E in Ie. apply in_app_iff in Ie as [Ie|[<-|[]]]; [auto|]. cbn [en_cert] in *.
      destruct O as [(_ & _ & N)|(i & w & now & x & cr & -> & R & Ec)]; [contradiction|].
      apply request_cert_inv in R as (claim & r & H1 & H2 & H3 & H4 & H5 & H6 & H7 & H8 & H9 & H10).
      exists i, w, (xc_serial c), now, x, claim. split; [exact I|]. split; [exact H1|]. rewrite Ec in U |- *. cbn [issued_cert xc_emails xc_dns xc_usages] in *.
      split; [exact H5|]. rewrite H8 in U. destruct (cs_dns cr); [reflexivity|]. destruct U as [U|[]]. discriminate.
    + apply revoke_first_spec in R as (a & e0 & b & Ed & Ed' & Es & _). rewrite Ed' in Ie. rewrite in_app_iff in Ie. cbn [In] in Ie.
      destruct Ie as [Ie|[<-|Ie]].
      * apply A; [rewrite Ed; apply in_or_app; auto|exact U].
      * cbn in *. apply A; [rewrite Ed; apply in_elt|exact U].
      * apply A; [rewrite Ed; apply in_or_app; right; right; exact Ie|exact U].
Qed.

(** Names do not overlap as long as addresses have no colon. *)
Lemma app_colon_inj (a b s t : str) : ~ In ":"%char a -> ~ In ":"%char b ->
  (s = [] \/ exists s', s = ":"%char :: s') -> (t = [] \/ exists t', t = ":"%char :: t') -> a ++ s = b ++ t -> a = b.
Proof.
  revert b. induction a as [|x a IH]; intros [|y b] Na Nb Hs Ht H.
  - reflexivity.
  - exfalso. cbn [app] in H. destruct Hs as [->|(s' & ->)]; [discriminate|]. injection H as <- _. apply Nb. left. reflexivity.
  - exfalso. cbn [app] in H. destruct Ht as [->|(t' & ->)]; [discriminate|]. injection H as -> _. apply Na. left. reflexivity.
  - cbn [app] in H. injection H as -> H. f_equal. apply IH; auto; intros I; [apply Na|apply Nb]; right; exact I.
Qed.
Theorem name_of_one_user o b1 i1 w1 sn1 t1 x1 c1 b2 i2 w2 sn2 t2 x2 c2 claim1 claim2 :
  answer o b1 (Issue i1 w1 sn1 t1 x1) = OCert c1 -> answer o b2 (Issue i2 w2 sn2 t2 x2) = OCert c2 ->
  w_claims w1 = Some claim1 -> w_claims w2 = Some claim2 -> ~ In ":"%char (email_of claim1) -> ~ In ":"%char (email_of claim2) ->
  xc_cn c1 = xc_cn c2 -> email_of claim1 = email_of claim2.
Proof.
  intros A1 A2 W1 W2 N1 N2 E.
  destruct (issued_identity _ _ _ _ _ _ _ _ A1) as (k1 & r1 & K1 & _ & _ & _ & _ & _ & _ & _ & _ & _ & _ & C1 & _).
  destruct (issued_identity _ _ _ _ _ _ _ _ A2) as (k2 & r2 & K2 & _ & _ & _ & _ & _ & _ & _ & _ & _ & _ & C2 & _).
  rewrite W1 in K1. injection K1 as <-. rewrite W2 in K2. injection K2 as <-.
  assert (S1 : exists s, xc_cn c1 = email_of claim1 ++ s /\ (s = [] \/ exists s', s = ":"%char :: s')).
  { destruct C1 as [-> | ->]; [exists []; rewrite app_nil_r; auto|]. exists (lit "::" ++ cs_cn r1). split; [reflexivity|]. right. eexists. reflexivity. }
  assert (S2 : exists s, xc_cn c2 = email_of claim2 ++ s /\ (s = [] \/ exists s', s = ":"%char :: s')).
  { destruct C2 as [-> | ->]; [exists []; rewrite app_nil_r; auto|]. exists (lit "::" ++ cs_cn r2). split; [reflexivity|]. right. eexists. reflexivity. }
  destruct S1 as (s1 & E1 & H1), S2 as (s2 & E2 & H2). rewrite E1, E2 in E. exact (app_colon_inj _ _ s1 s2 N1 N2 H1 H2 E).
Qed.

(** ** Who revokes *)
Lemma remove_one_In n m l : In n (remove_one m l) -> In n l.
Proof. induction l as [|k l IH]; cbn; [auto|]. destruct (m =? k)%N; [auto|]. intros [H|H]; auto. Qed.

Lemma step_pending o st p j m' sn : s_managers (fst (step o st p)) j = Some m' -> In sn (m_pending m') ->
  (exists m, s_managers st j = Some m /\ In sn (m_pending m)) \/ (exists w now, p = RevokeCheck j w now /\ snd (step o st p) = OAllowed sn).
Proof.
  intros H I.
  assert (F : forall st' m1, s_managers st' j = Some m' -> s_managers st' = (fun k => if Nat.eqb (manager_of p) k then m1 else s_managers st k) ->
    (exists m, s_managers st j = Some m /\ In sn (m_pending m)) \/ (j = manager_of p /\ m1 = Some m')).
  { intros st' m1 E E1. rewrite E1 in E. destruct (Nat.eqb_spec (manager_of p) j) as [->|]; [right; auto|left; eauto]. }
  destruct p; cbn [step manager_of] in *.
  - destruct x; try destruct (init_ca o key sn0 now (s_disk st)) as [d []];
      (destruct (F _ _ H eq_refl) as [K|(-> & K)]; [auto|]; try discriminate; injection K as <-; destruct I).
  - destruct (s_managers st i) as [m|] eqn:M; [|left; eauto]. destruct (request_cert w); [|left; eauto].
    destruct x; try (left; eauto; fail); (destruct (F _ _ H eq_refl) as [K|(-> & K)]; [auto|]; injection K as <-; left; eauto).
  - destruct (s_managers st i) as [m|] eqn:M; [|left; eauto].
    destruct x; try (left; eauto; fail); (destruct (F _ _ H eq_refl) as [K|(-> & K)]; [auto|]; injection K as <-; left; eauto).
  - destruct (s_managers st i) as [m|] eqn:M; [|left; eauto].
    destruct x; try (left; eauto; fail); destruct (cached_list now (s_disk st)); try destruct (d_delegates (s_disk st));
      (destruct (F _ _ H eq_refl) as [K|(-> & K)]; [auto|]; injection K as <-; left; eauto).
  - destruct (s_managers st i) as [m|] eqn:M; left; eauto.
  - destruct (s_managers st i) as [m|] eqn:M; left; eauto.
  - destruct (s_managers st i) as [m|] eqn:M; [|left; eauto].
    destruct (revoke_cert o w now (m_db m)) eqn:R; try (left; eauto; fail).
    destruct (F _ _ H eq_refl) as [K|(-> & K)]; [auto|]. injection K as <-. cbn in I. destruct I as [<-|I]; [|left; eauto].
    right. exists w, now. auto.
  - destruct (s_managers st i) as [m|] eqn:M; [|left; eauto]. destruct (negb _); [left; eauto|]. cbv zeta in H.
    destruct x; try destruct (revoke_first _ _ _);
      (destruct (F _ _ H eq_refl) as [K|(-> & K)]; [auto|]; injection K as <-; cbn in I; apply remove_one_In in I; left; eauto).
Qed.
Lemma pending_origin o ops j m sn : s_managers (after o ops) j = Some m -> In sn (m_pending m) ->
  exists a w now b, ops = a ++ RevokeCheck j w now :: b /\ answer o a (RevokeCheck j w now) = OAllowed sn.
Proof.
  revert m. induction ops as [|p ops IH] using rev_ind; intros m H I; [discriminate|].
  rewrite after_snoc in H. destruct (step_pending _ _ _ _ _ _ H I) as [(m0 & M0 & I0)|(w & now & -> & A)].
  - destruct (IH m0 M0 I0) as (a & w & now & b & -> & A). exists a, w, now, (b ++ [p]). rewrite <- app_assoc. auto.
  - exists ops, w, now, []. auto.
Qed.

(** Where a certificate comes from. *)
Definition issued_by (p : op) (c : xcert) : Prop :=
  match p with
  | Issue _ w sn now _ => exists cr, request_cert w = Some cr /\ c = issued_cert cr sn now
  | _ => xc_ca c = true /\ xc_emails c = []
  end.
Lemma cert_origin o ops :
  let P d := forall e, In e (d_issued d) -> exists p, In p ops /\ serials [p] = [xc_serial (en_cert e)] /\ issued_by p (en_cert e) in
  P (s_disk (after o ops)) /\ forall j m, s_managers (after o ops) j = Some m -> P (m_db m).
Proof.
  cbv zeta. refine (db_inv_in o (fun d => forall e, In e (d_issued d) -> exists p, In p ops /\ serials [p] = [xc_serial (en_cert e)] /\ issued_by p (en_cert e)) _ ops _).
  - intros e [].
  - intros p d d' I G A e Ie.
    assert (NR : forall i w now x cr sn c, p = Issue i w sn now x -> request_cert w = Some cr -> c = issued_cert cr sn now -> issued_by p c).
    { intros i w now x cr sn c -> R ->. cbn. eauto. }
    destruct (grow_issued o p d d' G) as [[E _]|[(c & E & _ & S & O)|(i & sn & now & x & -> & _ & R)]].
    + rewrite E in Ie. auto.
    + rewrite E in Ie. apply in_app_iff in Ie as [Ie|[<-|[]]]; [auto|]. cbn [en_cert]. exists p. split; [exact I|]. split; [exact S|].
      destruct O as [(C & M & U)|(i & w & now & x & cr & Ep & R & Ec)]; [|eapply NR; eassumption].
      destruct p; cbn in *; auto. exfalso. inversion G; subst. cbn in E. apply app_inv_head in E. apply (f_equal (map (fun e => xc_ca (en_cert e)))) in E. cbn in E. congruence.
    + apply revoke_first_spec in R as (a & e0 & b & Ed & Ed' & Es & _). rewrite Ed' in Ie. rewrite in_app_iff in Ie. cbn [In] in Ie.
      destruct Ie as [Ie|[<-|Ie]].
      * apply A. rewrite Ed. apply in_or_app. auto.
      * cbn. apply A. rewrite Ed. apply in_elt.
      * apply A. rewrite Ed. apply in_or_app. right. right. exact Ie.
Qed.
Lemma unique_serial ops p q n : NoDup (serials ops) -> In p ops -> In q ops -> serials [p] = [n] -> serials [q] = [n] -> p = q.
Proof.
  intros N Ip Iq Sp Sq. apply in_split in Ip as (a & b & ->).
  apply in_app_or in Iq. change (In q (p :: b)) with (p = q \/ In q b) in Iq.
  rewrite serials_app in N. change (p :: b) with ([p] ++ b) in N. rewrite serials_app, Sp in N. cbn [app] in N. apply NoDup_remove_2 in N.
  assert (K : forall l, In q l -> In n (serials l)).
  { intros l I. unfold serials. apply in_flat_map. exists q. split; [exact I|]. unfold serials in Sq. cbn [flat_map] in Sq. rewrite app_nil_r in Sq. rewrite Sq. left. reflexivity. }
  destruct Iq as [I|[E|I]]; [|exact E|]; exfalso; apply N; apply in_or_app; auto.
Qed.
(** On disk there is only what was handed out. *)
Lemma disk_origin o ops e : In e (d_issued (s_disk (after o ops))) ->
  (xc_ca (en_cert e) = true /\ xc_emails (en_cert e) = []) \/
  exists i w now x, In (Issue i w (xc_serial (en_cert e)) now x, OCert (en_cert e)) (outputs o ops).
Proof.
  revert e. induction ops as [|p ops IH] using rev_ind; intros e I; [destruct I|].
  assert (K : forall e, In e (d_issued (s_disk (after o ops))) -> (xc_ca (en_cert e) = true /\ xc_emails (en_cert e) = []) \/
     exists i w now x, In (Issue i w (xc_serial (en_cert e)) now x, OCert (en_cert e)) (outputs o (ops ++ [p]))).
  { intros e' I'. destruct (IH e' I') as [H|(i & w & now & x & H)]; [auto|]. right. exists i, w, now, x. rewrite outputs_snoc. apply in_or_app. auto. }
  rewrite after_snoc in I. destruct (step_disk o (after o ops) p) as [E|G]; [rewrite E in I; auto|].
  destruct (grow_issued _ _ _ _ G) as [[E _]|[(c & E & _ & S & O)|(i & sn & now & x & -> & _ & R)]].
  - rewrite E in I. auto.
  - rewrite E in I. apply in_app_iff in I as [I|[<-|[]]]; [auto|]. cbn [en_cert].
    destruct O as [(C & M & U)|(i & w & now & x & cr & -> & R & Ec)]; [auto|].
    right. exists i, w, now, x. rewrite outputs_snoc. apply in_or_app. right. left. f_equal. unfold answer.
    cbn [step] in *. destruct (s_managers (after o ops) i) as [m|].
    + rewrite R in *. destruct x; cbn [fst snd leave finish set_manager set_disk s_disk] in *; try (rewrite <- Ec; reflexivity);
        exfalso; apply (f_equal (@List.length entry)) in E; rewrite app_length in E; cbn in E; lia.
    + exfalso. cbn in E. apply (f_equal (@List.length entry)) in E. rewrite app_length in E. cbn in E. lia.
  - apply revoke_first_spec in R as (a & e0 & b & Ed & Ed' & Es & _). rewrite Ed' in I. rewrite in_app_iff in I. cbn [In] in I.
    destruct I as [I|[<-|I]].
    + apply K. rewrite Ed. apply in_or_app. auto.
    + cbn. apply K. rewrite Ed. apply in_elt.
    + apply K. rewrite Ed. apply in_or_app. right. right. exact I.
Qed.

Lemma revoke_cert_inv o w now d sn : revoke_cert o w now d = OAllowed sn ->
  exists claim e, w_claims w = Some claim /\ w_method w = lit "POST" /\ w_csrf w = lit "1" /\ In e (d_issued d) /\ xc_serial (en_cert e) = sn /\
    ((w_admin w <> [] /\ In (email_of claim) (o_admins o)) \/ In (email_of claim) (xc_emails (en_cert e))).
Proof.
  unfold revoke_cert. destruct (w_claims w) as [claim|]; [|discriminate]. cbv zeta.
  destruct (str_eqb (w_method w) (lit "POST")) eqn:M; cbn [negb]; [|discriminate]. destruct (str_eqb (w_csrf w) (lit "1")) eqn:C; cbn [negb]; [|discriminate].
  unfold find_cert. destruct (d_ca d); [|discriminate]. destruct (find_serial (w_sn w) (d_issued d)) as [e|] eqn:F; [|discriminate].
  destruct (en_rev e); [discriminate|]. destruct (_ <? now); [discriminate|].
  apply str_eqb_spec in M. apply str_eqb_spec in C. apply find_In in F as [I _].
  destruct (negb _ && negb _) eqn:B; [discriminate|]. intros [= <-]. exists claim, e. repeat split; auto.
  apply andb_false_iff in B as [B|B]; apply negb_false_iff in B; [left|right; apply mem_spec; exact B].
  destruct (w_admin w); [discriminate|]. split; [discriminate|]. apply mem_spec. exact B.
Qed.

Theorem revoke_authorised o before i sn t y :
  answer o before (Revoke i sn t y) = ODone -> NoDup (serials before) ->
  exists a w now b claim, before = a ++ RevokeCheck i w now :: b /\ answer o a (RevokeCheck i w now) = OAllowed sn /\
    w_claims w = Some claim /\ w_method w = lit "POST" /\ w_csrf w = lit "1" /\
    ((w_admin w <> [] /\ In (email_of claim) (o_admins o)) \/
     exists i' w' t' x' c, In (Issue i' w' sn t' x', OCert c) (outputs o before) /\ In (email_of claim) (xc_emails c)).
Proof.
  intros A ND. pose proof A as A0. unfold answer in A. cbn [step] in A. destruct (s_managers (after o before) i) as [m|] eqn:M; [|discriminate].
  destruct (existsb (N.eqb sn) (m_pending m)) eqn:Ex; cbn [negb] in A; [|discriminate].
  apply existsb_exists in Ex as (n & In' & En). apply N.eqb_eq in En as <-.
  destruct (pending_origin _ _ _ _ _ M In') as (a & w & now & b & Eb & Aw). exists a, w, now, b.
  pose proof Aw as Aw0. unfold answer in Aw. cbn [step] in Aw. destruct (s_managers (after o a) i) as [ma|] eqn:Ma; [|discriminate].
  assert (Rc : revoke_cert o w now (m_db ma) = OAllowed sn) by (destruct (revoke_cert o w now (m_db ma)); cbn in Aw; congruence).
  apply revoke_cert_inv in Rc as (claim & e & H1 & H2 & H3 & Ie & Se & H4). exists claim. repeat split; auto.
  destruct H4 as [H4|H4]; [left; exact H4|right].
  destruct (revoke_answer _ _ _ _ _ _ A0) as (_ & _ & _ & _ & R). apply revoke_first_spec in R as (p & ed & q & Ed & _ & Es & _).
  assert (Id : In ed (d_issued (s_disk (after o before)))) by (rewrite Ed; apply in_elt).
  assert (Sd : xc_serial (en_cert ed) = sn). { rewrite (serial_all _ _ _ Id) in Es. apply serial_hex_inj. exact Es. }
  destruct (proj1 (cert_origin o before) ed Id) as (pd & Ipd & Spd & Bd).
  destruct (proj2 (cert_origin o a) i ma Ma e Ie) as (pe & Ipe & Spe & Be).
  assert (pe = pd). { eapply unique_serial; [exact ND|rewrite Eb; apply in_or_app; left; exact Ipe|exact Ipd|rewrite Spe, Se; reflexivity|rewrite Spd, Sd; reflexivity]. }
  subst pe.
  assert (Ec : xc_emails (en_cert e) = xc_emails (en_cert ed)).
  { destruct pd; cbn in Bd, Be; try (destruct Bd as [_ ->], Be as [_ ->]; reflexivity).
    destruct Bd as (cr & R & ->), Be as (cr' & R' & ->). rewrite R in R'. injection R' as <-. reflexivity. }
  rewrite Ec in H4. destruct (disk_origin _ _ _ Id) as [[_ N]|(i' & w' & t' & x' & I)].
  - rewrite N in H4. destruct H4.
  - rewrite Sd in I. exists i', w', t', x', (en_cert ed). auto.
Qed.

(** ** No panic when the store works *)
Definition settled (st : state) : Prop := forall j m, s_managers st j = Some m -> d_delegates (m_db m) <> [] -> d_delegates (s_disk st) <> [].
Lemma grow_delegates o p d d' : grow o p d d' -> d_delegates d <> [] -> d_delegates d' <> [].
Proof.
  intros G A. destruct G as [i key sn now x d d' I|i w sn now x cr d R|i key sn now x d|i now x d signer rest C D|i sn now x d l R]; try exact A.
  - unfold init_ca in I. destruct (d_key d), (d_ca d) as [c|]; try destruct (half_life_passed c now); injection I as <-; exact A.
  - cbn. discriminate.
Qed.
Lemma working_disk o st p m' : works p -> s_managers (fst (step o st p)) (manager_of p) = Some m' ->
  m_db m' = s_disk (fst (step o st p)) \/ (exists m, s_managers st (manager_of p) = Some m /\ m_db m' = m_db m).
Proof.
  destruct p; cbn [works manager_of]; first [intros -> | intros _]; cbn [step].
  - destruct (init_ca o key sn now (s_disk st)) as [d []] eqn:I; cbn; rewrite Nat.eqb_refl; intros [= <-]; cbn; auto.
    apply init_ca_same in I as [-> _]. auto.
  - destruct (s_managers st i) as [m|] eqn:M; [|cbn; congruence]. destruct (request_cert w); cbn; rewrite ?Nat.eqb_refl.
    + intros [= <-]. auto.
    + intros H. rewrite M in H. injection H as <-. right. eauto.
  - destruct (s_managers st i) as [m|] eqn:M; [|cbn; congruence]. cbn. rewrite Nat.eqb_refl. intros [= <-]. auto.
  - destruct (s_managers st i) as [m|] eqn:M; [|cbn; congruence].
    destruct (cached_list now (s_disk st)); [|destruct (d_delegates (s_disk st))]; cbn; rewrite Nat.eqb_refl; intros [= <-]; auto.
  - destruct (s_managers st i) as [m|] eqn:M; cbn; intros H; [right; exists m; split; [reflexivity|congruence]|congruence].
  - destruct (s_managers st i) as [m|] eqn:M; cbn; intros H; [right; exists m; split; [reflexivity|congruence]|congruence].
  - destruct (s_managers st i) as [m|] eqn:M; [|cbn; congruence].
    destruct (revoke_cert o w now (m_db m)); cbn; rewrite ?Nat.eqb_refl; intros H; try (rewrite M in H); injection H as <-; right; exists m; split; reflexivity.
  - destruct (s_managers st i) as [m|] eqn:M; [|cbn; congruence]. destruct (negb _); [cbn; intros H; rewrite M in H; injection H as <-; right; exists m; split; reflexivity|]. cbv zeta.
    destruct (revoke_first _ _ _); cbn; rewrite Nat.eqb_refl; intros [= <-]; auto.
Qed.
Lemma settled_all o ops : Forall works ops -> settled (after o ops).
Proof.
  induction ops as [|p ops IH] using rev_ind; intros W; [intros j m H; discriminate|].
  apply Forall_app in W as [W Wp]. inversion Wp as [|? ? Wp1 _]; subst. specialize (IH W). rewrite after_snoc. intros j m H D.
  assert (K : d_delegates (s_disk (after o ops)) <> [] -> d_delegates (s_disk (fst (step o (after o ops) p))) <> []).
  { intros N. destruct (step_disk o (after o ops) p) as [->|G]; [exact N|]. eapply grow_delegates; eassumption. }
  destruct (step_mem o (after o ops) p j) as [E|(m' & E & C)]; [congruence|]. rewrite E in H. injection H as <-.
  destruct C as [(m0 & M0 & E0)|(-> & T)].
  - rewrite E0 in D. apply K. eapply IH; eassumption.
  - destruct (working_disk o _ p m' Wp1 E) as [<-|(m0 & M0 & E0)]; [exact D|]. rewrite E0 in D. apply K. eapply IH; eassumption.
Qed.

Theorem fetch_never_panics o ops i key sn now :
  Forall works ops ->
  snd (fetch_list o i key sn now Works Works (after o ops)) <> OPanic /\
  forall rq, snd (fetch_ocsp o i key sn rq now Works (after o ops)) <> OPanic.
Proof.
  intros W. pose proof (settled_all o ops W) as S. split.
  - unfold fetch_list. destruct (s_managers (after o ops) i) as [m|] eqn:M; [|discriminate].
    destruct (delegate_due now (m_db m)) eqn:D.
    + cbn [step]. rewrite M. cbn [finish].
      cbn [set_disk set_manager s_managers s_disk]. rewrite Nat.eqb_refl.
      destruct (cached_list _ _); [discriminate|]. discriminate.
    + cbn [step]. rewrite M. destruct (cached_list now (s_disk (after o ops))); [discriminate|].
      destruct (d_delegates (s_disk (after o ops))) eqn:E; [|discriminate]. exfalso.
      apply (S i m M); [|exact E]. unfold delegate_due in D. destruct (d_delegates (m_db m)); discriminate.
  - intros rq. unfold fetch_ocsp. destruct (s_managers (after o ops) i) as [m|] eqn:M; [|discriminate].
    destruct (rq_hash rq) as [h|] eqn:H; [|discriminate].
    assert (R : forall d, d_ca d <> None -> d_delegates d <> [] -> ocsp_response rq now d <> OPanic).
    { intros d C D. unfold ocsp_response. rewrite H. destruct (d_ca d) as [c|]; [|congruence]. destruct (d_delegates d); [congruence|].
      destruct (negb _ || negb _); [discriminate|]. destruct (find_serial _ _) as [e|]; [|discriminate]. destruct (en_rev e); discriminate. }
    destruct (ca_all _ _ _ _ M) as (k & c & K & C & _).
    destruct (delegate_due now (m_db m)) eqn:D.
    + cbn [step]. rewrite M. cbn [finish]. cbn [set_disk set_manager s_managers s_disk]. rewrite Nat.eqb_refl. cbn [snd m_db].
      apply R; [|discriminate]. cbn. pose proof (proj1 (both_all o ops)) as B. rewrite K in B. apply (proj1 B). discriminate.
    + cbn [step]. rewrite M. cbn [snd]. apply R; [congruence|]. unfold delegate_due in D. destruct (d_delegates (m_db m)); discriminate.
Qed.
