(** Proofs about the certificate authority: revocation. *)
From Verif Require Import Base PkiModel PkiSpec PkiProofs.
Open Scope Z_scope.

Lemma find_app h l l' : find_serial h (l ++ l') = match find_serial h l with Some e => Some e | None => find_serial h l' end.
Proof. unfold find_serial. induction l as [|e l IH]; cbn; [reflexivity|]. destruct (str_eqb (en_serial e) h); auto. Qed.
Lemma find_one h e : find_serial h [e] = if str_eqb (en_serial e) h then Some e else None.
Proof. reflexivity. Qed.
Lemma find_In h l e : find_serial h l = Some e -> In e l /\ en_serial e = h.
Proof. intros H. apply find_some in H as [I E]. apply str_eqb_spec in E. auto. Qed.

Lemma revoke_first_spec h r : forall l l', revoke_first h r l = Some l' ->
  exists a e b, l = a ++ e :: b /\ l' = a ++ {| en_serial := en_serial e; en_cert := en_cert e; en_rev := Some r |} :: b /\
    en_serial e = h /\ (forall x, In x a -> en_serial x <> h).
Proof.
  induction l as [|e l IH]; intros l' H; cbn in H; [discriminate|].
  destruct (str_eqb (en_serial e) h) eqn:E.
  - injection H as <-. apply str_eqb_spec in E. exists [], e, l. repeat split; auto; intros x [].
  - destruct (revoke_first h r l) as [l1|] eqn:R; [|discriminate]. cbn in H. injection H as <-.
    destruct (IH l1 eq_refl) as (a & e' & b & -> & -> & E' & A). exists (e :: a), e', b. repeat split; auto.
    intros x [<-|I]; [apply str_eqb_neq in E; exact E|exact (A x I)].
Qed.
Lemma find_none_pre h a : (forall x, In x a -> en_serial x <> h) -> find_serial h a = None.
Proof.
  induction a as [|x a IH]; intros H; [reflexivity|]. unfold find_serial in *. cbn.
  replace (str_eqb (en_serial x) h) with false; [apply IH; intros; apply H; right; assumption|].
  symmetry. apply str_eqb_neq. apply H. left. reflexivity.
Qed.
Lemma revoke_first_find h r l l' g : revoke_first h r l = Some l' ->
  find_serial g l' = if str_eqb h g then option_map (fun e => {| en_serial := en_serial e; en_cert := en_cert e; en_rev := Some r |}) (find_serial g l)
                     else find_serial g l.
Proof.
  intros H. apply revoke_first_spec in H as (a & e & b & -> & -> & <- & A). rewrite !find_app.
  destruct (str_eqb (en_serial e) g) eqn:E.
  - apply str_eqb_spec in E as <-. rewrite (find_none_pre _ a A). unfold find_serial. cbn. rewrite str_eqb_refl. reflexivity.
  - destruct (find_serial g a); [reflexivity|]. unfold find_serial. cbn. rewrite E. reflexivity.
Qed.
Lemma revoke_first_None h r l : revoke_first h r l = None -> find_serial h l = None.
Proof.
  induction l as [|e l IH]; cbn; intros H; [reflexivity|]. unfold find_serial in *. cbn. destruct (str_eqb (en_serial e) h); [discriminate|].
  destruct (revoke_first h r l); [discriminate|]. auto.
Qed.

(** ** What is known of a serial number *)
Definition known (h : str) (d : db) : Prop := find_serial h (d_issued d) <> None.
Definition flagged (h : str) (d : db) : Prop := exists e r, find_serial h (d_issued d) = Some e /\ en_rev e = Some r.

(** How the list of issued certificates changes. *)
Lemma grow_issued o p d d' : grow o p d d' ->
  (d_issued d' = d_issued d /\ d_revoked d' = d_revoked d) \/
  (exists c, d_issued d' = d_issued d ++ [{| en_serial := serial_hex (xc_serial c); en_cert := c; en_rev := None |}] /\ d_revoked d' = d_revoked d /\
     serials [p] = [xc_serial c] /\
     ((xc_ca c = true /\ xc_emails c = [] /\ ~ In ClientAuth (xc_usages c)) \/
      exists i w now x cr, p = Issue i w (xc_serial c) now x /\ request_cert w = Some cr /\ c = issued_cert cr (xc_serial c) now)) \/
  (exists i sn now x, p = Revoke i sn now x /\ d_revoked d' = serial_hex sn :: d_revoked d /\
     revoke_first (serial_hex sn) {| rv_time := trunc now; rv_reason := 0 |} (d_issued d) = Some (d_issued d')).
Proof.
  intros G. destruct G as [i key sn now x d d' I|i w sn now x cr d R|i key sn now x d|i now x d signer rest C D|i sn now x d l R]; cbn.
  - unfold init_ca in I. destruct (d_key d), (d_ca d) as [c|] eqn:C; try destruct (half_life_passed c now); injection I as <-; try discriminate; cbn [d_issued d_revoked]; auto.
    all: match goal with |- context [ca_cert ?a ?k ?b ?e] => right; left; exists (ca_cert a k b e) end; split; [reflexivity|]; split; [reflexivity|]; split; [reflexivity|]; left; repeat split; intros [].
  - right. left. exists (issued_cert cr sn now). cbn. repeat split. right. exists i, w, now, x, cr. auto.
  - right. left. exists (delegate_cert o key sn now). cbn. repeat split. left. repeat split; auto. intros [H|[]]. discriminate.
  - left. auto.
  - right. right. exists i, sn, now, x. auto.
Qed.

Lemma grow_known o h p d d' : grow o p d d' -> known h d -> known h d'.
Proof.
  unfold known. intros G K. destruct (grow_issued o p d d' G) as [[-> _]|[(c & -> & _)|(i & sn & now & x & _ & _ & R)]]; [exact K| |].
  - rewrite find_app. destruct (find_serial h (d_issued d)); congruence.
  - rewrite (revoke_first_find _ _ _ _ h R). destruct (str_eqb _ h); [|exact K]. destruct (find_serial h (d_issued d)); [discriminate|congruence].
Qed.
Lemma grow_flagged o h p d d' : grow o p d d' -> flagged h d -> flagged h d'.
Proof.
  unfold flagged. intros G (e & r & F & E). destruct (grow_issued o p d d' G) as [[-> _]|[(c & -> & _)|(i & sn & now & x & _ & _ & R)]]; [eauto| |].
  - rewrite find_app, F. eauto.
  - rewrite (revoke_first_find _ _ _ _ h R). destruct (str_eqb _ h); rewrite F; [|eauto]. eexists. eexists. split; reflexivity.
Qed.
(** The certificate with a serial number does not change. *)
Definition has_cert (h : str) (c : xcert) (d : db) : Prop := exists e, find_serial h (d_issued d) = Some e /\ en_cert e = c.
Lemma grow_has_cert o h c p d d' : grow o p d d' -> has_cert h c d -> has_cert h c d'.
Proof.
  unfold has_cert. intros G (e & F & E). destruct (grow_issued o p d d' G) as [[-> _]|[(c' & -> & _)|(i & sn & now & x & _ & _ & R)]]; [eauto| |].
  - rewrite find_app, F. eauto.
  - rewrite (revoke_first_find _ _ _ _ h R). destruct (str_eqb _ h); rewrite F; [|eauto]. eexists. split; [reflexivity|exact E].
Qed.

(** The set of revoked serial numbers agrees with the list of certificates. *)
Definition agrees (d : db) : Prop := forall h, In h (d_revoked d) <-> flagged h d.
Lemma grow_agrees o p d d' : grow o p d d' -> agrees d -> agrees d'.
Proof.
  unfold agrees. intros G A h. destruct (grow_issued o p d d' G) as [[I V]|[(c & I & V & _)|(i & sn & now & x & _ & V & R)]]; rewrite V.
  - unfold flagged. rewrite I. apply A.
  - rewrite A. unfold flagged. rewrite I. rewrite find_app. split.
    + intros (e & r & F & E). rewrite F. eauto.
    + intros (e & r & F & E). destruct (find_serial h (d_issued d)) as [e0|]; [injection F as <-; eauto|].
      rewrite find_one in F. destruct (str_eqb _ h); [|discriminate]. injection F as <-. discriminate.
  - cbn [In]. rewrite A. unfold flagged. rewrite (revoke_first_find _ _ _ _ h R).
    destruct (str_eqb (serial_hex sn) h) eqn:E.
    + apply str_eqb_spec in E. subst h. split; [intros _|auto].
      apply revoke_first_spec in R as (a & e & b & I & _ & Es & N).
      rewrite I, find_app, (find_none_pre _ a N). unfold find_serial. cbn. rewrite Es, str_eqb_refl. cbn. eexists. eexists. split; reflexivity.
    + apply str_eqb_neq in E. split; [intros [H|H]; [contradiction|exact H]|auto].
Qed.
Lemma agrees_all o ops : agrees (s_disk (after o ops)) /\ forall j m, s_managers (after o ops) j = Some m -> agrees (m_db m).
Proof.
  apply db_inv; [|apply grow_agrees]. intros h. split; [intros []|intros (e & r & F & _); discriminate].
Qed.

(** The name and key of the authority. *)
Definition ca_ok (o : opts) (d : db) : Prop := forall c, d_ca d = Some c -> d_key d = Some (xc_pub c) /\ xc_cn c = o_name o.
Lemma grow_ca_ok o p d d' : grow o p d d' -> ca_ok o d -> ca_ok o d'.
Proof.
  intros G A. destruct G as [i key sn now x d d' I|i w sn now x cr d R|i key sn now x d|i now x d signer rest C D|i sn now x d l R]; try exact A.
  unfold init_ca in I. destruct (d_key d) eqn:K, (d_ca d) as [c|] eqn:C; try destruct (half_life_passed c now); injection I as <-; try discriminate;
    intros c' H; cbn in *; try (injection H as <-; cbn; auto); try congruence.
  exfalso. destruct (A c C) as [A1 _]. congruence.
Qed.
Definition has_key (k : str) (d : db) : Prop := d_key d = Some k.
Lemma grow_has_key o k p d d' : grow o p d d' -> has_key k d -> has_key k d'.
Proof.
  unfold has_key. intros G A. destruct G as [i key sn now x d d' I|i w sn now x cr d R|i key sn now x d|i now x d signer rest C D|i sn now x d l R]; try exact A.
  unfold init_ca in I. rewrite A in I. destruct (d_ca d) as [c|] eqn:C; try destruct (half_life_passed c now); injection I as <-; try discriminate; reflexivity.
Qed.

(** A manager runs only when there is a key, the same for all. *)
Lemma step_start o st i key sn now x m :
  s_managers (fst (step o st (Start i key sn now x))) i = Some m ->
  s_disk (fst (step o st (Start i key sn now x))) = m_db m /\ d_key (m_db m) <> None /\ d_ca (m_db m) <> None.
Proof.
  cbn [step]. destruct x; cbn; rewrite ?Nat.eqb_refl; try discriminate; destruct (init_ca o key sn now (s_disk st)) as [d []] eqn:I; cbn; rewrite ?Nat.eqb_refl; try discriminate.
  - intros [= <-]. cbn. apply init_ca_ca in I. tauto.
  - intros [= <-]. cbn. apply init_ca_same in I as (-> & K & C). auto.
  - intros [= <-]. cbn. apply init_ca_same in I as (-> & K & C). auto.
Qed.
Lemma step_running o st p m :
  s_managers (fst (step o st p)) (manager_of p) = Some m -> s_managers st (manager_of p) = None -> exists i key sn now x, p = Start i key sn now x.
Proof.
  intros H N. destruct p; cbn [step manager_of] in *; try (rewrite N in H; cbn in H; congruence). eauto 6.
Qed.
Lemma both_all o ops :
  let P d := d_key d <> None <-> d_ca d <> None in
  P (s_disk (after o ops)) /\ forall j m, s_managers (after o ops) j = Some m -> P (m_db m).
Proof.
  cbv zeta. apply db_inv; [cbn; tauto|]. intros p d d' G A.
  destruct G as [i key sn now x d d' I|i w sn now x cr d R|i key sn now x d|i now x d signer rest C0 D|i sn now x d l R]; try exact A.
  apply init_ca_ca in I. tauto.
Qed.
Lemma key_all o ops j m : s_managers (after o ops) j = Some m ->
  exists k, d_key (s_disk (after o ops)) = Some k /\ d_key (m_db m) = Some k.
Proof.
  revert j m. induction ops as [|p ops IH] using rev_ind; intros j m H; [discriminate|].
  rewrite after_snoc in *.
  destruct (step_mem o (after o ops) p j) as [E|(m' & E & C)]; [congruence|].
  rewrite E in H. injection H as <-.
  assert (KD : forall k, d_key (s_disk (after o ops)) = Some k -> d_key (s_disk (fst (step o (after o ops) p))) = Some k).
  { intros k K. destruct (step_disk o (after o ops) p) as [->|G]; [exact K|]. eapply grow_has_key; eassumption. }
  destruct C as [(m0 & M0 & ->)|(-> & T)].
  - destruct (IH j m0 M0) as (k & K1 & K2). exists k. auto.
  - destruct (s_managers (after o ops) (manager_of p)) as [m0|] eqn:M0.
    + destruct (IH _ m0 M0) as (k & K1 & K2). exists k. split; [auto|].
      destruct T as [->|G]; [exact K1|]. eapply grow_has_key; eassumption.
    + destruct (step_running _ _ _ _ E M0) as (i & key & sn & now & x & ->). cbn [manager_of] in *.
      destruct (step_start _ _ _ _ _ _ _ _ E) as (-> & K & _). destruct (d_key (m_db m')) as [k|]; [|congruence]. eauto.
Qed.
Lemma ca_all o ops j m : s_managers (after o ops) j = Some m ->
  exists k c, d_key (s_disk (after o ops)) = Some k /\ d_ca (m_db m) = Some c /\ xc_pub c = k /\ xc_cn c = o_name o.
Proof.
  intros H. destruct (key_all _ _ _ _ H) as (k & K1 & K2).
  destruct (both_all o ops) as [_ B]. specialize (B j m H).
  destruct (d_ca (m_db m)) as [c|] eqn:C; [|exfalso; rewrite K2 in B; exact (proj1 B ltac:(discriminate) eq_refl)].
  assert (A : ca_ok o (m_db m)). { refine (proj2 (db_inv o (ca_ok o) _ (grow_ca_ok o) ops) j m H). intros c' H'. discriminate. }
  destruct (A c C) as [A1 A2]. exists k, c. repeat split; auto. congruence.
Qed.

(** ** Revoked for ever *)
Lemma revoke_answer o st i sn now x :
  snd (step o st (Revoke i sn now x)) = ODone ->
  let st' := fst (step o st (Revoke i sn now x)) in
  exists m, s_managers st' i = Some m /\ m_db m = s_disk st' /\ In (serial_hex sn) (d_revoked (s_disk st')) /\
    revoke_first (serial_hex sn) {| rv_time := trunc now; rv_reason := 0 |} (d_issued (s_disk st)) = Some (d_issued (s_disk st')).
Proof.
  cbv zeta. cbn [step]. destruct (s_managers st i) as [m|]; [|cbn; discriminate]. destruct (negb _); [cbn; discriminate|]. cbv zeta.
  destruct x; try (cbn; discriminate); destruct (revoke_first _ _ _) eqn:R; try (cbn; discriminate); intros _; cbn; rewrite Nat.eqb_refl;
    eexists; (split; [reflexivity|]); (split; [reflexivity|]); (split; [left; reflexivity|]); reflexivity.
Qed.

Lemma ocsp_about o ops j m rq now k sn :
  s_managers (after o ops) j = Some m -> d_key (s_disk (after o ops)) = Some k -> about (o_name o) k sn rq ->
  ocsp_response rq now (m_db m) =
    match d_delegates (m_db m) with
    | [] => OPanic
    | _ => match find_serial (serial_hex sn) (d_issued (m_db m)) with
           | None => OStatus Revoked sn (Some {| rv_time := now; rv_reason := 6 |})
           | Some e => match en_rev e with Some r => OStatus Revoked sn (Some r) | None => OStatus Good sn None end
           end
    end.
Proof.
  intros M K (S & h & H & Hn & Hk). destruct (ca_all _ _ _ _ M) as (k' & c & K' & C & P & N). rewrite K in K'. injection K' as <-.
  unfold ocsp_response. rewrite H, C, Hn, Hk, N, P, !str_eqb_refl, S. reflexivity.
Qed.

Theorem revoked_for_ever o before i sn now x between j :
  answer o before (Revoke i sn now x) = ODone ->
  j = i \/ starts j between ->
  let ops := before ++ Revoke i sn now x :: between in
  (forall b, answer o ops (AskRevoked j sn) = OBool b -> b = true) /\
  (forall k rq t s n r, d_key (s_disk (after o ops)) = Some k -> about (o_name o) k sn rq -> answer o ops (AskOCSP j rq t) = OStatus s n r -> s = Revoked).
Proof.
  intros A J ops.
  assert (F : forall m, s_managers (after o ops) j = Some m -> flagged (serial_hex sn) (m_db m)).
  { destruct (revoke_answer _ _ _ _ _ _ A) as (m0 & M0 & D0 & R0 & _).
    assert (FD : flagged (serial_hex sn) (s_disk (after o (before ++ [Revoke i sn now x])))).
    { apply (proj1 (agrees_all o _)). rewrite after_snoc. exact R0. }
    assert (E : ops = (before ++ [Revoke i sn now x]) ++ between) by (unfold ops; rewrite <- app_assoc; reflexivity).
    destruct J as [->|(key & n & t & y & I)].
    - rewrite E. destruct (db_from o (flagged (serial_hex sn)) (grow_flagged o _) (before ++ [Revoke i sn now x]) between FD) as [_ G].
      apply G. intros m M. rewrite after_snoc in M. rewrite M0 in M. injection M as <-. rewrite D0. rewrite after_snoc in FD. exact FD.
    - apply in_split in I as (l1 & l2 & ->). rewrite E.
      replace ((before ++ [Revoke i sn now x]) ++ l1 ++ Start j key n t y :: l2) with (((before ++ [Revoke i sn now x]) ++ l1 ++ [Start j key n t y]) ++ l2)
        by (rewrite <- !app_assoc; reflexivity).
      destruct (db_from o (flagged (serial_hex sn)) (grow_flagged o _) (before ++ [Revoke i sn now x]) (l1 ++ [Start j key n t y]) FD) as [FD2 _].
      destruct (db_from o (flagged (serial_hex sn)) (grow_flagged o _) _ l2 FD2) as [_ G]. apply G.
      intros m M. rewrite app_assoc in M, FD2. rewrite after_snoc in M, FD2.
      destruct (step_start _ _ _ _ _ _ _ _ M) as [Ed _]. rewrite <- Ed. exact FD2. }
  split.
  - unfold answer. cbn [step]. destruct (s_managers (after o ops) j) as [m|] eqn:M; [|discriminate]. cbn [snd]. intros b [= <-].
    apply mem_spec. apply (proj2 (agrees_all o ops) j m M). auto.
  - intros k rq t s n r K Ab. unfold answer. cbn [step]. destruct (s_managers (after o ops) j) as [m|] eqn:M; [|discriminate]. cbn [snd].
    rewrite (ocsp_about o ops j m rq t k sn M K Ab). destruct (F m eq_refl) as (e & r0 & Fe & Er). rewrite Fe, Er.
    destruct (d_delegates (m_db m)); [discriminate|]. intros [= <- _ _]. reflexivity.
Qed.

(** ** Never revoked *)
Lemma issue_answer o st i w sn now x c :
  snd (step o st (Issue i w sn now x)) = OCert c ->
  let st' := fst (step o st (Issue i w sn now x)) in
  exists m cr, s_managers st' i = Some m /\ m_db m = s_disk st' /\ s_disk st' = add_cert c (s_disk st) /\ request_cert w = Some cr /\ c = issued_cert cr sn now.
Proof.
  cbv zeta. cbn [step]. destruct (s_managers st i) as [m|]; [|cbn; discriminate]. destruct (request_cert w) as [cr|]; [|cbn; discriminate].
  destruct x; try (cbn; discriminate); cbn; rewrite Nat.eqb_refl. intros [= <-]. eexists. exists cr. repeat split; reflexivity.
Qed.

Theorem good_unless_revoked o before i w sn now x between c :
  answer o before (Issue i w sn now x) = OCert c ->
  let ops := before ++ Issue i w sn now x :: between in
  (forall j n t y, In (Revoke j n t y) ops -> n <> sn) ->
  (forall j b, answer o ops (AskRevoked j sn) = OBool b -> b = false) /\
  (forall j k rq t s n r, j = i \/ starts j between -> d_key (s_disk (after o ops)) = Some k -> about (o_name o) k sn rq ->
     answer o ops (AskOCSP j rq t) = OStatus s n r -> s = Good).
Proof.
  intros A ops NR.
  assert (NF : forall j m, s_managers (after o ops) j = Some m -> ~ In (serial_hex sn) (d_revoked (m_db m))).
  { apply (db_inv_in o (fun d => ~ In (serial_hex sn) (d_revoked d))); [intros []|].
    intros p d d' I G N. destruct (grow_issued o p d d' G) as [[_ ->]|[(c' & _ & -> & _)|(j & n & t & y & -> & -> & _)]]; auto.
    intros [H|H]; [|auto]. apply serial_hex_inj in H. apply (NR _ _ _ _ I). exact H. }
  assert (F : forall j m, j = i \/ starts j between -> s_managers (after o ops) j = Some m -> known (serial_hex sn) (m_db m)).
  { destruct (issue_answer _ _ _ _ _ _ _ _ A) as (m0 & cr & M0 & D0 & R0 & _ & Ec).
    assert (FD : known (serial_hex sn) (s_disk (after o (before ++ [Issue i w sn now x])))).
    { rewrite after_snoc, R0. unfold known, add_cert. cbn [d_issued]. rewrite find_app. destruct (find_serial _ _); [discriminate|].
      rewrite find_one. cbn. rewrite Ec. cbn. rewrite str_eqb_refl. discriminate. }
    assert (E : ops = (before ++ [Issue i w sn now x]) ++ between) by (unfold ops; rewrite <- app_assoc; reflexivity).
    intros j m J. revert m. rewrite E. destruct J as [->|(key & n & t & y & I)].
    - destruct (db_from o (known (serial_hex sn)) (grow_known o _) (before ++ [Issue i w sn now x]) between FD) as [_ G].
      apply G. intros m M. rewrite after_snoc in M. rewrite M0 in M. injection M as <-. rewrite D0. rewrite after_snoc in FD. exact FD.
    - apply in_split in I as (l1 & l2 & ->).
      replace ((before ++ [Issue i w sn now x]) ++ l1 ++ Start j key n t y :: l2) with (((before ++ [Issue i w sn now x]) ++ l1 ++ [Start j key n t y]) ++ l2)
        by (rewrite <- !app_assoc; reflexivity).
      destruct (db_from o (known (serial_hex sn)) (grow_known o _) (before ++ [Issue i w sn now x]) (l1 ++ [Start j key n t y]) FD) as [FD2 _].
      destruct (db_from o (known (serial_hex sn)) (grow_known o _) _ l2 FD2) as [_ G]. apply G.
      intros m M. rewrite app_assoc in M, FD2. rewrite after_snoc in M, FD2.
      destruct (step_start _ _ _ _ _ _ _ _ M) as [Ed _]. rewrite <- Ed. exact FD2. }
  split.
  - intros j b. unfold answer. cbn [step]. destruct (s_managers (after o ops) j) as [m|] eqn:M; [|discriminate]. cbn [snd]. intros [= <-].
    apply mem_false. eapply NF; eassumption.
  - intros j k rq t s n r J K Ab. unfold answer. cbn [step]. destruct (s_managers (after o ops) j) as [m|] eqn:M; [|discriminate]. cbn [snd].
    rewrite (ocsp_about o ops j m rq t k sn M K Ab). specialize (F j m J M). unfold known in F.
    destruct (find_serial (serial_hex sn) (d_issued (m_db m))) as [e|] eqn:Fe; [|congruence].
    destruct (en_rev e) as [r0|] eqn:Er.
    + exfalso. apply (NF j m M). apply (proj2 (agrees_all o ops) j m M). exists e, r0. auto.
    + destruct (d_delegates (m_db m)); [discriminate|]. intros [= <- _ _]. reflexivity.
Qed.
