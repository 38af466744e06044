(** Proofs about the certificate authority: revocation lists. *)
From Verif Require Import Base PkiModel PkiSpec PkiProofs PkiProofs2.
Open Scope Z_scope.

Lemma trunc_mono a b : a <= b -> trunc a <= trunc b.
Proof. intros H. unfold trunc, second. assert (a / 1000000000 <= b / 1000000000) by (apply Z.div_le_mono; lia). lia. Qed.
Lemma trunc_le a : trunc a <= a.
Proof. unfold trunc, second. pose proof (Z.mul_div_le a 1000000000). lia. Qed.
Lemma trunc_near a : a < trunc a + second.
Proof. unfold trunc, second. pose proof (Z.mul_succ_div_gt a 1000000000). lia. Qed.
Lemma second_of_trunc a : second_of (trunc a) = second_of a.
Proof. unfold second_of, trunc, second. apply Z.div_mul. lia. Qed.
Lemma trunc_second a b : trunc a = trunc b -> second_of a = second_of b.
Proof. intros H. rewrite <- (second_of_trunc a), H. apply second_of_trunc. Qed.

(** ** The last list *)
Lemma last_snoc {A} (l : list A) x : last (map Some (l ++ [x])) None = Some x.
Proof. rewrite map_app. cbn [map]. apply last_last. Qed.
Lemma skipn_snoc {A} n (l : list A) x : (n <= List.length l)%nat -> skipn n (l ++ [x]) = skipn n l ++ [x].
Proof.
  intros H. rewrite skipn_app. replace (n - List.length l)%nat with 0%nat by lia. reflexivity.
Qed.
Lemma last_add l d : last_list (add_list l d) = Some l.
Proof.
  unfold last_list, add_list. cbv zeta. cbn [d_lists]. rewrite skipn_snoc.
  - apply last_snoc.
  - rewrite app_length. unfold max_crl. cbn [List.length]. lia.
Qed.
Lemma grow_lists o p d d' : grow o p d d' ->
  (d_number d' = d_number d /\ d_lists d' = d_lists d) \/
  exists i now x signer rest, p = GetList i now x /\ d_delegates d = signer :: rest /\ cached_list now d = None /\ d' = add_list (new_list now signer d) d.
Proof.
  intros G. destruct G as [i key sn now x d d' I|i w sn now x cr d R|i key sn now x d|i now x d signer rest C D|i sn now x d l R]; auto.
  - unfold init_ca in I. destruct (d_key d), (d_ca d) as [c|]; try destruct (half_life_passed c now); injection I as <-; auto.
  - right. exists i, now, x, signer, rest. auto.
Qed.
Lemma last_number o ops l : last_list (s_disk (after o ops)) = Some l -> rl_number l = d_number (s_disk (after o ops)).
Proof.
  revert l. refine (proj1 (db_inv o (fun d => forall l, last_list d = Some l -> rl_number l = d_number d) _ _ ops)).
  - discriminate.
  - intros p d d' G A l H. destruct (grow_lists o p d d' G) as [[E1 E2]|(i & now & x & signer & rest & _ & _ & _ & ->)].
    + rewrite E1. apply A. unfold last_list in *. rewrite <- E2. exact H.
    + rewrite last_add in H. injection H as <-. reflexivity.
Qed.

Lemma get_answer o before i now x l :
  answer o before (GetList i now x) = OList l ->
  last_list (s_disk (after o (before ++ [GetList i now x]))) = Some l /\
  ((cached_list now (s_disk (after o before)) = Some l /\ s_disk (after o (before ++ [GetList i now x])) = s_disk (after o before)) \/
   exists signer rest, d_delegates (s_disk (after o before)) = signer :: rest /\ l = new_list now signer (s_disk (after o before))).
Proof.
  rewrite after_snoc. unfold answer. cbn [step]. destruct (s_managers (after o before) i) as [m|]; [|cbn; discriminate].
  destruct x; try (cbn; discriminate); destruct (cached_list now (s_disk (after o before))) as [l0|] eqn:C;
    try (cbn [leave snd fst set_manager s_disk]; intros [= <-]; split; [|auto]; unfold cached_list in C; destruct (last_list (s_disk (after o before))) as [rl|]; [|discriminate];
      destruct (negb _ && _); congruence);
    destruct (d_delegates (s_disk (after o before))) as [|signer rest] eqn:D; try (cbn; discriminate).
  cbn [finish snd fst set_disk s_disk]. intros [= <-]. split; [apply last_add|]. right. eauto.
Qed.

Theorem numbers_increase o before i now x l between j now' y l' :
  answer o before (GetList i now x) = OList l ->
  answer o (before ++ GetList i now x :: between) (GetList j now' y) = OList l' ->
  l' = l \/ rl_number l < rl_number l'.
Proof.
  intros A B. apply get_answer in A as [A _]. pose proof (last_number _ _ _ A) as NA.
  apply get_answer in B as [B _]. pose proof (last_number _ _ _ B) as NB.
  assert (P : let d := s_disk (after o ((before ++ GetList i now x :: between) ++ [GetList j now' y])) in
              rl_number l < d_number d \/ d_number d = rl_number l /\ last_list d = Some l).
  { replace ((before ++ GetList i now x :: between) ++ [GetList j now' y]) with ((before ++ [GetList i now x]) ++ (between ++ [GetList j now' y]))
      by (rewrite <- !app_assoc; reflexivity).
    cbv zeta. apply (db_from o (fun d => rl_number l < d_number d \/ d_number d = rl_number l /\ last_list d = Some l)); [|right; auto].
    intros p d d' G H. destruct (grow_lists o p d d' G) as [[E1 E2]|(i' & n & z & signer & rest & _ & _ & _ & ->)].
    - unfold last_list in *. rewrite E1, E2. exact H.
    - left. cbn. destruct H as [H|[H _]]; lia. }
  cbv zeta in P. rewrite NB. destruct P as [P|[P1 P2]]; [auto|]. left. congruence.
Qed.

Theorem lists_bounded o ops : (List.length (d_lists (s_disk (after o ops))) <= 128)%nat.
Proof.
  refine (proj1 (db_inv o (fun d => (List.length (d_lists d) <= 128)%nat) _ _ ops)); [cbn; lia|].
  intros p d d' G A. destruct (grow_lists o p d d' G) as [[_ ->]|(i & now & x & signer & rest & _ & _ & _ & ->)]; [exact A|].
  unfold add_list. cbv zeta. cbn [d_lists]. rewrite skipn_length, !app_length. unfold max_crl. cbn [List.length]. lia.
Qed.

(** Where a list comes from. *)
Lemma list_origin o ops l : last_list (s_disk (after o ops)) = Some l ->
  exists before i now x between signer, ops = before ++ GetList i now x :: between /\ l = new_list now signer (s_disk (after o before)).
Proof.
  induction ops as [|p ops IH] using rev_ind; [discriminate|]. rewrite after_snoc. intros H.
  assert (K : last_list (s_disk (after o ops)) = Some l -> exists before i now x between signer, ops ++ [p] = before ++ GetList i now x :: between /\ l = new_list now signer (s_disk (after o before))).
  { intros H'. destruct (IH H') as (b & i & now & x & c & s & -> & E). exists b, i, now, x, (c ++ [p]), s. rewrite <- app_assoc. auto. }
  destruct (step_disk o (after o ops) p) as [E|G]; [rewrite E in H; auto|].
  destruct (grow_lists _ _ _ _ G) as [[_ E2]|(i & now & x & signer & rest & -> & _ & _ & E)].
  - apply K. unfold last_list in *. rewrite <- E2. exact H.
  - rewrite E in H. rewrite last_add in H. injection H as <-. exists ops, i, now, x, [], signer. auto.
Qed.

(** ** Clock readings *)
Lemma readings_app a b : readings (a ++ b) = readings a ++ readings b.
Proof. apply flat_map_app. Qed.
Lemma serials_app a b : serials (a ++ b) = serials a ++ serials b.
Proof. apply flat_map_app. Qed.
Lemma never_back_app l1 l2 t u : never_back (l1 ++ l2) -> In t l1 -> In u l2 -> t <= u.
Proof.
  induction l1 as [|x l1 IH]; cbn; intros H It Iu; [contradiction|]. destruct H as [H1 H2].
  destruct It as [<-|It]; [|auto]. apply H1. apply in_or_app. auto.
Qed.
Lemma never_back_prefix l1 l2 : never_back (l1 ++ l2) -> never_back l1.
Proof.
  induction l1 as [|x l1 IH]; cbn; [auto|]. intros [H1 H2]. split; [|auto]. intros u I. apply H1. apply in_or_app. auto.
Qed.

(** ** Complete lists *)
Lemma list_entries_In now l e r : In e l -> en_rev e = Some r -> now <= xc_not_after (en_cert e) -> In (xc_serial (en_cert e), r) (list_entries now l).
Proof.
  induction l as [|e' l IH]; intros I R N; [contradiction|]. cbn [list_entries]. destruct I as [->|I].
  - rewrite R. replace (xc_not_after (en_cert e) <? now) with false by (symmetry; apply Z.ltb_ge; exact N). left. reflexivity.
  - specialize (IH I R N). destruct (en_rev e'); [|exact IH]. destruct (_ <? now); [exact IH|right; exact IH].
Qed.
Lemma list_entries_inv now l sn r : In (sn, r) (list_entries now l) -> exists e, In e l /\ en_rev e = Some r /\ xc_serial (en_cert e) = sn.
Proof.
  induction l as [|e' l IH]; cbn [list_entries]; intros H; [contradiction|].
  assert (K : In (sn, r) (list_entries now l) -> exists e, In e (e' :: l) /\ en_rev e = Some r /\ xc_serial (en_cert e) = sn).
  { intros H'. destruct (IH H') as (e & I & E). exists e. split; [right; exact I|exact E]. }
  destruct (en_rev e') as [r'|] eqn:R; [|auto]. destruct (_ <? now); [auto|]. destruct H as [H|H]; [|auto].
  injection H as <- <-. exists e'. split; [left; reflexivity|auto].
Qed.
Lemma later_le a t : exists u, later a t = Some u /\ t <= u /\ forall v, a = Some v -> v <= u.
Proof.
  unfold later. destruct a as [v|].
  - destruct (Z.ltb_spec v t).
    + exists t. repeat split; [lia|]. intros w [= <-]. lia.
    + exists v. repeat split; [lia|]. intros w [= <-]. lia.
  - exists t. repeat split; [lia|]. discriminate.
Qed.
Lemma last_revocation_le l e r : In e l -> en_rev e = Some r -> exists u, last_revocation l = Some u /\ rv_time r <= u.
Proof.
  unfold last_revocation.
  assert (M : forall l a v, a = Some v -> exists u, fold_left (fun a e => match en_rev e with Some r => later a (rv_time r) | None => a end) l a = Some u /\ v <= u).
  { induction l0 as [|e0 l0 IH]; intros a v ->; cbn [fold_left]; [exists v; split; [reflexivity|lia]|].
    destruct (en_rev e0) as [r0|]; [|apply IH; reflexivity].
    destruct (later_le (Some v) (rv_time r0)) as (u & E & H1 & H2). specialize (H2 v eq_refl).
    destruct (IH _ u E) as (w & E' & H3). exists w. split; [exact E'|lia]. }
  generalize (@None Z) as a. induction l as [|e0 l IH]; intros a I R; [contradiction|]. cbn [fold_left]. destruct I as [->|I].
  - rewrite R. destruct (later_le a (rv_time r)) as (u & E & H1 & _). destruct (M l _ u E) as (w & E' & H3). exists w. split; [exact E'|lia].
  - apply IH; assumption.
Qed.

(** Revoked not before T. *)
Definition flagged_since (h : str) (T : Z) (d : db) : Prop := exists e r, find_serial h (d_issued d) = Some e /\ en_rev e = Some r /\ T <= rv_time r.

Lemma db_from_in o (P : db -> Prop) before between :
  (forall p d d', In p between -> grow o p d d' -> P d -> P d') -> P (s_disk (after o before)) -> P (s_disk (after o (before ++ between))).
Proof.
  intros G P0. induction between as [|p l IH] using rev_ind; [rewrite app_nil_r; exact P0|].
  rewrite app_assoc, after_snoc. destruct (step_disk o (after o (before ++ l)) p) as [->|H].
  - apply IH. intros q d d' I. apply G. apply in_or_app. auto.
  - eapply G; [apply in_or_app; right; left; reflexivity|exact H|]. apply IH. intros q d d' I. apply G. apply in_or_app. auto.
Qed.
Lemma revoked_since o a j sn t y b :
  answer o a (Revoke j sn t y) = ODone -> never_back (readings (a ++ Revoke j sn t y :: b)) ->
  flagged_since (serial_hex sn) (trunc t) (s_disk (after o (a ++ Revoke j sn t y :: b))).
Proof.
  intros A N. replace (a ++ Revoke j sn t y :: b) with ((a ++ [Revoke j sn t y]) ++ b) by (rewrite <- app_assoc; reflexivity).
  apply db_from_in.
  - intros p d d' I G (e & r & F & E & T). unfold flagged_since.
    destruct (grow_issued o p d d' G) as [[-> _]|[(c & -> & _)|(i & sn' & now & x & -> & _ & R)]]; [eauto| |].
    + rewrite find_app, F. eauto.
    + rewrite (revoke_first_find _ _ _ _ (serial_hex sn) R). rewrite F. destruct (str_eqb _ _); [|eauto]. eexists. eexists. split; [reflexivity|]. split; [reflexivity|].
      cbn [rv_time]. apply trunc_mono.
      rewrite readings_app in N. change (Revoke j sn t y :: b) with ([Revoke j sn t y] ++ b) in N. rewrite readings_app in N.
      rewrite app_assoc in N. apply never_back_app with (l1 := readings a ++ readings [Revoke j sn t y]) (l2 := readings b); [exact N| |].
      * apply in_or_app. right. left. reflexivity.
      * unfold readings. apply in_flat_map. exists (Revoke i sn' now x). split; [exact I|left; reflexivity].
  - rewrite after_snoc. destruct (revoke_answer _ _ _ _ _ _ A) as (m & _ & _ & _ & R). unfold flagged_since.
    rewrite (revoke_first_find _ _ _ _ (serial_hex sn) R), str_eqb_refl.
    apply revoke_first_spec in R as (p & e & q & I & _ & Es & Np). rewrite I, find_app, (find_none_pre _ p Np). unfold find_serial. cbn [find]. rewrite Es, str_eqb_refl.
    cbn [option_map]. eexists. eexists. split; [reflexivity|]. split; [reflexivity|]. cbn. lia.
Qed.

Lemma mid_split {A} (a b : list A) p c q d : a ++ p :: b = c ++ q :: d -> p <> q -> (exists m, c = a ++ p :: m) \/ (exists m, a = c ++ q :: m).
Proof.
  revert c. induction a as [|x a IH]; intros c H N; destruct c as [|z c]; cbn in H.
  - injection H as -> _. congruence.
  - injection H as -> H. left. exists c. reflexivity.
  - injection H as -> H. right. exists a. reflexivity.
  - injection H as -> H. destruct (IH c H N) as [(m & ->)|(m & ->)]; [left|right]; exists m; reflexivity.
Qed.

Lemma list_complete_gen o before i now x l a j sn t y b c :
  answer o before (GetList i now x) = OList l ->
  never_back (readings (before ++ [GetList i now x])) ->
  before = a ++ Revoke j sn t y :: b -> answer o a (Revoke j sn t y) = ODone ->
  has_cert (serial_hex sn) c (s_disk (after o before)) -> xc_serial c = sn -> now <= xc_not_after c ->
  second_of t <> second_of (rl_this l) ->
  exists r, In (sn, r) (rl_entries l).
Proof.
  intros A N Eb R HC Sc X D.
  assert (Nb : never_back (readings before)). { rewrite readings_app in N. eapply never_back_prefix. exact N. }
  assert (FS : flagged_since (serial_hex sn) (trunc t) (s_disk (after o before))). { rewrite Eb. apply revoked_since; [exact R|]. rewrite <- Eb. exact Nb. }
  destruct HC as (e & Fe & Ec). destruct FS as (e' & r & Fe' & Er & T). rewrite Fe in Fe'. injection Fe' as <-.
  pose proof (find_In _ _ _ Fe) as [Ie _].
  destruct (get_answer _ _ _ _ _ _ A) as [L [[C _]|(signer & rest & _ & ->)]].
  2: { exists r. cbn [rl_entries new_list]. rewrite <- Sc, <- Ec. apply list_entries_In; [exact Ie|exact Er|rewrite Ec; exact X]. }
  unfold cached_list in C. destruct (last_list (s_disk (after o before))) as [rl|] eqn:LL; [|discriminate].
  destruct (last_revocation_le _ _ _ Ie Er) as (u & U & Tu). rewrite U in C.
  destruct (Z.ltb_spec (rl_this rl) u); [discriminate|]. cbn [negb andb] in C. destruct (now <? _); [|discriminate]. injection C as ->.
  destruct (list_origin _ _ _ LL) as (c0 & i0 & n0 & x0 & d0 & signer & E0 & El).
  assert (This : rl_this l = trunc n0) by (rewrite El; reflexivity).
  assert (Split : a ++ Revoke j sn t y :: b = c0 ++ GetList i0 n0 x0 :: d0) by congruence.
  destruct (mid_split _ _ _ _ _ _ Split) as [(m & Em)|(m & Em)]; [discriminate| |].
  - (* the list was made after the revocation *)
    assert (Nc : never_back (readings c0)). { rewrite E0, readings_app in Nb. eapply never_back_prefix. exact Nb. }
    assert (FS : flagged_since (serial_hex sn) (trunc t) (s_disk (after o c0))). { rewrite Em. apply revoked_since; [exact R|]. rewrite <- Em. exact Nc. }
    destruct FS as (e1 & r1 & F1 & Er1 & _).
    assert (HC1 : has_cert (serial_hex sn) (en_cert e1) (s_disk (after o before))).
    { rewrite E0. apply (db_from o (has_cert (serial_hex sn) (en_cert e1)) (grow_has_cert o _ _)). exists e1. auto. }
    destruct HC1 as (e2 & F2 & Ec2). rewrite Fe in F2. injection F2 as <-.
    assert (n0 <= now).
    { rewrite E0 in N. apply never_back_app with (l1 := readings (c0 ++ GetList i0 n0 x0 :: d0)) (l2 := [now]).
      - rewrite readings_app in N. exact N.
      - unfold readings. apply in_flat_map. exists (GetList i0 n0 x0). split; [apply in_elt|left; reflexivity].
      - left. reflexivity. }
    exists r1. rewrite El. cbn [rl_entries new_list]. rewrite <- Sc. replace (xc_serial c) with (xc_serial (en_cert e1)) by congruence.
    apply list_entries_In; [apply (find_In _ _ _ F1)|exact Er1|]. rewrite <- Ec2, Ec. lia.
  - (* before: then it is of the same second *)
    exfalso. apply D. rewrite This, second_of_trunc. apply trunc_second.
    assert (n0 <= t).
    { rewrite Eb, Em in Nb. rewrite readings_app in Nb. apply never_back_app with (1 := Nb).
      - unfold readings. apply in_flat_map. exists (GetList i0 n0 x0). split; [apply in_elt|left; reflexivity].
      - left. reflexivity. }
    pose proof (trunc_mono n0 t ltac:(lia)). lia.
Qed.

(** Serial numbers are those drawn. *)
Lemma issued_serials o ops e : In e (d_issued (s_disk (after o ops))) -> exists n, en_serial e = serial_hex n /\ In n (serials ops).
Proof.
  revert e. enough (P : let P d := forall e, In e (d_issued d) -> exists n, en_serial e = serial_hex n /\ In n (serials ops) in P (s_disk (after o ops))) by exact P.
  cbv zeta. refine (proj1 (db_inv_in o (fun d => forall e, In e (d_issued d) -> exists n, en_serial e = serial_hex n /\ In n (serials ops)) _ ops _)).
  - intros e [].
  - intros p d d' I G A e Ie. destruct (grow_issued o p d d' G) as [[E _]|[(c & E & _ & S & _)|(i & sn & now & x & -> & _ & R)]].
    + rewrite E in Ie. auto.
    + rewrite E in Ie. apply in_app_iff in Ie as [Ie|[<-|[]]]; [auto|]. cbn. exists (xc_serial c). split; [reflexivity|].
      unfold serials in *. apply in_flat_map. exists p. split; [exact I|]. cbn [flat_map] in S. rewrite app_nil_r in S. rewrite S. left. reflexivity.
    + apply revoke_first_spec in R as (a & e0 & b & Ed & Ed' & Es & _). rewrite Ed' in Ie. rewrite in_app_iff in Ie. cbn [In] in Ie.
      destruct Ie as [Ie|[<-|Ie]].
      * apply A. rewrite Ed. apply in_or_app. auto.
      * cbn. apply A. rewrite Ed. apply in_elt.
      * apply A. rewrite Ed. apply in_or_app. right. right. exact Ie.
Qed.
Lemma issued_has_cert o a i w sn now x b c :
  NoDup (serials (a ++ Issue i w sn now x :: b)) -> answer o a (Issue i w sn now x) = OCert c ->
  has_cert (serial_hex sn) c (s_disk (after o (a ++ Issue i w sn now x :: b))) /\ xc_serial c = sn.
Proof.
  intros N A. destruct (issue_answer _ _ _ _ _ _ _ _ A) as (m & cr & _ & _ & D & _ & Ec).
  split; [|rewrite Ec; reflexivity].
  replace (a ++ Issue i w sn now x :: b) with ((a ++ [Issue i w sn now x]) ++ b) by (rewrite <- app_assoc; reflexivity).
  apply (db_from o (has_cert (serial_hex sn) c) (grow_has_cert o _ _)).
  rewrite after_snoc, D. unfold has_cert, add_cert. cbn [d_issued]. rewrite find_app.
  destruct (find_serial (serial_hex sn) (d_issued (s_disk (after o a)))) as [e|] eqn:F.
  - exfalso. apply find_In in F as [I E]. destruct (issued_serials _ _ _ I) as (n & En & In').
    rewrite E in En. apply serial_hex_inj in En as <-. rewrite serials_app in N. cbn in N.
    apply NoDup_remove_2 in N. apply N. apply in_or_app. auto.
  - rewrite find_one. cbn [en_serial]. replace (xc_serial c) with sn by (rewrite Ec; reflexivity). rewrite str_eqb_refl. eexists. split; [reflexivity|]. reflexivity.
Qed.

Theorem list_complete o before i now x l :
  answer o before (GetList i now x) = OList l ->
  NoDup (serials before) -> never_back (readings (before ++ [GetList i now x])) ->
  forall j sn t y i' w t' x' c,
  In (Revoke j sn t y, ODone) (outputs o before) -> In (Issue i' w sn t' x', OCert c) (outputs o before) ->
  now <= xc_not_after c ->
  second_of t <> second_of (rl_this l) ->
  exists r, In (sn, r) (rl_entries l).
Proof.
  intros A ND N j sn t y i' w t' x' c R I X D.
  apply outputs_split in R as (a & b & Ea & Ra). apply outputs_split in I as (a' & b' & Ea' & Ia).
  rewrite Ea' in ND. destruct (issued_has_cert o a' i' w sn t' x' b' c ND Ia) as [HC Sc]. rewrite <- Ea' in HC.
  exact (list_complete_gen o before i now x l a j sn t y b c A N Ea Ra HC Sc X D).
Qed.

(** Only revoked certificates are listed. *)
Lemma flagged_origin o ops e r : In e (d_issued (s_disk (after o ops))) -> en_rev e = Some r ->
  exists i sn t y, In (Revoke i sn t y) ops /\ serial_hex sn = en_serial e /\ rv_time r = trunc t.
Proof.
  revert e r. refine (proj1 (db_inv_in o (fun d => forall e r, In e (d_issued d) -> en_rev e = Some r -> exists i sn t y, In (Revoke i sn t y) ops /\ serial_hex sn = en_serial e /\ rv_time r = trunc t) _ ops _)).
  - intros e r [].
  - intros p d d' I G A e r Ie Er. destruct (grow_issued o p d d' G) as [[E _]|[(c & E & _ & S & _)|(i & sn & now & x & -> & _ & R)]].
    + rewrite E in Ie. eauto.
    + rewrite E in Ie. apply in_app_iff in Ie as [Ie|[<-|[]]]; [eauto|discriminate].
    + apply revoke_first_spec in R as (a & e0 & b & Ed & Ed' & Es & _). rewrite Ed' in Ie. rewrite in_app_iff in Ie. cbn [In] in Ie.
      destruct Ie as [Ie|[<-|Ie]].
      * apply A with (e := e); [rewrite Ed; apply in_or_app; auto|exact Er].
      * cbn in *. injection Er as <-. exists i, sn, now, x. auto.
      * apply A with (e := e); [rewrite Ed; apply in_or_app; right; right; exact Ie|exact Er].
Qed.
Lemma serial_all o ops e : In e (d_issued (s_disk (after o ops))) -> en_serial e = serial_hex (xc_serial (en_cert e)).
Proof.
  revert e. refine (proj1 (db_inv o (fun d => forall e, In e (d_issued d) -> en_serial e = serial_hex (xc_serial (en_cert e))) _ _ ops)).
  - intros e [].
  - intros p d d' G A e Ie. destruct (grow_issued o p d d' G) as [[E _]|[(c & E & _ & S & _)|(i & sn & now & x & -> & _ & R)]].
    + rewrite E in Ie. auto.
    + rewrite E in Ie. apply in_app_iff in Ie as [Ie|[<-|[]]]; [auto|reflexivity].
    + apply revoke_first_spec in R as (a & e0 & b & Ed & Ed' & Es & _). rewrite Ed' in Ie. rewrite in_app_iff in Ie. cbn [In] in Ie.
      destruct Ie as [Ie|[<-|Ie]].
      * apply A. rewrite Ed. apply in_or_app. auto.
      * cbn. apply A. rewrite Ed. apply in_elt.
      * apply A. rewrite Ed. apply in_or_app. right. right. exact Ie.
Qed.
Theorem listed_only_if_revoked o before i now x l sn r :
  answer o before (GetList i now x) = OList l -> In (sn, r) (rl_entries l) -> exists j t y, In (Revoke j sn t y) before /\ rv_time r = trunc t.
Proof.
  intros A I. destruct (get_answer _ _ _ _ _ _ A) as [_ [[C E]|(signer & rest & _ & ->)]].
  - unfold cached_list in C. destruct (last_list (s_disk (after o before))) as [rl|] eqn:LL; [|discriminate].
    assert (rl = l) as -> by (destruct (negb _ && _); congruence).
    destruct (list_origin _ _ _ LL) as (c0 & i0 & n0 & x0 & d0 & signer & E0 & El). rewrite El in I. cbn [rl_entries new_list] in I.
    apply list_entries_inv in I as (e & Ie & Er & Es). destruct (flagged_origin _ _ _ _ Ie Er) as (j & sn' & t & y & Iv & Eh & T).
    rewrite (serial_all _ _ _ Ie) in Eh. apply serial_hex_inj in Eh. subst sn'. rewrite Es in Iv. exists j, t, y. split; [|exact T].
    rewrite E0. apply in_or_app. auto.
  - cbn [rl_entries new_list] in I. apply list_entries_inv in I as (e & Ie & Er & Es). destruct (flagged_origin _ _ _ _ Ie Er) as (j & sn' & t & y & Iv & Eh & T).
    rewrite (serial_all _ _ _ Ie) in Eh. apply serial_hex_inj in Eh. subst sn'. rewrite Es in Iv. eauto.
Qed.

Theorem list_current o before i now x l :
  answer o before (GetList i now x) = OList l -> never_back (readings (before ++ [GetList i now x])) ->
  rl_this l <= now /\ now < rl_next l + 1800 * second.
Proof.
  intros A N. destruct (get_answer _ _ _ _ _ _ A) as [_ [[C E]|(signer & rest & _ & ->)]].
  - unfold cached_list in C. destruct (last_list (s_disk (after o before))) as [rl|] eqn:LL; [|discriminate].
    destruct (negb _ && _) eqn:B; [|discriminate]. injection C as ->. apply andb_true_iff in B as [_ B]. apply Z.ltb_lt in B.
    change (crl_refresh / 2) with (1800 * second) in B. split; [|exact B].
    destruct (list_origin _ _ _ LL) as (c0 & i0 & n0 & x0 & d0 & signer & E0 & El). rewrite El. cbn [rl_this new_list].
    assert (n0 <= now).
    { rewrite E0 in N. apply never_back_app with (l1 := readings (c0 ++ GetList i0 n0 x0 :: d0)) (l2 := [now]).
      - rewrite readings_app in N. exact N.
      - unfold readings. apply in_flat_map. exists (GetList i0 n0 x0). split; [apply in_elt|left; reflexivity].
      - left. reflexivity. }
    pose proof (trunc_le n0). lia.
  - cbn [rl_this rl_next new_list]. pose proof (trunc_le now). pose proof (trunc_near (now + crl_refresh)). unfold crl_refresh, hour, second in *. lia.
Qed.
