(** Proofs about the certificate authority. *)
From Verif Require Import Base PkiModel PkiSpec.
From Coq Require Import NArith.
Open Scope Z_scope.

(** ** Serial numbers *)
Definition value (b : str) : N := fold_left (fun n x => (n * 256 + N_of_ascii x)%N) b 0%N.

Lemma fold_value b acc : fold_left (fun n x => (n * 256 + N_of_ascii x)%N) b acc = (acc * 256 ^ N.of_nat (List.length b) + value b)%N.
Proof.
  unfold value. revert acc. induction b as [|x b IH]; intros acc.
  - cbn. rewrite N.mul_1_r, N.add_0_r. reflexivity.
  - cbn [fold_left]. rewrite IH. rewrite (IH (0 * 256 + N_of_ascii x)%N).
    cbn [List.length]. rewrite Nat2N.inj_succ, N.pow_succ_r'. lia.
Qed.
Lemma value_cons x b : value (x :: b) = (N_of_ascii x * 256 ^ N.of_nat (List.length b) + value b)%N.
Proof. unfold value at 1. cbn [fold_left]. rewrite fold_value. lia. Qed.

Lemma be_bytes_value f : forall n acc, (n < 256 ^ N.of_nat f)%N ->
  value (be_bytes f n acc) = (n * 256 ^ N.of_nat (List.length acc) + value acc)%N.
Proof.
  induction f as [|f IH]; intros n acc H; cbn [be_bytes].
  - cbn in H. replace n with 0%N by lia. lia.
  - destruct (N.eqb_spec n 0) as [->|Nz]; [lia|].
    rewrite IH.
    + cbn [List.length]. rewrite Nat2N.inj_succ, N.pow_succ_r', value_cons.
      rewrite N_ascii_embedding by (apply N.mod_lt; lia).
      rewrite (N.div_mod n 256) at 3 by lia. ring.
    + rewrite Nat2N.inj_succ, N.pow_succ_r' in H. apply N.div_lt_upper_bound; lia.
Qed.
Lemma size_nat_bound n : (n < 256 ^ N.of_nat (N.size_nat n))%N.
Proof.
  apply N.lt_le_trans with (2 ^ N.of_nat (N.size_nat n))%N.
  - destruct n as [|p]; [cbn; lia|].
    replace (N.of_nat (N.size_nat (N.pos p))) with (N.size (N.pos p)).
    + apply N.size_gt.
    + cbn. induction p; cbn [Pos.size_nat Pos.size]; rewrite ?Nat2N.inj_succ; cbn in *; try rewrite <- IHp; cbn; lia.
  - apply N.pow_le_mono_l. lia.
Qed.
Lemma big_bytes_value n : value (big_bytes n) = n.
Proof.
  unfold big_bytes. rewrite be_bytes_value by apply size_nat_bound. cbn. lia.
Qed.

Lemma hex_digit_inj a b : (a < 16)%N -> (b < 16)%N -> hex_digit a = hex_digit b -> a = b.
Proof.
  intros Ha Hb H. unfold hex_digit in H. apply (f_equal N_of_ascii) in H.
  destruct (N.ltb_spec a 10), (N.ltb_spec b 10); rewrite !N_ascii_embedding in H by lia; lia.
Qed.
Lemma hex2_inj a b : hex2 a = hex2 b -> a = b.
Proof.
  intros H. unfold hex2 in H. injection H as H1 H2.
  pose proof (N_ascii_bounded a) as Ba. pose proof (N_ascii_bounded b) as Bb.
  apply hex_digit_inj in H1; [|apply N.div_lt_upper_bound; lia|apply N.div_lt_upper_bound; lia].
  apply hex_digit_inj in H2; [|apply N.mod_lt; lia|apply N.mod_lt; lia].
  rewrite <- (ascii_N_embedding a), <- (ascii_N_embedding b). f_equal.
  rewrite (N.div_mod (N_of_ascii a) 16), (N.div_mod (N_of_ascii b) 16) by lia. congruence.
Qed.
Lemma app_len_inj (p q r s : str) : List.length p = List.length q -> p ++ r = q ++ s -> p = q /\ r = s.
Proof.
  revert q. induction p as [|x p IH]; intros [|y q] L H; cbn in L; try discriminate; [auto|].
  cbn [app] in H. injection H as -> H. destruct (IH q ltac:(congruence) H) as [-> ->]. auto.
Qed.
Lemma bytes_to_hex_inj : forall a b, bytes_to_hex a = bytes_to_hex b -> a = b.
Proof.
  unfold bytes_to_hex. induction a as [|x a IH]; intros [|y b] H.
  - reflexivity.
  - exfalso. destruct b; cbn in H; discriminate.
  - exfalso. destruct a; cbn in H; discriminate.
  - cbn [map] in H. destruct a as [|x' a], b as [|y' b].
    + cbn [map join] in H. apply hex2_inj in H. congruence.
    + exfalso. apply (f_equal (@List.length ascii)) in H. cbn [map] in H. rewrite (join_cons _ (hex2 y)) in H by discriminate.
      cbn [join] in H. rewrite app_length in H. cbn in H. lia.
    + exfalso. apply (f_equal (@List.length ascii)) in H. cbn [map] in H. rewrite (join_cons _ (hex2 x)) in H by discriminate.
      cbn [join] in H. rewrite app_length in H. cbn in H. lia.
    + rewrite !join_cons in H by discriminate.
      destruct (app_len_inj (hex2 x) (hex2 y) _ _ eq_refl H) as [E1 E2].
apply (f_equal (@tl ascii)) in E2. cbn [tl] in E2. apply hex2_inj in E1 as ->. f_equal. apply IH. exact E2.
Qed.
Lemma serial_hex_inj a b : serial_hex a = serial_hex b -> a = b.
Proof.
  unfold serial_hex. intros H. apply bytes_to_hex_inj in H. rewrite <- (big_bytes_value a), H. apply big_bytes_value.
Qed.

(** ** Histories *)
Lemma run_app o st a b :
  run o st (a ++ b) = (fst (run o (fst (run o st a)) b), snd (run o st a) ++ snd (run o (fst (run o st a)) b)).
Proof.
  revert st. induction a as [|p a IH]; intros st; cbn [run app fst snd].
  - destruct (run o st b); reflexivity.
  - destruct (step o st p) as [s1 out]. rewrite IH. destruct (run o s1 a) as [s2 tr]. reflexivity.
Qed.
Lemma after_snoc o ops p : after o (ops ++ [p]) = fst (step o (after o ops) p).
Proof. unfold after. rewrite run_app. cbn [run fst]. destruct (step o _ p). reflexivity. Qed.
Lemma outputs_snoc o ops p : outputs o (ops ++ [p]) = outputs o ops ++ [(p, answer o ops p)].
Proof. unfold outputs, answer, after. rewrite run_app. cbn [run snd]. destruct (step o _ p). reflexivity. Qed.
Lemma after_app o a b : after o (a ++ b) = fst (run o (after o a) b).
Proof. unfold after. rewrite run_app. reflexivity. Qed.
Lemma outputs_split o ops p out : In (p, out) (outputs o ops) -> exists before between, ops = before ++ p :: between /\ answer o before p = out.
Proof.
  induction ops as [|q ops IH] using rev_ind; [intros []|].
  rewrite outputs_snoc, in_app_iff. intros [H|[H|[]]].
  - destruct (IH H) as (b & c & -> & E). exists b, (c ++ [q]). rewrite <- app_assoc. auto.
  - injection H as -> <-. exists ops, []. auto.
Qed.
Lemma split_outputs o before p between : In (p, answer o before p) (outputs o (before ++ p :: between)).
Proof.
  induction between as [|q l IH] using rev_ind.
  - rewrite outputs_snoc, in_app_iff. right. left. reflexivity.
  - replace (before ++ p :: l ++ [q]) with ((before ++ p :: l) ++ [q]) by (rewrite <- app_assoc; reflexivity).
    rewrite outputs_snoc, in_app_iff. left. exact IH.
Qed.

(** What an operation can do to the data. *)
Inductive grow (o : opts) : op -> db -> db -> Prop :=
| g_start i key sn now x d d' : init_ca o key sn now d = (d', true) -> grow o (Start i key sn now x) d d'
| g_issue i w sn now x cr d : request_cert w = Some cr -> grow o (Issue i w sn now x) d (add_cert (issued_cert cr sn now) d)
| g_rotate i key sn now x d :
    grow o (Rotate i key sn now x) d (install_delegate key (delegate_cert o key sn now) (add_cert (delegate_cert o key sn now) d))
| g_list i now x d signer rest :
    cached_list now d = None -> d_delegates d = signer :: rest ->
    grow o (GetList i now x) d (add_list (new_list now signer d) d)
| g_revoke i sn now x d l :
    revoke_first (serial_hex sn) {| rv_time := trunc now; rv_reason := 0 |} (d_issued d) = Some l ->
    grow o (Revoke i sn now x) d
      {| d_key := d_key d; d_ca := d_ca d; d_delegate_key := d_delegate_key d; d_delegates := d_delegates d;
         d_issued := l; d_number := d_number d; d_lists := d_lists d; d_revoked := serial_hex sn :: d_revoked d |}.

Definition manager_of (p : op) : nat :=
  match p with
  | Start i _ _ _ _ | Issue i _ _ _ _ | Rotate i _ _ _ _ | GetList i _ _ | AskOCSP i _ _ | AskRevoked i _ | RevokeCheck i _ _ | Revoke i _ _ _ => i
  end.

Lemma init_ca_same o key sn now d d' : init_ca o key sn now d = (d', false) -> d' = d /\ d_key d <> None /\ d_ca d <> None.
Proof.
  unfold init_ca. destruct d as [k ca dk ds is n ls rv]. cbn [d_key d_ca d_delegate_key d_delegates d_issued d_number d_lists d_revoked].
  destruct k as [k|]; cbn; destruct ca as [c|]; try destruct (half_life_passed c now); intros H; try discriminate; injection H as <-.
  repeat split; discriminate.
Qed.
Lemma init_ca_ca o key sn now d d' b : init_ca o key sn now d = (d', b) -> d_ca d' <> None /\ d_key d' <> None.
Proof.
  unfold init_ca. destruct (d_key d), (d_ca d) as [c|] eqn:C; try destruct (half_life_passed c now); intros H; injection H as <- <-; cbn; try rewrite C; split; discriminate.
Qed.

(** The effect of an operation on disk and on the memory of a manager. *)
Definition touched (o : opts) (p : op) (st : state) (d : db) : Prop := d = s_disk st \/ grow o p (s_disk st) d.

Lemma step_disk o st p : s_disk (fst (step o st p)) = s_disk st \/ grow o p (s_disk st) (s_disk (fst (step o st p))).
Proof.
  destruct p; cbn [step].
  - destruct x; cbn; auto.
    + destruct (init_ca o key sn now (s_disk st)) as [d ch] eqn:I. destruct ch; cbn; auto. right. constructor. exact I.
    + destruct (init_ca o key sn now (s_disk st)) as [d ch] eqn:I. destruct ch; cbn; auto.
  - destruct (s_managers st i); [|cbn; auto]. destruct (request_cert w) eqn:R; [|cbn; auto].
    destruct x; cbn; auto. right. constructor. exact R.
  - destruct (s_managers st i); [|cbn; auto]. destruct x; cbn; auto. right. constructor.
  - destruct (s_managers st i); [|cbn; auto].
    destruct x; try (cbn; auto; fail); destruct (cached_list now (s_disk st)) eqn:C; try (cbn; auto; fail);
      destruct (d_delegates (s_disk st)) eqn:D; try (cbn; auto; fail).
    cbn. right. econstructor; eassumption.
  - destruct (s_managers st i); cbn; auto.
  - destruct (s_managers st i); cbn; auto.
  - destruct (s_managers st i); [|cbn; auto]. destruct (revoke_cert o w now (m_db m)); cbn; auto.
  - destruct (s_managers st i); [|cbn; auto]. destruct (negb _); [cbn; auto|]. cbv zeta.
    destruct x; try (cbn; auto; fail); destruct (revoke_first _ _ _) eqn:R; try (cbn; auto; fail).
    all: cbn; right; constructor; exact R.
Qed.

Lemma step_mem o st p j :
  s_managers (fst (step o st p)) j = None \/
  exists m', s_managers (fst (step o st p)) j = Some m' /\
    ((exists m, s_managers st j = Some m /\ m_db m' = m_db m) \/ (j = manager_of p /\ touched o p st (m_db m'))).
Proof.
  destruct (Nat.eq_dec j (manager_of p)) as [->|N].
  2: { destruct (s_managers (fst (step o st p)) j) as [m'|] eqn:E; [right|left; reflexivity].
       exists m'. split; [reflexivity|]. left. exists m'. split; [|reflexivity]. rewrite <- E. symmetry.
       assert (F : forall m', (if Nat.eqb (manager_of p) j then m' else s_managers st j) = s_managers st j).
       { intros m''. destruct (Nat.eqb_spec (manager_of p) j); congruence. }
       destruct p; cbn [step manager_of] in *.
       - destruct x; cbn; try apply F; destruct (init_ca o key sn now (s_disk st)) as [d []]; cbn; apply F.
       - destruct (s_managers st i); [|reflexivity]. destruct (request_cert w); [|reflexivity]. destruct x; cbn; try reflexivity; apply F.
       - destruct (s_managers st i); [|reflexivity]. destruct x; cbn; try reflexivity; apply F.
       - destruct (s_managers st i); [|reflexivity].
         destruct x; try reflexivity; destruct (cached_list now (s_disk st)); try (cbn; apply F);
           destruct (d_delegates (s_disk st)); cbn; apply F.
       - destruct (s_managers st i); reflexivity.
       - destruct (s_managers st i); reflexivity.
       - destruct (s_managers st i); [|reflexivity]. destruct (revoke_cert o w now (m_db m)); try reflexivity. cbn. apply F.
       - destruct (s_managers st i); [|reflexivity]. destruct (negb _); [reflexivity|]. cbv zeta.
         destruct x; try (cbn; apply F); destruct (revoke_first _ _ _); cbn; apply F. }
  unfold touched.
  destruct p; cbn [step manager_of].
  - destruct x; cbn; rewrite ?Nat.eqb_refl; auto.
    + destruct (init_ca o key sn now (s_disk st)) as [d ch] eqn:I. destruct ch; cbn; rewrite ?Nat.eqb_refl; right; eexists; (split; [reflexivity|]); right; cbn; (split; [reflexivity|]).
      * right. constructor. exact I.
      * left. apply init_ca_same in I as [-> _]. reflexivity.
    + destruct (init_ca o key sn now (s_disk st)) as [d ch] eqn:I. destruct ch; cbn; rewrite ?Nat.eqb_refl; auto.
      right; eexists; (split; [reflexivity|]); right; cbn; (split; [reflexivity|]).
      left. apply init_ca_same in I as [-> _]. reflexivity.
  - destruct (s_managers st i) as [m|] eqn:M; [|left; cbn; exact M]. right.
    destruct (request_cert w) eqn:R; [|exists m; cbn; eauto].
    destruct x; cbn; rewrite ?Nat.eqb_refl; eauto 6; eexists; (split; [reflexivity|]); right; cbn; (split; [reflexivity|]); auto;
      right; constructor; exact R.
  - destruct (s_managers st i) as [m|] eqn:M; [|left; cbn; exact M]. right.
    destruct x; cbn; rewrite ?Nat.eqb_refl; eauto 6; eexists; (split; [reflexivity|]); right; cbn; (split; [reflexivity|]); auto;
      right; constructor.
  - destruct (s_managers st i) as [m|] eqn:M; [|left; cbn; exact M]. right.
    destruct x; try (cbn; eauto 6; fail); destruct (cached_list now (s_disk st)) eqn:C; try (cbn; rewrite ?Nat.eqb_refl; eauto 8; fail);
      destruct (d_delegates (s_disk st)) eqn:D; try (cbn; rewrite ?Nat.eqb_refl; eauto 8; fail);
      cbn; rewrite ?Nat.eqb_refl; eexists; (split; [reflexivity|]); right; cbn; (split; [reflexivity|]); right; econstructor; eassumption.
  - destruct (s_managers st i) as [m|] eqn:M; [right; exists m; cbn; eauto|left; cbn; exact M].
  - destruct (s_managers st i) as [m|] eqn:M; [right; exists m; cbn; eauto|left; cbn; exact M].
  - destruct (s_managers st i) as [m|] eqn:M; [right|left; cbn; exact M].
    destruct (revoke_cert o w now (m_db m)); cbn; rewrite ?Nat.eqb_refl; eauto 8.
  - destruct (s_managers st i) as [m|] eqn:M; [right|left; cbn; exact M]. destruct (negb _); [exists m; cbn; split; [exact M|left; eauto]|]. cbv zeta.
    destruct x; try (cbn; rewrite Nat.eqb_refl; eexists; split; [reflexivity|]; left; exists m; split; reflexivity);
      destruct (revoke_first _ _ _) eqn:R; try (cbn; rewrite Nat.eqb_refl; eauto 8; fail);
      cbn; rewrite Nat.eqb_refl; eexists; (split; [reflexivity|]); right; cbn; (split; [reflexivity|]); right; constructor; exact R.
Qed.

(** A property of the data that every change preserves. *)
Lemma db_inv_in o (P : db -> Prop) : P empty_db ->
  forall ops, (forall p d d', In p ops -> grow o p d d' -> P d -> P d') ->
  P (s_disk (after o ops)) /\ forall j m, s_managers (after o ops) j = Some m -> P (m_db m).
Proof.
  intros P0. induction ops as [|p ops IH] using rev_ind; intros G.
  - split; [exact P0|]. intros j m H. discriminate.
  - destruct IH as [ID IM]. { intros q d d' I. apply G. apply in_or_app. auto. }
    assert (Gp : forall d d', grow o p d d' -> P d -> P d'). { intros d d'. apply G. apply in_or_app. right. left. reflexivity. }
    rewrite after_snoc. split.
    + destruct (step_disk o (after o ops) p) as [->|H]; [exact ID|]. eapply Gp; eassumption.
    + intros j m H. destruct (step_mem o (after o ops) p j) as [E|(m' & E & C)]; [congruence|].
      rewrite E in H. injection H as <-. destruct C as [(m0 & M0 & ->)|(_ & [->|T])]; eauto.
Qed.
Lemma db_inv o (P : db -> Prop) : P empty_db -> (forall p d d', grow o p d d' -> P d -> P d') ->
  forall ops, P (s_disk (after o ops)) /\ forall j m, s_managers (after o ops) j = Some m -> P (m_db m).
Proof. intros P0 G ops. apply db_inv_in; eauto. Qed.
(** A property of the data that holds on disk from some moment on. *)
Lemma db_from o (P : db -> Prop) : (forall p d d', grow o p d d' -> P d -> P d') ->
  forall before between, P (s_disk (after o before)) ->
  P (s_disk (after o (before ++ between))) /\
  forall j, (forall m, s_managers (after o before) j = Some m -> P (m_db m)) ->
    forall m, s_managers (after o (before ++ between)) j = Some m -> P (m_db m).
Proof.
  intros G before between P0. induction between as [|p l [ID IM]] using rev_ind.
  - rewrite app_nil_r. split; [exact P0|]. auto.
  - rewrite app_assoc, after_snoc. split.
    + destruct (step_disk o (after o (before ++ l)) p) as [->|H]; [exact ID|]. eapply G; eassumption.
    + intros j H0 m H. destruct (step_mem o (after o (before ++ l)) p j) as [E|(m' & E & C)]; [congruence|].
      rewrite E in H. injection H as <-. destruct C as [(m0 & M0 & ->)|(_ & [->|T])]; [|exact ID|eapply G; eassumption].
      eapply IM; eassumption.
Qed.
