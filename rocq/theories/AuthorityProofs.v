(** Lemmas about AuthorityModel.v *)
From Verif Require Import Base AuthorityModel AuthoritySpec.
From Verif Require Import XfccModel XfccProofs.
From Coq Require Import Lia.
Open Scope Z_scope.

(** ** Types *)
Definition ec_list : list (str * alg) :=
  [(lit "ecdsa-p224", EC 224); (lit "ecdsa-p256", EC 256); (lit "ecdsa-p384", EC 384); (lit "ecdsa-p521", EC 521)].
Definition rsa_list : list (str * alg) :=
  [(lit "rsa-2048", RSA 2048); (lit "rsa-3072", RSA 3072); (lit "rsa-4096", RSA 4096); (lit "rsa-8192", RSA 8192)].
Ltac ifs := repeat match goal with
  | |- context[if str_eqb ?k ?x then _ else _] => let E := fresh "E" in destruct (str_eqb k x) eqn:E; [apply str_eqb_spec in E; subst|apply str_eqb_neq in E]
  end.
Ltac in_list := repeat match goal with
  | H : In _ (_ :: _) |- _ => destruct H as [H|H]
  | H : In _ [] |- _ => destruct H
  | H : (_, _) = (_, _) |- _ => injection H as <- <-
  end.
Lemma ecdsa_type_in k a : ecdsa_type k = Some a <-> In (k, a) ec_list.
Proof.
  unfold ecdsa_type, ec_list. split.
  - ifs; intro H; try discriminate; injection H as <-; cbn [In]; tauto.
  - intro H. in_list; reflexivity.
Qed.
Lemma rsa_type_in k a : rsa_type k = Some a <-> In (k, a) rsa_list.
Proof.
  unfold rsa_type, rsa_list. split.
  - ifs; intro H; try discriminate; injection H as <-; cbn [In]; tauto.
  - intro H. in_list; reflexivity.
Qed.
Lemma disjoint k a b : In (k, a) ec_list -> In (k, b) rsa_list -> False.
Proof. unfold ec_list, rsa_list. intros H1 H2. in_list; discriminate. Qed.
Lemma both_in k a : (match ecdsa_type k with Some a => Some a | None => rsa_type k end) = Some a <-> In (k, a) (ec_list ++ rsa_list).
Proof.
  rewrite in_app_iff. destruct (ecdsa_type k) as [b|] eqn:E.
  - rewrite <- ecdsa_type_in, E. split; [auto|]. intros [H|H]; [exact H|]. apply ecdsa_type_in in E. destruct (disjoint _ _ _ E H).
  - rewrite <- ecdsa_type_in, E, rsa_type_in. split; [auto|]. intros [H|H]; [discriminate H|exact H].
Qed.
Lemma types_split k a : In (k, a) (known_types documented) <-> (k = lit "ed25519" /\ a = Ed25519) \/ In (k, a) (ec_list ++ rsa_list).
Proof.
  unfold known_types, documented, ec_list, rsa_list. cbn [app]. split.
  - intro H. in_list; cbn [In]; tauto.
  - intros [[-> ->]|H]; [cbn [In]; tauto|]. in_list; cbn [In]; tauto.
Qed.
Lemma no_ed_both a : In (lit "ed25519", a) (ec_list ++ rsa_list) -> False.
Proof. unfold ec_list, rsa_list. cbn [app]. intro H. in_list; discriminate. Qed.
Lemma no_ed_alg k : In (k, Ed25519) (ec_list ++ rsa_list) -> False.
Proof. unfold ec_list, rsa_list. cbn [app]. intro H. in_list; discriminate. Qed.
Lemma generate_key_in kt a : generate_key kt = Some a <-> In (to_lower kt, a) (known_types documented).
Proof.
  rewrite types_split. unfold generate_key. cbv zeta. destruct (str_eqb (to_lower kt) (lit "ed25519")) eqn:E.
  - apply str_eqb_spec in E. rewrite E. split.
    + intro H. injection H as <-. auto.
    + intros [[_ ->]|H]; [reflexivity|]. destruct (no_ed_both _ H).
  - apply str_eqb_neq in E. rewrite both_in. split; [auto|]. intros [[X _]|H]; [contradiction|exact H].
Qed.
Lemma tpm_type_in kt a : tpm_type kt = Some a <-> In (to_lower kt, a) (known_types documented) /\ a <> Ed25519.
Proof.
  rewrite types_split. unfold tpm_type. cbv zeta. rewrite both_in. split.
  - intro H. split; [auto|]. intros ->. destruct (no_ed_alg _ H).
  - intros [[[_ X]|H] N]; [contradiction|exact H].
Qed.
Lemma wanted_key_type o : key_type o = wanted o.
Proof. unfold key_type, wanted. destruct (o_type o); reflexivity. Qed.
Definition can_make (o : opts) (a : alg) : Prop := match o_tpm o with None => True | Some can => a <> Ed25519 /\ can a = true end.
Lemma generate_in o kt a : generate tpm_type o kt = Some a <-> In (to_lower kt, a) (known_types documented) /\ can_make o a.
Proof.
  unfold generate, can_make. destruct (o_tpm o) as [can|].
  - destruct (tpm_type kt) as [b|] eqn:E.
    + pose proof E as E'. apply tpm_type_in in E' as [I N]. split.
      * destruct (can b) eqn:C; [|discriminate]. intro H. injection H as <-. auto.
      * intros (I' & N' & C). assert (X : tpm_type kt = Some a) by (apply tpm_type_in; auto). rewrite E in X. injection X as ->. rewrite C. reflexivity.
    + split; [discriminate|]. intros (I & N & _). assert (X : tpm_type kt = Some a) by (apply tpm_type_in; auto). congruence.
  - rewrite generate_key_in. tauto.
Qed.

(** ** Starting *)
Lemma new_empty o now raw d a : new o now raw empty_db = Some d /\ d_key d = Some a <->
  In (to_lower (wanted o), a) (known_types documented) /\ can_make o a /\
  d = let c := {| ct_alg := a; ct_from := trunc now; ct_until := trunc (now + 10 * 365 * day); ct_raw := raw |} in
      {| d_key := Some a; d_ca := Some c; d_delegates := []; d_issued := [c] |}.
Proof.
  unfold new, empty_db. cbn [d_key d_ca d_delegates d_issued app]. rewrite wanted_key_type.
  destruct (generate tpm_type o (wanted o)) as [b|] eqn:E.
  - split.
    + intros [H K]. injection H as <-. cbn [d_key] in K. injection K as ->. apply generate_in in E as [E1 E2]. auto.
    + intros (I & C & ->). assert (X : generate tpm_type o (wanted o) = Some a) by (apply generate_in; auto). rewrite E in X. injection X as ->. auto.
  - split; [intros [H _]; discriminate H|]. intros (I & C & _).
    assert (X : generate tpm_type o (wanted o) = Some a) by (apply generate_in; auto). congruence.
Qed.
Lemma new_key o now raw d d' : new o now raw d = Some d' -> d_key d' <> None /\ d_ca d' <> None.
Proof.
  unfold new. destruct (match d_key d with Some a => Some a | None => _ end) as [a|] eqn:E; [|discriminate].
  destruct (d_ca d) as [c|] eqn:C.
  - destruct (half_passed c now); intro H; injection H as <-; cbn; split; congruence.
  - intro H; injection H as <-; cbn; split; congruence.
Qed.
(** The store of an authority that was started: one key, and it is the one of the certificate. *)
Definition keyed (a : alg) (d : db) : Prop := d_key d = Some a /\ exists c, d_ca d = Some c /\ ct_alg c = a.
Lemma new_keyed o now raw d d' a : keyed a d -> new o now raw d = Some d' -> keyed a d' /\ d_delegates d' = d_delegates d.
Proof.
  intros (K & c & C & A). unfold new. rewrite K, C.
  destruct (half_passed c now); intro H; injection H as <-; unfold keyed; cbn; eauto.
Qed.
Lemma rotate_keyed o now raw d d' a : keyed a d -> rotate o now raw d = Some d' -> keyed a d'.
Proof.
  intros (K & c & C & A). unfold rotate. destruct (negb _); [intro H; injection H as <-; unfold keyed; eauto|].
  rewrite C. destruct (generate _ _ _); [|discriminate]. intro H; injection H as <-. unfold keyed; cbn. eauto.
Qed.
Lemma step_keyed m p a : keyed a (m_db m) -> keyed a (m_db (fst (step m p))).
Proof.
  intro K. destruct p as [now raw q|o now raw]; cbn [step].
  - unfold request. destruct (rotate _ _ _ _) eqn:E; cbn [fst m_db]; [|exact K]. eapply rotate_keyed; eauto.
  - destruct (new o now raw (m_db m)) eqn:E; cbn [fst m_db]; [|exact K]. eapply new_keyed; eauto.
Qed.
Lemma run_keyed l : forall m m' out a, keyed a (m_db m) -> run m l = (m', out) -> keyed a (m_db m').
Proof.
  induction l as [|p l IH]; intros m m' out a K H; cbn [run] in H.
  - injection H as <- _. exact K.
  - pose proof (step_keyed m p a K) as K1. destruct (step m p) as [m1 b]. destruct (run m1 l) as [m2 r] eqn:R.
    injection H as <- _. eapply IH; eauto.
Qed.

(** ** Delegates *)
Lemma documented_lower k a : In (k, a) documented -> to_lower k = k.
Proof. unfold documented. intro H. in_list; reflexivity. Qed.
Lemma documented_known k a : In (k, a) documented -> In (k, a) (known_types documented).
Proof. unfold known_types. rewrite in_app_iff. auto. Qed.
Lemma delegate_of_documented o : as_documented o -> exists a, generate tpm_type o (delegate_type o) = Some a /\ ocsp_signs a = true.
Proof.
  intros (a & I & C). unfold delegate_type. rewrite wanted_key_type. cbv zeta.
  destruct (str_eqb (wanted o) (lit "ed25519")) eqn:E.
  - apply str_eqb_spec in E. rewrite E in I.
    assert (a = Ed25519) by (unfold documented in I; in_list; first [discriminate | congruence]). subst a.
    destruct (o_tpm o) as [can|] eqn:T; [destruct C as [C _]; contradiction|].
    exists (EC 256). unfold generate. rewrite T. split; reflexivity.
  - apply str_eqb_neq in E. exists a. split.
    + apply generate_in. rewrite (documented_lower _ _ I). split; [apply documented_known; exact I|exact C].
    + destruct a; try reflexivity. exfalso. apply E. unfold documented in I. in_list; first [discriminate | congruence].
Qed.
Lemma documented_answered o now raw q d : as_documented o -> d_ca d <> None -> snd (request o now raw q d) = true.
Proof.
  intros D C. destruct (delegate_of_documented o D) as (a & G & S). unfold request, rotate.
  destruct (delegate_due now d) eqn:U; cbn [negb].
  - destruct (d_ca d) as [ca|]; [|contradiction]. rewrite G. cbn [snd d_delegates ct_alg]. destruct q; [exact S|reflexivity].
  - cbn [snd]. unfold delegate_due in U. destruct (d_delegates d) as [|c r]; [discriminate|].
    apply orb_false_iff in U as [_ U]. destruct q; [|reflexivity]. destruct (ct_alg c); [discriminate|reflexivity..].
Qed.
Lemma run_answered l : forall m m' out a, keyed a (m_db m) -> run m l = (m', out) ->
  forall o t raw q b, In (o, Ask t raw q, b) out -> as_documented o -> b = true.
Proof.
  induction l as [|p l IH]; intros m m' out a K H o t raw q b I D; cbn [run] in H.
  - injection H as _ <-. destruct I.
  - pose proof (step_keyed m p a K) as K1. destruct (step m p) as [m1 b1] eqn:S. destruct (run m1 l) as [m2 r] eqn:R.
    injection H as _ <-. destruct I as [I|I].
    + injection I as <- -> ->. cbn [step] in S. destruct (request _ _ _ _ _) as [d x] eqn:Q. injection S as _ <-.
      replace x with (snd (request (m_opts m) t raw q (m_db m))) by (rewrite Q; reflexivity).
      apply documented_answered; [exact D|]. destruct K as (_ & c & C & _). congruence.
    + eapply IH; eauto.
Qed.

(** A head that is used for half of its ten days. *)
Definition long_lived (d : db) : Prop :=
  match d_delegates d with [] => True | c :: _ => ocsp_signs (ct_alg c) = true /\ ct_until c = ct_from c + 10 * day end.
Lemma trunc_ten now : trunc (now + 10 * day) = trunc now + 10 * day.
Proof. unfold trunc, day, second. replace (now + 10 * (24 * 3600 * 1000000000)) with (now + (10 * 24 * 3600) * 1000000000) by lia. rewrite Z.div_add by lia. lia. Qed.
Lemma trunc_above now : now - second < trunc now.
Proof. unfold trunc, second. pose proof (Z.mod_pos_bound now 1000000000 ltac:(lia)). pose proof (Z.div_mod now 1000000000 ltac:(lia)). lia. Qed.
Lemma rotate_grows o now raw d d' : as_documented o -> long_lived d -> rotate o now raw d = Some d' ->
  long_lived d' /\
  ((d' = d) \/
   (List.length (d_issued d') = S (List.length (d_issued d)) /\
    match d_delegates d with [] => True | c :: _ => ct_from c + 5 * day < now end /\
    exists c r, d_delegates d' = c :: r /\ ct_from c = trunc now)).
Proof.
  intros D L. destruct (delegate_of_documented o D) as (a & G & Sg). unfold rotate.
  destruct (delegate_due now d) eqn:U; cbn [negb].
  - destruct (d_ca d) as [ca|]; [|discriminate]. rewrite G. intro H. injection H as <-. split.
    + unfold long_lived. cbn [d_delegates ct_alg ct_until ct_from]. split; [exact Sg|apply trunc_ten].
    + right. cbn [d_issued d_delegates]. rewrite app_length. cbn [List.length]. split; [lia|]. split; [|eauto].
      unfold delegate_due in U. unfold long_lived in L. destruct (d_delegates d) as [|c r]; [exact I|]. destruct L as [La Lu].
      destruct (ct_alg c); [discriminate|..]; cbn [alg_eqb] in U; rewrite orb_false_r in U; unfold half_passed in U; apply Z.ltb_lt in U; rewrite Lu in U;
        replace (ct_from c + 10 * day - ct_from c) with (5 * day * 2) in U by lia; rewrite Z.div_mul in U by lia; exact U.
  - intro H. injection H as <-. auto.
Qed.
Definition first_after (d : db) (l : list Z) : Prop :=
  match d_delegates d, l with c :: _, u :: _ => ct_from c + 5 * day < u | _, _ => True end.
Lemma growth_apart l : forall m, long_lived (m_db m) -> Forall as_documented (options (m_opts m) l) ->
  apart (5 * day - second) (growth m l) /\ first_after (m_db m) (growth m l).
Proof.
  induction l as [|p l IH]; intros m L F.
  - cbn. split; [exact I|]. unfold first_after. destruct (d_delegates _); exact I.
  - unfold options in F. apply Forall_cons_iff in F as [F0 F]. cbn [flat_map] in F.
    destruct p as [t raw q|o t raw]; cbn [growth].
    + cbn [app] in F. cbn [step]. unfold request. destruct (rotate (m_opts m) t raw (m_db m)) as [d'|] eqn:R; cbn [fst].
      * destruct (rotate_grows _ _ _ _ _ F0 L R) as [L' [E|(Len & Be & c & r & E & Fr)]].
        -- subst d'. unfold issued. cbn [m_db]. rewrite Nat.eqb_refl. cbn [app]. destruct m as [mo md]. apply (IH {| m_opts := mo; m_db := md |}); cbn; [exact L|].
           constructor; assumption.
        -- unfold issued. cbn [m_db]. rewrite Len. replace (S (List.length (d_issued (m_db m))) =? List.length (d_issued (m_db m)))%nat with false by (symmetry; apply Nat.eqb_neq; lia).
           cbn [app]. destruct (IH {| m_opts := m_opts m; m_db := d' |} L') as [A B]; [cbn; constructor; assumption|]. split.
           ++ cbn [apart]. split; [|exact A]. unfold first_after in B. cbn [m_db] in B. rewrite E in B. destruct (growth _ l) as [|u g]; [exact I|].
              rewrite Fr in B. pose proof (trunc_above t). lia.
           ++ unfold first_after. destruct (d_delegates (m_db m)); [exact I|]. exact Be.
      * unfold issued. cbn [m_db]. rewrite Nat.eqb_refl. cbn [app]. destruct m as [mo md]. apply (IH {| m_opts := mo; m_db := md |}); cbn; [exact L|]. constructor; assumption.
    + cbn [app] in F |- *. apply Forall_cons_iff in F as [Fo F]. cbn [step].
      destruct (new o t raw (m_db m)) as [d'|] eqn:N; cbn [fst].
      * assert (DD : d_delegates d' = d_delegates (m_db m)).
        { unfold new in N. destruct (match d_key (m_db m) with Some a => Some a | None => _ end); [|discriminate].
          destruct (match d_ca (m_db m) with None => true | Some c => half_passed c t end); injection N as <-; reflexivity. }
        destruct (IH {| m_opts := o; m_db := d' |}) as [A B]; [unfold long_lived; cbn [m_db]; rewrite DD; exact L|cbn; constructor; assumption|].
        split; [exact A|]. unfold first_after in *. cbn [m_db] in B. rewrite DD in B. exact B.
      * apply IH; [exact L|]. constructor; assumption.
Qed.

(** ** Capitals *)
Definition ed_only (d : db) : Prop := match d_delegates d with [] => True | c :: _ => ct_alg c = Ed25519 end.
Lemma capitals_step o now raw q d : o_tpm o = None -> to_lower (o_type o) = lit "ed25519" -> o_type o <> lit "ed25519" ->
  d_ca d <> None -> ed_only d ->
  let r := request o now raw q d in
  List.length (d_issued (fst r)) = S (List.length (d_issued d)) /\ d_ca (fst r) <> None /\ ed_only (fst r) /\ (q = Status -> snd r = false).
Proof.
  intros T Lo N C E. unfold request, rotate.
  assert (U : delegate_due now d = true).
  { unfold delegate_due. unfold ed_only in E. destruct (d_delegates d); [reflexivity|]. rewrite E. apply orb_true_r. }
  rewrite U. cbn [negb]. destruct (d_ca d) as [ca|]; [|contradiction].
  assert (G : generate tpm_type o (delegate_type o) = Some Ed25519).
  { assert (K : key_type o = o_type o) by (unfold key_type; destruct (o_type o); [discriminate Lo|reflexivity]).
    unfold delegate_type. rewrite K. cbv zeta. replace (str_eqb (o_type o) (lit "ed25519")) with false by (symmetry; apply str_eqb_neq; exact N).
    unfold generate. rewrite T. unfold generate_key. rewrite Lo. reflexivity. }
  rewrite G. cbn [fst snd d_issued d_ca d_delegates ct_alg ocsp_signs]. rewrite app_length. cbn [List.length].
  split; [lia|]. split; [discriminate|]. split; [reflexivity|]. intros ->. reflexivity.
Qed.
Lemma capitals_run o l : o_tpm o = None -> to_lower (o_type o) = lit "ed25519" -> o_type o <> lit "ed25519" ->
  forall d m out, d_ca d <> None -> ed_only d ->
  run {| m_opts := o; m_db := d |} (map (fun x => Ask (fst (fst x)) (snd (fst x)) (snd x)) l) = (m, out) ->
  issued m = (List.length (d_issued d) + List.length l)%nat /\ (forall o' t raw b, In (o', Ask t raw Status, b) out -> b = false).
Proof.
  intros T Lo N. induction l as [|[[t raw] q] l IH]; intros d m out C E H; cbn [map run] in H.
  - injection H as <- <-. unfold issued. cbn. split; [lia|intros o' t raw b []].
  - cbn [step fst snd m_opts m_db] in H. pose proof (capitals_step o t raw q d T Lo N C E) as X. cbv zeta in X.
    destruct (request o t raw q d) as [d1 b1]. cbn [fst snd] in X. destruct X as (X1 & X2 & X3 & X4).
    destruct (run _ _) as [m2 r] eqn:R. injection H as <- <-. destruct (IH _ _ _ X2 X3 R) as [Y1 Y2]. split.
    + rewrite Y1, X1. cbn [List.length]. lia.
    + intros o' t' raw' b [I|I]; [|eapply Y2; eauto]. injection I as _ _ _ -> ->. apply X4. reflexivity.
Qed.

(** ** Files *)
Lemma take_app n s a b r : take n s = Some (a, b) -> take n (s ++ r) = Some (a, b ++ r).
Proof.
  unfold take. destruct (List.length s <? n)%nat eqn:E; [discriminate|]. apply Nat.ltb_ge in E. intro H. injection H as <- <-.
  rewrite app_length. replace (List.length s + List.length r <? n)%nat with false by (symmetry; apply Nat.ltb_ge; lia).
  rewrite firstn_app, skipn_app. replace (n - List.length s)%nat with 0%nat by lia. cbn [firstn skipn]. rewrite app_nil_r. reflexivity.
Qed.
Lemma der_app s a b r : der_element s = Some (a, b) -> der_element (s ++ r) = Some (a, b ++ r).
Proof.
  unfold der_element. destruct s as [|tag [|len s]]; try discriminate. cbn [app].
  destruct (negb _); [discriminate|]. cbv zeta. destruct (_ <? 128)%nat.
  - destruct (take _ s) as [[x y]|] eqn:E; [|discriminate]. intro H. injection H as <- <-. rewrite (take_app _ _ _ _ _ E). reflexivity.
  - destruct (take _ s) as [[x y]|] eqn:E; [|discriminate]. rewrite (take_app _ _ _ _ _ E).
    destruct (take (number x 0) y) as [[u v]|] eqn:E2; [|discriminate]. intro H. injection H as <- <-. rewrite (take_app _ _ _ _ _ E2). reflexivity.
Qed.
Lemma one_not_more s r : one_certificate s -> r <> [] -> ~ one_certificate (s ++ r).
Proof.
  unfold one_certificate. intros H N X. rewrite (der_app _ _ _ r H) in X. cbn [app] in X. injection X as _ X. contradiction.
Qed.

Definition n2 (b1 b0 : bool) : N := N_of_ascii (Ascii b0 b1 false false false false false false).
Definition n4 (b3 b2 b1 b0 : bool) : N := N_of_ascii (Ascii b0 b1 b2 b3 false false false false).
Definition n6 (b5 b4 b3 b2 b1 b0 : bool) : N := N_of_ascii (Ascii b0 b1 b2 b3 b4 b5 false false).
Lemma index_char b5 b4 b3 b2 b1 b0 : index (b64_char b5 b4 b3 b2 b1 b0) alphabet 0 = Some (n6 b5 b4 b3 b2 b1 b0).
Proof. destruct b5, b4, b3, b2, b1, b0; vm_compute; reflexivity. Qed.
Lemma div16 b5 b4 b3 b2 b1 b0 : (n6 b5 b4 b3 b2 b1 b0 / 16)%N = n2 b5 b4.
Proof. destruct b5, b4, b3, b2, b1, b0; vm_compute; reflexivity. Qed.
Lemma mod16 b5 b4 b3 b2 b1 b0 : (n6 b5 b4 b3 b2 b1 b0 mod 16)%N = n4 b3 b2 b1 b0.
Proof. destruct b5, b4, b3, b2, b1, b0; vm_compute; reflexivity. Qed.
Lemma div4 b5 b4 b3 b2 b1 b0 : (n6 b5 b4 b3 b2 b1 b0 / 4)%N = n4 b5 b4 b3 b2.
Proof. destruct b5, b4, b3, b2, b1, b0; vm_compute; reflexivity. Qed.
Lemma mod4 b5 b4 b3 b2 b1 b0 : (n6 b5 b4 b3 b2 b1 b0 mod 4)%N = n2 b1 b0.
Proof. destruct b5, b4, b3, b2, b1, b0; vm_compute; reflexivity. Qed.
Lemma byte1 a7 a6 a5 a4 a3 a2 a1 a0 : ascii_of_N (n6 a7 a6 a5 a4 a3 a2 * 4 + n2 a1 a0) = Ascii a0 a1 a2 a3 a4 a5 a6 a7.
Proof. destruct a7, a6, a5, a4, a3, a2, a1, a0; vm_compute; reflexivity. Qed.
Lemma byte2 a7 a6 a5 a4 a3 a2 a1 a0 : ascii_of_N (n4 a7 a6 a5 a4 * 16 + n4 a3 a2 a1 a0) = Ascii a0 a1 a2 a3 a4 a5 a6 a7.
Proof. destruct a7, a6, a5, a4, a3, a2, a1, a0; vm_compute; reflexivity. Qed.
Lemma byte3 a7 a6 a5 a4 a3 a2 a1 a0 : ascii_of_N (n2 a7 a6 * 64 + n6 a5 a4 a3 a2 a1 a0) = Ascii a0 a1 a2 a3 a4 a5 a6 a7.
Proof. destruct a7, a6, a5, a4, a3, a2, a1, a0; vm_compute; reflexivity. Qed.
Lemma char_not_equal b5 b4 b3 b2 b1 b0 : Ascii.eqb (b64_char b5 b4 b3 b2 b1 b0) "=" = false.
Proof. destruct b5, b4, b3, b2, b1, b0; reflexivity. Qed.
Lemma unbase64_base64 s : unbase64 (base64 s) = Some s.
Proof.
  induction s as [|[a0 a1 a2 a3 a4 a5 a6 a7]|[a0 a1 a2 a3 a4 a5 a6 a7] [b0 b1 b2 b3 b4 b5 b6 b7]|[a0 a1 a2 a3 a4 a5 a6 a7] [b0 b1 b2 b3 b4 b5 b6 b7] [c0 c1 c2 c3 c4 c5 c6 c7] r IH] using base64_cases;
    cbn [base64 unbase64].
  - reflexivity.
  - rewrite !index_char, div16, byte1. reflexivity.
  - rewrite !index_char, !char_not_equal, div16, byte1, mod16, div4, byte2. reflexivity.
  - rewrite !index_char, !char_not_equal, div16, byte1, mod16, div4, byte2, mod4, byte3, IH. reflexivity.
Qed.

Lemma split_line a b : ~ In newline a -> split_on "010" (a ++ newline :: b) = a :: split_on "010" b.
Proof.
  induction a as [|x a IH]; intro N; cbn [app split_on].
  - reflexivity.
  - replace (Ascii.eqb x "010") with false by (symmetry; apply Ascii.eqb_neq; intro E; apply N; left; exact E).
    rewrite IH by (intro X; apply N; right; exact X). reflexivity.
Qed.
Lemma split_lines s : forall n pre rest, (1 <= n <= 64)%nat -> ~ In newline s -> ~ In newline pre -> (n = 64%nat -> pre = []) ->
  exists ls, split_on "010" (pre ++ lines n s ++ rest) = ls ++ split_on "010" rest /\ List.concat ls = pre ++ s.
Proof.
  induction s as [|c s IH]; intros n pre rest Hn Ns Np E; cbn [lines].
  - destruct (n =? 64)%nat eqn:X.
    + apply Nat.eqb_eq in X. rewrite (E X). exists []. split; reflexivity.
    + cbn [app]. rewrite split_line by exact Np. exists [pre]. split; [reflexivity|]. cbn. reflexivity.
  - assert (Nc : c <> newline) by (intro X; apply Ns; left; exact X).
    assert (Ns' : ~ In newline s) by (intro X; apply Ns; right; exact X).
    assert (Np' : ~ In newline (pre ++ [c])) by (rewrite in_app_iff; cbn [In]; intros [X|[X|[]]]; [exact (Np X)|exact (Nc X)]).
    destruct n as [|[|n]]; [lia|..].
    + destruct (IH 64%nat [] rest ltac:(lia) Ns' ltac:(intros []) ltac:(reflexivity)) as (ls & S1 & C1). cbn [app] in S1, C1.
      exists ((pre ++ [c]) :: ls). split.
      * replace (pre ++ (c :: newline :: lines 64 s) ++ rest) with ((pre ++ [c]) ++ newline :: lines 64 s ++ rest) by (rewrite <- app_assoc; reflexivity).
        rewrite split_line by exact Np'. rewrite S1. reflexivity.
      * cbn [List.concat]. rewrite C1, <- app_assoc. reflexivity.
    + destruct (IH (S n) (pre ++ [c]) rest ltac:(lia) Ns' Np' ltac:(lia)) as (ls & S1 & C1). exists ls. split.
      * replace (S (S n) - 1)%nat with (S n) by lia.
        replace (pre ++ (c :: lines (S n) s) ++ rest) with ((pre ++ [c]) ++ lines (S n) s ++ rest) by (rewrite <- app_assoc; reflexivity). exact S1.
      * rewrite C1, <- app_assoc. reflexivity.
Qed.
Lemma blocks_inside ls s rest : (forall x, In x ls -> ~ In "-"%char x) -> blocks (Some s) (ls ++ rest) = blocks (Some (s ++ List.concat ls)) rest.
Proof.
  revert s. induction ls as [|x ls IH]; intros s N; cbn [app List.concat].
  - rewrite app_nil_r. reflexivity.
  - cbn [blocks]. replace (str_eqb x (lit "-----END CERTIFICATE-----")) with false.
    + rewrite IH by (intros y I; apply N; right; exact I). rewrite <- app_assoc. reflexivity.
    + symmetry. apply str_eqb_neq. intros ->. apply (N (lit "-----END CERTIFICATE-----")); left; reflexivity.
Qed.
Lemma in_concat_of {A} (x : list A) ls c : In x ls -> In c x -> In c (List.concat ls).
Proof. intros. apply in_concat. eauto. Qed.
Lemma read_pem_app raw rest : read_pem (pem raw ++ rest) = match read_pem rest with Some l => Some (raw :: l) | None => None end.
Proof.
  unfold read_pem, pem. rewrite <- !app_assoc. cbn [app].
  replace (lit "-----BEGIN CERTIFICATE-----" ++ newline :: lines 64 (base64 raw) ++ lit "-----END CERTIFICATE-----" ++ newline :: rest)
    with (lit "-----BEGIN CERTIFICATE-----" ++ newline :: ([] ++ lines 64 (base64 raw) ++ (lit "-----END CERTIFICATE-----" ++ newline :: rest))) by reflexivity.
  rewrite split_line by (apply has_char_false; reflexivity).
  assert (Nb : ~ In newline (base64 raw)) by (apply base64_no; reflexivity).
  destruct (split_lines (base64 raw) 64 [] (lit "-----END CERTIFICATE-----" ++ newline :: rest) ltac:(lia) Nb ltac:(intros []) ltac:(reflexivity)) as (ls & S1 & C1).
  rewrite S1, split_line by (apply has_char_false; reflexivity). cbn [app] in C1.
  change (blocks None (lit "-----BEGIN CERTIFICATE-----" :: ls ++ lit "-----END CERTIFICATE-----" :: split_on "010" rest))
    with (blocks (Some []) (ls ++ lit "-----END CERTIFICATE-----" :: split_on "010" rest)).
  rewrite blocks_inside.
  - cbn [app]. rewrite C1. cbn [blocks]. rewrite str_eqb_refl, unbase64_base64. reflexivity.
  - intros x I X. assert (In "-"%char (base64 raw)) by (rewrite <- C1; eapply in_concat_of; eauto). revert H. apply base64_no. reflexivity.
Qed.
Lemma read_pems l : read_pem (List.concat (map pem l)) = Some l.
Proof.
  induction l as [|x l IH]; [reflexivity|]. cbn [map List.concat]. rewrite read_pem_app, IH. reflexivity.
Qed.

(** ** What is stored *)
Definition stored_ok (d : db) : Prop :=
  (exists c, d_ca d = Some c /\ one_certificate (ct_raw c)) /\ Forall (fun c => one_certificate (ct_raw c)) (d_delegates d) /\ (List.length (d_delegates d) <= 2)%nat.
Lemma firstn_one {A} (l : list A) : (List.length (firstn 1 l) <= 1)%nat.
Proof. rewrite firstn_length. lia. Qed.
Lemma rotate_stored o now raw d d' : one_certificate raw -> stored_ok d -> rotate o now raw d = Some d' -> stored_ok d' /\ d_delegates d' <> [].
Proof.
  intros R ((c & C & O) & F & N). unfold rotate. destruct (delegate_due now d) eqn:U; cbn [negb].
  - rewrite C. destruct (generate _ _ _); [|discriminate]. intro H; injection H as <-. unfold stored_ok. cbn [d_ca d_delegates]. split; [|discriminate].
    split; [exists c; auto|]. split.
    + constructor; [exact R|]. destruct (d_delegates d) as [|x y]; cbn [firstn]; [constructor|]. apply Forall_cons_iff in F as [F _]. constructor; [exact F|constructor].
    + cbn [List.length]. apply le_n_S. apply firstn_one.
  - intro H; injection H as <-. split; [unfold stored_ok; eauto|]. unfold delegate_due in U. destruct (d_delegates d); [discriminate U|discriminate].
Qed.
Lemma new_delegates o now raw d d' : new o now raw d = Some d' -> d_delegates d' = d_delegates d.
Proof.
  unfold new. destruct (match d_key d with Some a => Some a | None => _ end); [|discriminate].
  destruct (match d_ca d with None => true | Some c => half_passed c now end); intro H; injection H as <-; reflexivity.
Qed.
Lemma new_stored o now raw d d' : one_certificate raw -> stored_ok d -> new o now raw d = Some d' -> stored_ok d'.
Proof.
  intros R ((c & C & O) & F & N) H. pose proof (new_delegates _ _ _ _ _ H) as E. unfold stored_ok. rewrite E. split; [|auto].
  unfold new in H. rewrite C in H. destruct (match d_key d with Some a => Some a | None => _ end); [|discriminate].
  destruct (half_passed c now); injection H as <-; cbn [d_ca]; eauto.
Qed.
Lemma step_stored m p : one_certificate (raw_of p) -> stored_ok (m_db m) ->
  stored_ok (m_db (fst (step m p))) /\ (d_delegates (m_db m) <> [] -> d_delegates (m_db (fst (step m p))) <> []) /\
  (forall t raw q, p = Ask t raw q -> snd (step m p) = true -> d_delegates (m_db (fst (step m p))) <> []) /\
  ((forall t raw q, p <> Ask t raw q) -> d_delegates (m_db (fst (step m p))) = d_delegates (m_db m)).
Proof.
  intros R S. destruct p as [t raw q|o t raw]; cbn [raw_of] in R; cbn [step].
  - unfold request. destruct (rotate (m_opts m) t raw (m_db m)) as [d'|] eqn:E; cbn [fst snd m_db].
    + destruct (rotate_stored _ _ _ _ _ R S E) as [A B]. split; [exact A|]. split; [auto|]. split; [auto|]. intro X. exfalso. eapply X. reflexivity.
    + split; [exact S|]. split; [auto|]. split; [intros; discriminate|]. intro X. exfalso. eapply X. reflexivity.
  - destruct (new o t raw (m_db m)) as [d'|] eqn:E; cbn [fst snd m_db].
    + rewrite (new_delegates _ _ _ _ _ E). split; [eapply new_stored; eauto|]. split; [auto|]. split; [intros; discriminate|auto].
    + split; [exact S|]. split; [auto|]. split; [intros; discriminate|auto].
Qed.
Lemma run_stored l : forall m m' out, stored_ok (m_db m) -> Forall (fun p => one_certificate (raw_of p)) l -> run m l = (m', out) ->
  stored_ok (m_db m') /\ (d_delegates (m_db m) <> [] -> d_delegates (m_db m') <> []) /\
  ((exists o t raw q, In (o, Ask t raw q, true) out) -> d_delegates (m_db m') <> []) /\
  ((forall t raw q, ~ In (Ask t raw q) l) -> d_delegates (m_db m') = d_delegates (m_db m)).
Proof.
  induction l as [|p l IH]; intros m m' out S F H; cbn [run] in H.
  - injection H as <- <-. split; [exact S|]. split; [auto|]. split; [intros (o & t & raw & q & [])|auto].
  - apply Forall_cons_iff in F as [Fp F]. destruct (step_stored m p Fp S) as (S1 & D1 & A1 & N1).
    destruct (step m p) as [m1 b] eqn:E. cbn [fst snd] in *. destruct (run m1 l) as [m2 r] eqn:R. injection H as <- <-.
    destruct (IH _ _ _ S1 F R) as (S2 & D2 & A2 & N2). split; [exact S2|]. split; [auto|]. split.
    + intros (o & t & raw & q & [I|I]).
      * injection I as _ -> ->. apply D2. eapply A1; reflexivity.
      * apply A2. eauto 6.
    + intro X. rewrite N2 by (intros t raw q I; apply (X t raw q); right; exact I). apply N1. intros t raw q ->. apply (X t raw q). left. reflexivity.
Qed.
Lemma history_stored o t0 raw l m out : history o t0 raw l m out -> proper raw l ->
  stored_ok (m_db m) /\ ((exists o t raw q, In (o, Ask t raw q, true) out) -> d_delegates (m_db m) <> []) /\
  ((forall t raw q, ~ In (Ask t raw q) l) -> d_delegates (m_db m) = []).
Proof.
  intros (d & N & R) (P1 & P2).
  assert (S : stored_ok d /\ d_delegates d = []).
  { unfold new, empty_db in N. cbn [d_key d_ca d_delegates d_issued] in N. destruct (generate _ _ _); [|discriminate]. injection N as <-.
    unfold stored_ok. cbn [d_ca d_delegates List.length]. split; [|reflexivity]. split; [eexists; split; [reflexivity|exact P1]|]. split; [constructor|lia]. }
  destruct S as [S E]. destruct (run_stored l {| m_opts := o; m_db := d |} _ _ S P2 R) as (A & _ & B & C). cbn [m_db] in C. rewrite E in C. auto.
Qed.
Lemma history_keyed o t0 raw l m out : history o t0 raw l m out -> exists a, In (to_lower (wanted o), a) (known_types documented) /\ keyed a (m_db m).
Proof.
  intros (d & N & R). destruct (new_key _ _ _ _ _ N) as [K _]. destruct (d_key d) as [a|] eqn:E; [|contradiction].
  pose proof (proj1 (new_empty o t0 raw d a) (conj N E)) as (I & _ & ->). exists a. split; [exact I|].
  eapply run_keyed; [|exact R]. unfold keyed. cbn. eauto.
Qed.
