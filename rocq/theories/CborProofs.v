(** Lemmas about CborModel. *)
From Coq Require Import Lia ZArith.
From Verif Require Import Base LoginModel PasskeyModel PasskeySpec SignModel SignSpec CborModel CborSpec.
From Verif Require PasskeyProofs.
Open Scope list_scope.
Open Scope N_scope.

Lemma cut_at_spec : forall n s b r, cut_at n s = Some (b, r) <-> s = b ++ r /\ count b = n.
Proof.
  intros n s b r. unfold cut_at, count. split.
  - destruct (n <=? N.of_nat (List.length s)) eqn:L; [|discriminate]. intro H. injection H as <- <-. apply N.leb_le in L.
    split; [symmetry; apply firstn_skipn|]. rewrite firstn_length. lia.
  - intros [ -> <- ]. rewrite app_length. replace (N.of_nat (List.length b) <=? N.of_nat (List.length b + List.length r)) with true by (symmetry; apply N.leb_le; lia).
    rewrite Nnat.Nat2N.id. rewrite firstn_app, skipn_app, firstn_all, skipn_all, Nat.sub_diag. cbn. rewrite app_nil_r. reflexivity.
Qed.

Lemma byte_split : forall m ai, ai < 32 -> (32 * m + ai) / 32 = m /\ (32 * m + ai) mod 32 = ai.
Proof.
  intros m ai L. replace (32 * m + ai) with (ai + m * 32) by ring. rewrite N.div_add, N.mod_add, N.div_small, N.mod_small by lia. lia.
Qed.

Lemma head_spec : forall s m ai n r, read_head s = Some (m, ai, n, r) <-> exists h, s = h ++ r /\ head_text m ai n h.
Proof.
  intros s m ai n r. split.
  - unfold read_head. destruct s as [|c s]; [discriminate|]. set (x := N_of_ascii c).
    assert (X : x < 256) by (apply N_ascii_bounded).
    pose proof (N.div_mod x 32 ltac:(lia)) as D. pose proof (N.mod_lt x 32 ltac:(lia)) as ML.
    assert (M8 : x / 32 < 8) by (apply N.div_lt_upper_bound; lia).
    destruct (x mod 32 <? 24) eqn:A.
    + intro H. injection H as <- <- <- <-. apply N.ltb_lt in A. exists [c]. split; [reflexivity|]. exists c, []. split; [reflexivity|]. split; [exact D|]. split; [exact M8|]. left. auto.
    + destruct (x mod 32 <? 28) eqn:B; [|discriminate]. apply N.ltb_ge in A. apply N.ltb_lt in B.
      destruct (cut_at (2 ^ (x mod 32 - 24)) s) as [[b r']|] eqn:C; [|discriminate]. intro H. injection H as <- <- <- <-.
      apply cut_at_spec in C as [-> C]. exists (c :: b). split; [reflexivity|]. exists c, b. split; [reflexivity|]. split; [exact D|]. split; [exact M8|]. right.
      exists (List.length b). split; [|split; reflexivity]. unfold count in C.
      assert (Q : x mod 32 = 24 \/ x mod 32 = 25 \/ x mod 32 = 26 \/ x mod 32 = 27) by lia. clear - Q C. revert C.
      destruct Q as [Q|[Q|[Q|Q]]]; rewrite Q; intro C.
      * change (2 ^ (24 - 24)) with 1 in C. left. f_equal. lia.
      * change (2 ^ (25 - 24)) with 2 in C. right; left. f_equal. lia.
      * change (2 ^ (26 - 24)) with 4 in C. do 2 right; left. f_equal. lia.
      * change (2 ^ (27 - 24)) with 8 in C. do 3 right; left. f_equal. lia.
  - intros (h & -> & c & b & -> & E & M & K). cbn [app read_head]. rewrite E.
    destruct K as [(L & -> & ->)|(k & I & Lb & ->)].
    + destruct (byte_split m ai) as [-> ->]; [lia|]. replace (ai <? 24) with true by (symmetry; apply N.ltb_lt; exact L). reflexivity.
    + destruct (byte_split m ai) as [-> ->]; [cbn in I; destruct I as [I|[I|[I|[I|[]]]]]; injection I as <- _; lia|].
      assert (C : forall w, N.of_nat k = w -> cut_at w (b ++ r) = Some (b, r)) by (intros w <-; apply cut_at_spec; split; [reflexivity|unfold count; congruence]).
      cbn in I. destruct I as [I|[I|[I|[I|[]]]]]; injection I as <- <-; cbn [N.ltb N.compare Pos.compare Pos.compare_cont].
      * change (24 <? 24) with false. change (24 <? 28) with true. cbv iota. rewrite C by reflexivity. reflexivity.
      * change (25 <? 24) with false. change (25 <? 28) with true. cbv iota. rewrite C by reflexivity. reflexivity.
      * change (26 <? 24) with false. change (26 <? 28) with true. cbv iota. rewrite C by reflexivity. reflexivity.
      * change (27 <? 24) with false. change (27 <? 28) with true. cbv iota. rewrite C by reflexivity. reflexivity.
Qed.
Lemma head_nonempty : forall m ai n h, head_text m ai n h -> (1 <= List.length h)%nat.
Proof. intros m ai n h (c & b & -> & _). cbn. lia. Qed.
Lemma head_ai : forall m ai n h, head_text m ai n h -> ai < 24 /\ n = ai \/ ai = 24 \/ ai = 25 \/ ai = 26 \/ ai = 27.
Proof. intros m ai n h (c & b & _ & _ & _ & [(L & -> & _)|(k & I & _)]); [auto|]. cbn in I. destruct I as [I|[I|[I|[I|[]]]]]; injection I as <- _; auto. Qed.
Lemma head_m : forall m ai n h, head_text m ai n h -> m < 8.
Proof. intros m ai n h (c & b & _ & _ & M & _). exact M. Qed.

Lemma item_sound : forall f,
  (forall s v r, read_item f s = Some (v, r) -> exists t, s = t ++ r /\ cbor_text t v) /\
  (forall n s l r, read_items f n s = Some (l, r) -> exists t, s = t ++ r /\ items_text t l /\ count l = n) /\
  (forall n s l r, read_pairs f n s = Some (l, r) -> exists t, s = t ++ r /\ pairs_text t l /\ count l = n).
Proof.
  induction f as [|f (II & IL & IP)]; [repeat split; discriminate|]. split; [|split].
  - intros s v r H. cbn [read_item] in H. destruct (read_head s) as [[[[m ai] n] r0]|] eqn:Hd; [|discriminate].
    apply head_spec in Hd as (h & -> & Hd).
    destruct (m =? 0) eqn:M0; [apply N.eqb_eq in M0; subst m; injection H as <- <-; exists h; split; [reflexivity|econstructor; exact Hd]|].
    destruct (m =? 1) eqn:M1; [apply N.eqb_eq in M1; subst m; injection H as <- <-; exists h; split; [reflexivity|econstructor; exact Hd]|].
    destruct (m =? 2) eqn:M2.
    { apply N.eqb_eq in M2. subst m. destruct (cut_at n r0) as [[b r']|] eqn:C; [|discriminate]. injection H as <- <-. apply cut_at_spec in C as [-> <-].
      exists (h ++ b). split; [rewrite <- app_assoc; reflexivity|]. econstructor. exact Hd. }
    destruct (m =? 3) eqn:M3.
    { apply N.eqb_eq in M3. subst m. destruct (cut_at n r0) as [[b r']|] eqn:C; [|discriminate]. injection H as <- <-. apply cut_at_spec in C as [-> <-].
      exists (h ++ b). split; [rewrite <- app_assoc; reflexivity|]. econstructor. exact Hd. }
    destruct (m =? 4) eqn:M4.
    { apply N.eqb_eq in M4. subst m. destruct (read_items f n r0) as [[l r']|] eqn:C; [|discriminate]. injection H as <- <-. apply IL in C as (t & -> & T & <-).
      exists (h ++ t). split; [rewrite <- app_assoc; reflexivity|]. econstructor; eassumption. }
    destruct (m =? 5) eqn:M5.
    { apply N.eqb_eq in M5. subst m. destruct (read_pairs f n r0) as [[l r']|] eqn:C; [|discriminate]. injection H as <- <-. apply IP in C as (t & -> & T & <-).
      exists (h ++ t). split; [rewrite <- app_assoc; reflexivity|]. econstructor; eassumption. }
    destruct (m =? 6) eqn:M6.
    { apply N.eqb_eq in M6. subst m. destruct (read_item f r0) as [[v' r']|] eqn:C; [|discriminate]. injection H as <- <-. apply II in C as (t & -> & T).
      exists (h ++ t). split; [rewrite <- app_assoc; reflexivity|]. econstructor; eassumption. }
    apply N.eqb_neq in M0, M1, M2, M3, M4, M5, M6. pose proof (head_m _ _ _ _ Hd) as M8. assert (m = 7) by lia. subst m.
    pose proof (head_ai _ _ _ _ Hd) as Q. exists h.
    destruct (ai <? 24) eqn:A.
    { apply N.ltb_lt in A. destruct Q as [[_ ->]|Q]; [|lia]. injection H as <- <-. split; [reflexivity|]. apply ct_simple; assumption. }
    apply N.ltb_ge in A. destruct (ai =? 24) eqn:B.
    { apply N.eqb_eq in B. subst ai. destruct (n <? 32) eqn:C; [discriminate|]. injection H as <- <-. apply N.ltb_ge in C. split; [reflexivity|]. apply ct_simple8; assumption. }
    apply N.eqb_neq in B. injection H as <- <-. split; [reflexivity|]. apply ct_float with ai; [exact Hd|].
    destruct Q as [[Q _]|[Q|[Q|[Q|Q]]]]; try lia; subst ai; cbn; auto.
  - intros n s l r H. cbn [read_items] in H. destruct (n =? 0) eqn:Z; [injection H as <- <-; apply N.eqb_eq in Z; subst n; exists []; repeat split; constructor|].
    apply N.eqb_neq in Z. destruct (read_item f s) as [[v r0]|] eqn:R; [|discriminate]. apply II in R as (t & -> & T).
    destruct (read_items f (n - 1) r0) as [[l' r']|] eqn:R; [|discriminate]. injection H as <- <-. apply IL in R as (t' & -> & T' & C).
    exists (t ++ t'). split; [rewrite <- app_assoc; reflexivity|]. split; [constructor; assumption|]. unfold count in *. cbn [List.length]. lia.
  - intros n s l r H. cbn [read_pairs] in H. destruct (n =? 0) eqn:Z; [injection H as <- <-; apply N.eqb_eq in Z; subst n; exists []; repeat split; constructor|].
    apply N.eqb_neq in Z. destruct (read_item f s) as [[k r0]|] eqn:R; [|discriminate]. apply II in R as (t0 & -> & T0).
    destruct (read_item f r0) as [[v r1]|] eqn:R; [|discriminate]. apply II in R as (t & -> & T).
    destruct (read_pairs f (n - 1) r1) as [[l' r']|] eqn:R; [|discriminate]. injection H as <- <-. apply IP in R as (t' & -> & T' & C).
    exists (t0 ++ t ++ t'). split; [rewrite <- !app_assoc; reflexivity|]. split; [constructor; assumption|]. unfold count in *. cbn [List.length]. lia.
Qed.

Scheme ctext_ind := Minimality for cbor_text Sort Prop
  with ctexts_ind := Minimality for items_text Sort Prop
  with cpairs_ind := Minimality for pairs_text Sort Prop.
Combined Scheme cbor_texts_ind from ctext_ind, ctexts_ind, cpairs_ind.

Lemma item_nonempty : forall t v, cbor_text t v -> (1 <= List.length t)%nat.
Proof. intros t v H. destruct H; rewrite ?app_length; match goal with H : head_text _ _ _ _ |- _ => apply head_nonempty in H end; lia. Qed.

Lemma item_complete :
  (forall t v, cbor_text t v -> forall f r, (2 * List.length t <= f)%nat -> read_item f (t ++ r) = Some (v, r)) /\
  (forall t l, items_text t l -> forall f r, (2 * List.length t + 1 <= f)%nat -> read_items f (count l) (t ++ r) = Some (l, r)) /\
  (forall t l, pairs_text t l -> forall f r, (2 * List.length t + 1 <= f)%nat -> read_pairs f (count l) (t ++ r) = Some (l, r)).
Proof.
  assert (H0 : forall m ai n h f r, head_text m ai n h -> (2 * List.length h <= f)%nat -> exists g, f = S g /\ read_head (h ++ r) = Some (m, ai, n, r)).
  { intros m ai n h f r H L. pose proof (head_nonempty _ _ _ _ H). destruct f as [|g]; [lia|]. exists g. split; [reflexivity|]. apply head_spec. exists h. auto. }
  apply cbor_texts_ind.
  - intros ai n h H f r L. destruct (H0 _ _ _ _ f r H L) as (g & -> & E). cbn [read_item]. rewrite E. reflexivity.
  - intros ai n h H f r L. destruct (H0 _ _ _ _ f r H L) as (g & -> & E). cbn [read_item]. rewrite E. reflexivity.
  - intros ai h s H f r L. rewrite app_length in L. rewrite <- app_assoc. destruct (H0 _ _ _ _ f (s ++ r) H ltac:(lia)) as (g & -> & E). cbn [read_item]. rewrite E.
    change (2 =? 0) with false. change (2 =? 1) with false. change (2 =? 2) with true. cbv iota.
    replace (cut_at (count s) (s ++ r)) with (Some (s, r)) by (symmetry; apply cut_at_spec; auto). reflexivity.
  - intros ai h s H f r L. rewrite app_length in L. rewrite <- app_assoc. destruct (H0 _ _ _ _ f (s ++ r) H ltac:(lia)) as (g & -> & E). cbn [read_item]. rewrite E.
    change (3 =? 0) with false. change (3 =? 1) with false. change (3 =? 2) with false. change (3 =? 3) with true. cbv iota.
    replace (cut_at (count s) (s ++ r)) with (Some (s, r)) by (symmetry; apply cut_at_spec; auto). reflexivity.
  - intros ai h t l H T IH f r L. rewrite app_length in L. rewrite <- app_assoc. destruct (H0 _ _ _ _ f (t ++ r) H ltac:(lia)) as (g & -> & E). cbn [read_item]. rewrite E.
    change (4 =? 0) with false. change (4 =? 1) with false. change (4 =? 2) with false. change (4 =? 3) with false. change (4 =? 4) with true. cbv iota.
    apply head_nonempty in H. rewrite IH by lia. reflexivity.
  - intros ai h t l H T IH f r L. rewrite app_length in L. rewrite <- app_assoc. destruct (H0 _ _ _ _ f (t ++ r) H ltac:(lia)) as (g & -> & E). cbn [read_item]. rewrite E.
    change (5 =? 0) with false. change (5 =? 1) with false. change (5 =? 2) with false. change (5 =? 3) with false. change (5 =? 4) with false. change (5 =? 5) with true. cbv iota.
    apply head_nonempty in H. rewrite IH by lia. reflexivity.
  - intros ai n h t v H T IH f r L. rewrite app_length in L. rewrite <- app_assoc. destruct (H0 _ _ _ _ f (t ++ r) H ltac:(lia)) as (g & -> & E). cbn [read_item]. rewrite E.
    change (6 =? 0) with false. change (6 =? 1) with false. change (6 =? 2) with false. change (6 =? 3) with false. change (6 =? 4) with false. change (6 =? 5) with false. change (6 =? 6) with true. cbv iota.
    apply head_nonempty in H. rewrite IH by lia. reflexivity.
  - intros n h H A f r L. destruct (H0 _ _ _ _ f r H L) as (g & -> & E). cbn [read_item]. rewrite E.
    change (7 =? 0) with false. change (7 =? 1) with false. change (7 =? 2) with false. change (7 =? 3) with false. change (7 =? 4) with false. change (7 =? 5) with false. change (7 =? 6) with false. cbv iota.
    apply N.ltb_lt in A. rewrite A. reflexivity.
  - intros n h H A f r L. destruct (H0 _ _ _ _ f r H L) as (g & -> & E). cbn [read_item]. rewrite E.
    change (7 =? 0) with false. change (7 =? 1) with false. change (7 =? 2) with false. change (7 =? 3) with false. change (7 =? 4) with false. change (7 =? 5) with false. change (7 =? 6) with false. cbv iota.
    change (24 <? 24) with false. change (24 =? 24) with true. cbv iota. apply N.ltb_ge in A. rewrite A. reflexivity.
  - intros ai w n h H I f r L. destruct (H0 _ _ _ _ f r H L) as (g & -> & E). cbn [read_item]. rewrite E.
    change (7 =? 0) with false. change (7 =? 1) with false. change (7 =? 2) with false. change (7 =? 3) with false. change (7 =? 4) with false. change (7 =? 5) with false. change (7 =? 6) with false. cbv iota.
    cbn in I. destruct I as [I|[I|[I|[]]]]; injection I as <- <-; reflexivity.
  - intros f r L. destruct f as [|f]; [lia|]. reflexivity.
  - intros t v t' l T IV T' IL f r L. rewrite app_length in L. destruct f as [|f]; [lia|]. cbn [read_items].
    replace (count (v :: l) =? 0) with false by (symmetry; apply N.eqb_neq; unfold count; cbn; lia).
    apply item_nonempty in T. rewrite <- app_assoc. rewrite IV by lia.
    replace (count (v :: l) - 1) with (count l) by (unfold count; cbn [List.length]; lia). rewrite IL by lia. reflexivity.
  - intros f r L. destruct f as [|f]; [lia|]. reflexivity.
  - intros s k t v t' l S0 IK T IV T' IL f r L. rewrite !app_length in L. destruct f as [|f]; [lia|]. cbn [read_pairs].
    replace (count ((k, v) :: l) =? 0) with false by (symmetry; apply N.eqb_neq; unfold count; cbn; lia).
    apply item_nonempty in T, S0. rewrite <- !app_assoc. rewrite IK by lia. rewrite IV by lia.
    replace (count ((k, v) :: l) - 1) with (count l) by (unfold count; cbn [List.length]; lia). rewrite IL by lia. reflexivity.
Qed.

Lemma cbor_spec : forall s v r, read_cbor s = Some (v, r) <-> exists t, s = t ++ r /\ cbor_text t v.
Proof.
  intros s v r. unfold read_cbor. split; [apply (proj1 (item_sound _))|].
  intros (t & -> & T). apply (proj1 item_complete); [exact T|]. rewrite app_length. lia.
Qed.
Lemma first_spec : forall s t r, first_item s = Some (t, r) <-> s = t ++ r /\ exists v, cbor_text t v.
Proof.
  intros s t r. unfold first_item. split.
  - destruct (read_cbor s) as [[v r']|] eqn:R; [|discriminate]. intro H. injection H as H <-. apply cbor_spec in R as (t' & -> & T).
    rewrite app_length in H. replace (List.length t' + List.length r' - List.length r')%nat with (List.length t') in H by lia.
    rewrite firstn_app, firstn_all, Nat.sub_diag in H. cbn in H. rewrite app_nil_r in H. subst t'. split; [reflexivity|]. exists v. exact T.
  - intros (-> & v & T). replace (read_cbor (t ++ r)) with (Some (v, r)) by (symmetry; apply cbor_spec; exists t; auto).
    rewrite app_length. replace (List.length t + List.length r - List.length r)%nat with (List.length t) by lia.
    rewrite firstn_app, firstn_all, Nat.sub_diag. cbn. rewrite app_nil_r. reflexivity.
Qed.
Lemma whole_spec : forall s v, whole_item s = Some v <-> cbor_text s v.
Proof.
  intros s v. unfold whole_item. split.
  - destruct (read_cbor s) as [[v' [|c r]]|] eqn:R; try discriminate. intro H. injection H as <-. apply cbor_spec in R as (t & -> & T). rewrite app_nil_r. exact T.
  - intro T. replace (read_cbor s) with (Some (v, @nil ascii)) by (symmetry; apply cbor_spec; exists s; rewrite app_nil_r; auto). reflexivity.
Qed.

(** ** Keys and attestation objects *)

Lemma int_of_cint : forall z, int_of (cint z) = Some z.
Proof.
  intro z. unfold cint. destruct (Z.ltb_spec z 0) as [L|L]; cbn [int_of]; rewrite Z2N.id by lia.
  - replace (-1 - (-1 - z))%Z with z by lia. reflexivity.
  - reflexivity.
Qed.
Lemma item_of_cint : forall z, (Z.abs z < 2 ^ 63)%Z -> item_of (cint z) = CInt z.
Proof.
  intros z B. unfold cint. assert (P : forall y, (0 <= y < 2 ^ 63)%Z -> (Z.to_N y <? 2 ^ 63) = true).
  { intros y Hy. apply N.ltb_lt. apply N2Z.inj_lt. rewrite Z2N.id by lia. exact (proj2 Hy). }
  destruct (Z.ltb_spec z 0) as [L|L]; cbn [item_of]; rewrite P by lia; rewrite Z2N.id by lia.
  - replace (-1 - (-1 - z))%Z with z by lia. reflexivity.
  - reflexivity.
Qed.

Definition labels (l : list (cbor * cbor)) : list (Z * citem) :=
  List.concat (map (fun kv => match int_of (fst kv) with Some k => [(k, item_of (snd kv))] | None => [] end) l).
Lemma label_at : forall l k v, value_at l k v -> label k (labels l) = Some (item_of v).
Proof.
  intros l k v (before & after & -> & F). induction F as [|[k0 v0] b H F IH].
  - unfold labels. cbn [app map List.concat fst snd]. rewrite int_of_cint. cbn [app label]. rewrite Z.eqb_refl. reflexivity.
  - unfold labels. cbn [app map List.concat fst snd]. cbn [fst] in H. destruct (int_of k0) as [z|]; [|exact IH].
    cbn [app label]. replace (k =? z)%Z with false by (symmetry; apply Z.eqb_neq; congruence). exact IH.
Qed.
Lemma key_labels_spec : forall s l, cbor_text s (CMap l) -> key_labels s = Some (labels l).
Proof. intros s l T. unfold key_labels. apply whole_spec in T. rewrite T. reflexivity. Qed.

Lemma es256_spec : forall lib key x y, sl_decode lib = key_labels -> es256_key key x y -> sl_on_curve lib (big_endian x) (big_endian y) = true ->
  es256 lib key (big_endian x) (big_endian y).
Proof.
  intros lib key x y D (l & T & A1 & A3 & Am1 & Am2 & Am3) C. exists (labels l), x, y. rewrite D. split; [apply key_labels_spec; exact T|].
  apply label_at in A1, A3, Am1, Am2, Am3. unfold bytes_field. rewrite A1, A3, Am1, Am2, Am3. cbn [item_of].
  repeat split; auto.
Qed.
Lemma rs256_spec : forall lib key n e, sl_decode lib = key_labels -> rs256_key key n e -> rs256 lib key (big_endian n) e.
Proof.
  intros lib key n e D (l & T & A1 & A3 & Am1 & Am2 & B). exists (labels l), n. rewrite D. split; [apply key_labels_spec; exact T|].
  apply label_at in A1, A3, Am1, Am2. unfold bytes_field, int_field. rewrite A1, A3, Am1, Am2. rewrite (item_of_cint e B). cbn [item_of].
  repeat split; auto.
Qed.

Lemma named_at : forall l k v, text_at l k v -> named k l = Some v.
Proof.
  intros l k v (before & after & -> & F). induction F as [|[k0 v0] b H F IH].
  - cbn. rewrite str_eqb_refl. reflexivity.
  - cbn [app named fst] in *. destruct k0; try exact IH. replace (str_eqb k s) with false; [exact IH|]. symmetry. apply str_eqb_neq. congruence.
Qed.
Lemma attested_spec : forall att auth, attestation_text att auth -> attested_data att = Some auth.
Proof.
  intros att auth (l & format & T & A & B). unfold attested_data. apply whole_spec in T. rewrite T. apply named_at in A, B. rewrite A, B. reflexivity.
Qed.

Lemma auth_data_spec : forall raw rp creds more, auth_data_text raw rp creds more -> (forall a i k, creds = Some (a, i, k) -> exists v, cbor_text k v) ->
  exists ad, parse_auth_data first_item raw = Ok ad /\ ad_rp ad = rp /\ ad_up ad = true /\ ad_uv ad = true /\ ad_creds ad = creds.
Proof.
  intros raw rp creds more (flags & cnt & L1 & L2 & F0 & F2 & K) W.
  exists {| ad_rp := rp; ad_up := true; ad_uv := true; ad_be := N.testbit (N_of_ascii flags) 3; ad_bs := N.testbit (N_of_ascii flags) 4;
           ad_at := N.testbit (N_of_ascii flags) 6; ad_ed := N.testbit (N_of_ascii flags) 7; ad_count := big_endian cnt; ad_creds := creds |}.
  split; [|repeat split]. apply PasskeyProofs.parse_layout with (trailing := more).
  destruct creds as [[[aaguid id] key]|].
  - destruct K as (F6 & L3 & L4 & len & L5 & B & ->). exists flags, cnt, (Some (aaguid, len, id, key)). cbn [ad_rp ad_up ad_uv ad_be ad_bs ad_at ad_ed ad_count ad_creds].
    destruct (W _ _ _ eq_refl) as [v V]. repeat (split; [solve [auto]|]). apply first_spec. split; [reflexivity|]. exists v. exact V.
  - destruct K as (F6 & ->). exists flags, cnt, None. cbn [ad_rp ad_up ad_uv ad_be ad_bs ad_at ad_ed ad_count ad_creds]. repeat split; auto.
Qed.
