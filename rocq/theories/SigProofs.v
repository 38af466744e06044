(** Lemmas about SigModel. *)
From Verif Require Import Base SigModel SigSpec.
Open Scope N_scope.

Lemma ascii_small : forall c, N_of_ascii c < 256.
Proof. intros c. apply N_ascii_bounded. Qed.
Lemma pow_S : forall n, 256 ^ N.of_nat (S n) = 256 * 256 ^ N.of_nat n.
Proof. intros n. rewrite Nat2N.inj_succ, N.pow_succ_r'. reflexivity. Qed.
Lemma pow_pos : forall n, 0 < 256 ^ n.
Proof. intros n. apply N.neq_0_lt_0, N.pow_nonzero. discriminate. Qed.

Lemma number_small : forall s, number s < 256 ^ N.of_nat (List.length s).
Proof.
  induction s as [|c s IH]; [reflexivity|]. cbn [number List.length]. rewrite pow_S.
  pose proof (ascii_small c). nia.
Qed.
Lemma number_app : forall a b, number (a ++ b) = number a * 256 ^ N.of_nat (List.length b) + number b.
Proof.
  induction a as [|c a IH]; intros b; cbn [app number]; [lia|]. rewrite IH, app_length, Nat2N.inj_add, N.pow_add_r. lia.
Qed.
Lemma set_bytes_acc : forall s a, fold_left (fun a c => 256 * a + N_of_ascii c) s a = a * 256 ^ N.of_nat (List.length s) + number s.
Proof.
  induction s as [|c s IH]; intros a; cbn [fold_left number List.length]; [cbn; lia|]. rewrite IH, pow_S. lia.
Qed.
Lemma set_bytes_number : forall s, set_bytes s = number s.
Proof. intros s. unfold set_bytes. rewrite set_bytes_acc. lia. Qed.

Lemma fill_sound : forall n v l, fill_bytes n v = Some l -> List.length l = n /\ number l = v.
Proof.
  induction n as [|n IH]; intros v l H; cbn [fill_bytes] in H.
  - destruct (N.eqb_spec v 0) as [->|]; [|discriminate]. injection H as <-. split; reflexivity.
  - destruct (fill_bytes n (v / 256)) as [l'|] eqn:E; [|discriminate]. injection H as <-. destruct (IH _ _ E) as [L V].
    rewrite app_length, number_app. cbn [List.length number]. split; [lia|].
    rewrite N_ascii_embedding by (apply N.mod_lt; discriminate). rewrite V. pose proof (N.div_mod v 256). cbn [N.of_nat]. 
    change (256 ^ N.of_nat 1) with 256. change (256 ^ 0) with 1. lia.
Qed.
Lemma fill_some : forall n v, v < 256 ^ N.of_nat n -> exists l, fill_bytes n v = Some l.
Proof.
  induction n as [|n IH]; intros v H; cbn [fill_bytes].
  - change (256 ^ N.of_nat 0) with 1 in H. replace v with 0 by lia. eexists. reflexivity.
  - rewrite pow_S in H. destruct (IH (v / 256)) as [l E]; [apply N.div_lt_upper_bound; [discriminate|exact H]|].
    rewrite E. eexists. reflexivity.
Qed.
Lemma fill_none : forall n v, 256 ^ N.of_nat n <= v -> fill_bytes n v = None.
Proof.
  intros n v H. destruct (fill_bytes n v) as [l|] eqn:E; [|reflexivity]. destruct (fill_sound _ _ _ E) as [L V].
  pose proof (number_small l) as B. rewrite L, V in B. lia.
Qed.

Lemma long_sound : forall n s acc v r, long_length n s acc = Some (v, r) ->
  exists b, s = b ++ r /\ List.length b = n /\ v = acc * 256 ^ N.of_nat n + number b /\
    (acc = 0 -> match b with d :: _ => N_of_ascii d <> 0 | [] => n = O end).
Proof.
  induction n as [|n IH]; intros s acc v r H; cbn [long_length] in H.
  - injection H as <- <-. exists []. cbn. repeat split; lia.
  - destruct s as [|c s]; [discriminate|]. destruct (8388608 <=? acc); [discriminate|].
    destruct (N.eqb_spec (256 * acc + N_of_ascii c) 0) as [Z|Z]; [discriminate|].
    destruct (IH _ _ _ _ H) as (b & -> & L & V & _). exists (c :: b). cbn [app List.length number]. rewrite pow_S, V, L.
    repeat split; lia.
Qed.
Lemma long_complete : forall b acc r, acc * 256 ^ N.of_nat (List.length b) + number b < 2147483648 ->
  (acc = 0 -> match b with d :: _ => N_of_ascii d <> 0 | [] => True end) ->
  long_length (List.length b) (b ++ r) acc = Some (acc * 256 ^ N.of_nat (List.length b) + number b, r).
Proof.
  induction b as [|c b IH]; intros acc r H Z; cbn [long_length List.length app number].
  - cbn. f_equal. f_equal. lia.
  - cbn [List.length number] in H. rewrite pow_S in H. pose proof (pow_pos (N.of_nat (List.length b))) as P.
    destruct (N.leb_spec 8388608 acc) as [G|G]; [nia|].
    destruct (N.eqb_spec (256 * acc + N_of_ascii c) 0) as [Q|Q]; [exfalso; apply Z; lia|].
    rewrite IH; [f_equal; f_equal; rewrite pow_S; lia|lia|]. intros Q'. contradiction.
Qed.

Lemma length_sound : forall s n r, length_of s = Some (n, r) -> exists l, der_length n l /\ s = l ++ r.
Proof.
  intros [|c s] n r H; cbn [length_of] in H; [discriminate|].
  destruct (N.ltb_spec (N_of_ascii c) 128) as [S|S].
  - injection H as <- <-. exists [c]. split; [|reflexivity]. left. split; [exact S|]. rewrite ascii_N_embedding. reflexivity.
  - destruct (N.eqb_spec (N_of_ascii c) 128) as [Q|Q]; [discriminate|].
    destruct (long_length _ s 0) as [[v r']|] eqn:E; [|discriminate].
    destruct (N.ltb_spec v 128) as [V|V]; [discriminate|]. injection H as <- <-.
    destruct (long_sound _ _ _ _ _ E) as (b & -> & L & N & Z). exists (c :: b). split; [|reflexivity].
    right. split; [exact V|]. exists c, b. repeat split.
    + rewrite L, N2Nat.id. lia.
    + lia.
    + specialize (Z eq_refl). destruct b as [|d b]; [|exact Z]. lia.
Qed.
Lemma length_complete : forall n l r, der_length n l -> n < 2147483648 -> length_of (l ++ r) = Some (n, r).
Proof.
  intros n l r [[S ->]|(G & c & b & C & -> & V & Z)] B; cbn [app length_of].
  - rewrite N_ascii_embedding by lia. destruct (N.ltb_spec n 128); [reflexivity|lia].
  - destruct b as [|d b]; [destruct Z|].
    assert (0 < N.of_nat (List.length (d :: b))) by (cbn [List.length]; lia).
    destruct (N.ltb_spec (N_of_ascii c) 128); [lia|]. destruct (N.eqb_spec (N_of_ascii c) 128); [lia|].
    replace (N.to_nat (N_of_ascii c - 128)) with (List.length (d :: b)) by lia.
    rewrite long_complete; [|rewrite V; lia|intros _; exact Z]. rewrite V. cbn [N.mul N.add].
    destruct (N.ltb_spec n 128); [lia|reflexivity].
Qed.

Lemma element_sound : forall tag s c r, element tag s = Some (c, r) -> exists e, der_element tag c e /\ s = e ++ r.
Proof.
  intros tag [|x s] c r H; cbn [element] in H; [discriminate|].
  destruct (Ascii.eqb_spec x tag) as [->|]; [|discriminate].
  destruct (length_of s) as [[n q]|] eqn:E; [|discriminate].
  destruct (N.ltb_spec (N.of_nat (List.length q)) n) as [L|L]; [discriminate|]. injection H as <- <-.
  destruct (length_sound _ _ _ E) as (l & D & ->). exists (tag :: l ++ firstn (N.to_nat n) q). split.
  - exists l. split; [|reflexivity]. rewrite firstn_length_le by lia. rewrite N2Nat.id. exact D.
  - cbn [app]. rewrite <- app_assoc, firstn_skipn. reflexivity.
Qed.
Lemma element_complete : forall tag c e r, der_element tag c e -> N.of_nat (List.length c) < 2147483648 ->
  element tag (e ++ r) = Some (c, r).
Proof.
  intros tag c e r (l & D & ->) B. cbn [app element]. rewrite Ascii.eqb_refl, <- app_assoc.
  rewrite (length_complete _ _ _ D B). rewrite app_length.
  destruct (N.ltb_spec (N.of_nat (List.length c + List.length r)) (N.of_nat (List.length c))); [lia|].
  rewrite Nat2N.id, firstn_app, skipn_app, Nat.sub_diag, firstn_all, skipn_all. cbn. rewrite app_nil_r. reflexivity.
Qed.
Lemma element_length : forall tag c e, der_element tag c e -> (List.length c + 2 <= List.length e)%nat.
Proof.
  intros tag c e (l & D & ->). cbn [List.length]. rewrite app_length.
  destruct D as [[_ ->]|(_ & x & b & _ & -> & _)]; cbn [List.length]; lia.
Qed.

Lemma pow_256 : forall n, (2 ^ (8 * Z.of_nat n) = 256 ^ Z.of_nat n)%Z.
Proof. intros n. rewrite Z.pow_mul_r by lia. reflexivity. Qed.
Lemma integer_iff : forall z b, parse_big_int b = Some z <-> der_integer z b.
Proof.
  intros z [|x r]; [split; [discriminate|intros []]|]. unfold parse_big_int, der_integer.
  rewrite set_bytes_number, pow_256.
  assert (C : check_integer (x :: r) = true <-> match r with
      | [] => True
      | y :: _ => ~ (N_of_ascii x = 0 /\ N_of_ascii y < 128) /\ ~ (N_of_ascii x = 255 /\ 128 <= N_of_ascii y)
      end).
  { destruct r as [|y r]; [cbn; tauto|]. cbn [check_integer]. rewrite negb_true_iff, orb_false_iff, !andb_false_iff.
    rewrite !N.eqb_neq, N.ltb_ge, N.leb_gt. lia. }
  destruct (check_integer (x :: r)).
  - assert (C' := proj1 C eq_refl). destruct (128 <=? N_of_ascii x)%N; split; intros H.
    + injection H as <-. split; [reflexivity|exact C'].
    + destruct H as [-> _]. reflexivity.
    + injection H as <-. split; [rewrite Z.sub_0_r; reflexivity|exact C'].
    + destruct H as [-> _]. rewrite Z.sub_0_r. reflexivity.
  - split; [discriminate|]. intros [_ H]. apply C in H. discriminate.
Qed.

Lemma two_sound : forall fuel s r t, integers fuel s = Some [r; t] ->
  exists a b ea eb, der_integer r a /\ der_integer t b /\ der_element "002" a ea /\ der_element "002" b eb /\ s = ea ++ eb.
Proof.
  assert (N : forall fuel s, integers fuel s = Some [] -> s = []).
  { intros [|f] [|c s] H; cbn [integers] in H; try reflexivity; try discriminate.
    destruct (element "002" (c :: s)) as [[b q]|]; [|discriminate].
    destruct (parse_big_int b), (integers f q); discriminate. }
  assert (O : forall fuel s r l, integers fuel s = Some (r :: l) ->
    exists f a e q, der_integer r a /\ der_element "002" a e /\ s = e ++ q /\ integers f q = Some l).
  { intros [|f] [|c s] r l H; cbn [integers] in H; try discriminate.
    destruct (element "002" (c :: s)) as [[b q]|] eqn:E; [|discriminate].
    destruct (parse_big_int b) as [z|] eqn:P; [|discriminate]. destruct (integers f q) as [l'|] eqn:I; [|discriminate].
    injection H as <- <-. destruct (element_sound _ _ _ _ E) as (e & D & Q). exists f, b, e, q.
    split; [apply integer_iff, P|]. auto. }
  intros fuel s r t H. destruct (O _ _ _ _ H) as (f1 & a & ea & q & A & EA & -> & H1).
  destruct (O _ _ _ _ H1) as (f2 & b & eb & q2 & B & EB & -> & H2). apply N in H2. subst q2.
  exists a, b, ea, eb. rewrite app_nil_r. auto.
Qed.
Lemma two_complete : forall a b ea eb r t fuel, der_integer r a -> der_integer t b -> der_element "002" a ea -> der_element "002" b eb ->
  N.of_nat (List.length (ea ++ eb)) < 2147483648 -> (2 <= fuel)%nat -> integers fuel (ea ++ eb) = Some [r; t].
Proof.
  intros a b ea eb r t fuel A B EA EB L F. destruct fuel as [|[|fuel]]; try lia. rewrite app_length in L.
  pose proof (element_length _ _ _ EA) as LA. pose proof (element_length _ _ _ EB) as LB.
  apply integer_iff in A, B.
  assert (S2 : integers (S fuel) eb = Some [t]).
  { destruct eb as [|c eb']; [cbn in LB; lia|]. cbn [integers]. rewrite <- (app_nil_r (c :: eb')).
    rewrite (element_complete _ _ _ _ EB) by lia. rewrite B. destruct fuel; reflexivity. }
  remember (S fuel) as f1 eqn:F1. clear F1. destruct ea as [|c ea']; [cbn in LA; lia|]. cbn [integers app].
  change (c :: ea' ++ eb) with ((c :: ea') ++ eb). rewrite (element_complete _ _ _ _ EA) by lia. rewrite A.
  rewrite S2. reflexivity.
Qed.

Lemma unmarshal_sound : forall sig r s, unmarshal sig = Some [r; s] -> exists e rest, der_signature r s e /\ sig = e ++ rest.
Proof.
  intros sig r s H. unfold unmarshal in H. destruct (element "048" sig) as [[b rest]|] eqn:E; [|discriminate].
  destruct (two_sound _ _ _ _ H) as (x & y & ex & ey & A & B & C & D & ->). destruct (element_sound _ _ _ _ E) as (e & F & ->).
  exists e, rest. split; [|reflexivity]. exists x, y, ex, ey. auto.
Qed.
Lemma unmarshal_complete : forall sig r s rest, der_signature r s sig -> N.of_nat (List.length sig) < 2147483648 ->
  unmarshal (sig ++ rest) = Some [r; s].
Proof.
  intros sig r s rest (a & b & ea & eb & A & B & EA & EB & E) L. pose proof (element_length _ _ _ E) as LE.
  unfold unmarshal. rewrite (element_complete _ _ _ _ E) by lia. eapply two_complete; eauto; [lia|].
  pose proof (element_length _ _ _ EA). rewrite app_length. lia.
Qed.
