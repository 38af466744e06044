(** Proofs about the published keys. *)
From Verif Require Import Base XfccModel XfccProofs TokenModel TokenSpec KeysProofs JwksModel JwksSpec.
Open Scope list_scope.
Local Open Scope N_scope.

(** ** Numbers *)
Lemma number_app a b : number (a ++ b) = number a * 256 ^ N.of_nat (List.length b) + number b.
Proof.
  unfold number. rewrite fold_left_app. generalize (fold_left (fun n c => n * 256 + N_of_ascii c) a 0) as m.
  induction b as [|c b IH] using rev_ind; intro m.
  - cbn. lia.
  - rewrite !fold_left_app, app_length. cbn [fold_left List.length]. rewrite IH.
    replace (N.of_nat (List.length b + 1)) with (N.succ (N.of_nat (List.length b))) by lia. rewrite N.pow_succ_r'. lia.
Qed.
Lemma number_cons c b : number (c :: b) = N_of_ascii c * 256 ^ N.of_nat (List.length b) + number b.
Proof. change (c :: b) with ([c] ++ b). rewrite number_app. unfold number at 1. cbn [fold_left]. lia. Qed.

Lemma le_bytes_value fuel n : n < 2 ^ N.of_nat fuel -> number (rev (le_bytes fuel n)) = n.
Proof.
  revert n. induction fuel as [|fuel IH]; intros n H.
  - cbn in H. cbn. lia.
  - cbn [le_bytes]. destruct (N.eqb_spec n 0) as [->|Hn]; [reflexivity|]. cbn [rev].
    rewrite number_app. cbn [List.length]. change (256 ^ N.of_nat 1) with 256.
    rewrite IH.
    + unfold number. cbn [fold_left]. rewrite N_ascii_embedding by (apply N.mod_lt; discriminate).
      rewrite (N.div_mod n 256) at 3 by discriminate. lia.
    + replace (N.of_nat (S fuel)) with (N.succ (N.of_nat fuel)) in H by lia. rewrite N.pow_succ_r' in H.
      apply N.div_lt_upper_bound; [discriminate|]. lia.
Qed.
Lemma size_nat_size n : N.of_nat (N.size_nat n) = N.size n.
Proof.
  destruct n as [|p]; [reflexivity|]. cbn [N.size_nat N.size]. induction p as [p IH|p IH|]; cbn [Pos.size_nat Pos.size]; [| |reflexivity]; lia.
Qed.
Lemma int_bytes_value n : number (int_bytes n) = n.
Proof. unfold int_bytes. apply le_bytes_value. rewrite size_nat_size. apply N.size_gt. Qed.

Lemma le_bytes_length fuel n m : n < 2 ^ N.of_nat fuel -> 256 ^ m <= n < 256 ^ (m + 1) -> List.length (le_bytes fuel n) = S (N.to_nat m).
Proof.
  revert n m. induction fuel as [|fuel IH]; intros n m H Hn.
  - cbn in H. assert (256 ^ m <> 0) by (apply N.pow_nonzero; discriminate). lia.
  - assert (P : 256 ^ m <> 0) by (apply N.pow_nonzero; discriminate).
    cbn [le_bytes]. destruct (N.eqb_spec n 0) as [->|Hz]; [lia|]. cbn [List.length]. f_equal.
    assert (D : n / 256 < 2 ^ N.of_nat fuel).
    { replace (N.of_nat (S fuel)) with (N.succ (N.of_nat fuel)) in H by lia. rewrite N.pow_succ_r' in H.
      apply N.div_lt_upper_bound; [discriminate|]. lia. }
    destruct (N.eq_dec m 0) as [->|Hm].
    + cbn in Hn. assert (Z : n / 256 = 0) by (apply N.div_small; lia). rewrite Z. destruct fuel; reflexivity.
    + rewrite (IH (n / 256) (m - 1)); [lia|exact D|].
      assert (E1 : 256 ^ m = 256 * 256 ^ (m - 1)) by (rewrite <- N.pow_succ_r'; f_equal; lia).
      assert (E2 : 256 ^ (m + 1) = 256 * 256 ^ m) by (rewrite <- N.pow_succ_r'; f_equal; lia).
      replace (m - 1 + 1) with m by lia. split.
      * apply N.div_le_lower_bound; [discriminate|]. lia.
      * apply N.div_lt_upper_bound; [discriminate|]. lia.
Qed.
Lemma int_bytes_32 x : 2 ^ 248 <= x < 2 ^ 256 -> List.length (int_bytes x) = 32%nat.
Proof.
  intro H. unfold int_bytes. rewrite rev_length. rewrite (le_bytes_length _ x 31); [reflexivity| |].
  - rewrite size_nat_size. apply N.size_gt.
  - exact H.
Qed.

(** ** Base64 *)
Lemma char_bits b5 b4 b3 b2 b1 b0 r l : all_bits r = Some l ->
  all_bits (b64u_char b5 b4 b3 b2 b1 b0 :: r) = Some (b5 :: b4 :: b3 :: b2 :: b1 :: b0 :: l).
Proof. intro H. cbn [all_bits]. rewrite H. destruct b5, b4, b3, b2, b1, b0; reflexivity. Qed.
Lemma unb64u_b64u s : unb64u (b64u s) = Some s.
Proof.
  assert (E : exists l, all_bits (b64u s) = Some l /\ bytes_of l = s).
  { induction s as [|[a0 a1 a2 a3 a4 a5 a6 a7]|[a0 a1 a2 a3 a4 a5 a6 a7] [b0 b1 b2 b3 b4 b5 b6 b7]|[a0 a1 a2 a3 a4 a5 a6 a7] [b0 b1 b2 b3 b4 b5 b6 b7] [c0 c1 c2 c3 c4 c5 c6 c7] r IH] using base64_cases; cbn [b64u].
    - exists []. auto.
    - eexists. split; [repeat (eapply char_bits; try reflexivity)|]. reflexivity.
    - eexists. split; [do 3 (eapply char_bits; try reflexivity)|]. reflexivity.
    - destruct IH as (l & H1 & H2). eexists. split; [do 4 eapply char_bits; exact H1|]. cbn [bytes_of]. rewrite H2. reflexivity. }
  destruct E as (l & H1 & H2). unfold unb64u. rewrite H1. cbn [option_map]. rewrite H2. reflexivity.
Qed.

(** ** JSON *)
Definition toks (s : str) (ts : list token) : Prop :=
  forall r, tokens_from (s ++ r) None = option_map (app ts) (tokens_from r None).

Lemma toks_app a b ta tb : toks a ta -> toks b tb -> toks (a ++ b) (ta ++ tb).
Proof.
  intros Ha Hb r. rewrite <- app_assoc, Ha, Hb. destruct (tokens_from r None); cbn [option_map]; [|reflexivity].
  rewrite app_assoc. reflexivity.
Qed.
Lemma toks_nil : toks [] [].
Proof. intro r. cbn [app]. destruct (tokens_from r None); reflexivity. Qed.
Lemma toks_space c s : is_space c = true -> toks s [] -> toks (c :: s) [].
Proof. intros H Hs r. cbn [app tokens_from]. rewrite H. apply Hs. Qed.
Lemma toks_nl n : toks (nl n) [].
Proof.
  unfold nl. apply toks_space; [reflexivity|]. induction n as [|n IH]; [apply toks_nil|]. cbn [repeat]. apply toks_space; [reflexivity|exact IH].
Qed.
Lemma toks_pun c : has_char c (lit "{}[]:,") = true -> toks [c] [Pun c].
Proof.
  intros H r. cbn [app tokens_from].
  assert (E : is_space c = false /\ Ascii.eqb c """" = false).
  { clear - H. destruct c as [[] [] [] [] [] [] [] []]; try discriminate H; split; reflexivity. }
  destruct E as [-> ->]. rewrite H. destruct (tokens_from r None); reflexivity.
Qed.
Lemma plain_string s w r : Forall (fun c => plain c = true) s ->
  tokens_from (s ++ """"%char :: r) (Some w) = option_map (cons (Txt (rev w ++ s))) (tokens_from r None).
Proof.
  revert w. induction s as [|c s IH]; intros w H.
  - cbn [app tokens_from]. rewrite app_nil_r. reflexivity.
  - inversion H as [|? ? Hc Hs]; subst. cbn [app tokens_from]. rewrite Hc.
    assert (E : Ascii.eqb c """" = false).
    { destruct (Ascii.eqb_spec c """") as [->|_]; [discriminate Hc|reflexivity]. }
    rewrite E, IH by exact Hs. cbn [rev]. rewrite <- app_assoc. reflexivity.
Qed.
Lemma toks_string s : Forall (fun c => plain c = true) s -> toks (json_string s) [Txt s].
Proof.
  intros H r. unfold json_string. cbn [app]. rewrite <- app_assoc. cbn [app].
  change (tokens_from (quote :: s ++ quote :: r) None) with (tokens_from (s ++ """"%char :: r) (Some [])).
  rewrite plain_string by exact H. destruct (tokens_from r None); reflexivity.
Qed.
Lemma toks_commas sep l tl : toks sep [] -> Forall2 toks l tl -> toks (comma_sep sep l) (commas tl).
Proof.
  intros Hs H. induction H as [|x t l tl Hx H IH]; [apply toks_nil|]. destruct H as [|x' t' l tl Hx' H].
  - exact Hx.
  - change (comma_sep sep (x :: x' :: l)) with (x ++ lit "," ++ sep ++ comma_sep sep (x' :: l)).
    change (commas (t :: t' :: tl)) with (t ++ [Pun ","%char] ++ [] ++ commas (t' :: tl)).
    apply toks_app; [exact Hx|]. apply toks_app; [apply toks_pun; reflexivity|]. apply toks_app; [exact Hs|exact IH].
Qed.

Definition plain_text (s : str) : Prop := Forall (fun c => plain c = true) s.
Lemma toks_object fs : Forall (fun kv => plain_text (fst kv) /\ plain_text (snd kv)) fs -> toks (json_object fs) (object fs).
Proof.
  intro H. unfold json_object, object.
  change (Pun "{"%char :: commas (map (fun kv => [Txt (fst kv); Pun ":"%char; Txt (snd kv)]) fs) ++ [Pun "}"%char])
    with ([Pun "{"%char] ++ [] ++ commas (map (fun kv => [Txt (fst kv); Pun ":"%char; Txt (snd kv)]) fs) ++ [] ++ [Pun "}"%char]).
  apply toks_app; [apply toks_pun; reflexivity|]. apply toks_app; [apply toks_nl|].
  apply toks_app; [|apply toks_app; [apply toks_nl|apply toks_pun; reflexivity]].
  apply toks_commas; [apply toks_nl|]. induction H as [|kv fs [Hk Hv] H IH]; cbn [map]; constructor; [|exact IH].
  change [Txt (fst kv); Pun ":"%char; Txt (snd kv)] with ([Txt (fst kv)] ++ ([Pun ":"%char] ++ []) ++ [Txt (snd kv)]).
  apply toks_app; [apply toks_string; exact Hk|]. apply toks_app; [|apply toks_string; exact Hv].
  change (lit ": ") with ([":"%char] ++ [" "%char]). apply toks_app; [apply toks_pun; reflexivity|].
  apply toks_space; [reflexivity|apply toks_nil].
Qed.

Definition jwk_plain (j : jwk) : Prop := Forall (fun kv => plain_text (fst kv) /\ plain_text (snd kv)) (jwk_fields j).
Lemma jwks_tokens l : l <> [] -> Forall jwk_plain l -> tokens (jwks_text l) = Some (key_set (map jwk_fields l)).
Proof.
  intros Hl H. unfold tokens.
  assert (T : toks (jwks_text l) (key_set (map jwk_fields l))).
  { unfold jwks_text, key_set. destruct l as [|j l]; [congruence|]. clear Hl.
    replace ([Pun "{"%char; Txt (lit "keys"); Pun ":"%char; Pun "["%char] ++ commas (map object (map jwk_fields (j :: l))) ++ [Pun "]"%char; Pun "}"%char])
      with ([Pun "{"%char] ++ [] ++ [Txt (lit "keys")] ++ ([Pun ":"%char] ++ []) ++
        (([Pun "["%char] ++ [] ++ commas (map object (map jwk_fields (j :: l))) ++ [] ++ [Pun "]"%char]) ++ ([] ++ [Pun "}"%char]))) by (cbn [app]; rewrite <- app_assoc; reflexivity).
    apply toks_app; [apply toks_pun; reflexivity|]. apply toks_app; [apply toks_nl|].
    apply toks_app; [apply toks_string; apply Forall_forall; intros c Hc; cbn in Hc; repeat (destruct Hc as [<-|Hc]; [reflexivity|]); destruct Hc|].
    apply toks_app.
    { change (lit ": ") with ([":"%char] ++ [" "%char]). apply toks_app; [apply toks_pun; reflexivity|].
      apply toks_space; [reflexivity|apply toks_nil]. }
    apply toks_app; [|apply toks_app; [apply toks_nl|apply toks_pun; reflexivity]].
    apply toks_app; [apply toks_pun; reflexivity|]. apply toks_app; [apply toks_nl|].
    apply toks_app; [|apply toks_app; [apply toks_nl|apply toks_pun; reflexivity]].
    apply toks_commas; [apply toks_nl|]. rewrite map_map.
    induction H as [|x xs Hx H IH]; cbn [map]; constructor; [|exact IH]. apply toks_object. exact Hx. }
  specialize (T []). rewrite app_nil_r in T. rewrite T. cbn [tokens_from option_map]. rewrite app_nil_r. reflexivity.
Qed.

(** ** Characters *)
Lemma b64u_plain s : plain_text (b64u s).
Proof.
  assert (C : forall b5 b4 b3 b2 b1 b0, plain (b64u_char b5 b4 b3 b2 b1 b0) = true) by (intros [] [] [] [] [] []; reflexivity).
  unfold plain_text.
  induction s as [|[]|[] []|[] [] [] r IH] using base64_cases; cbn [b64u]; repeat (constructor; [apply C|]); auto.
Qed.
Lemma hex_plain s : plain_text (hex s).
Proof.
  unfold plain_text, hex. induction s as [|c s IH]; cbn [map List.concat app]; [constructor|].
  assert (D : forall n, n < 16 -> plain (hex_digit false n) = true).
  { intros n Hn. assert (Hin : In n (map N.of_nat (seq 0 16))).
    { apply in_map_iff. exists (N.to_nat n). rewrite N2Nat.id. split; [reflexivity|]. apply in_seq. lia. }
    cbn in Hin. repeat (destruct Hin as [<-|Hin]; [reflexivity|]). destruct Hin. }
  pose proof (N_ascii_bounded c) as Hb.
  constructor; [apply D; apply N.div_lt_upper_bound; lia|]. constructor; [apply D; apply N.mod_lt; lia|exact IH].
Qed.
Ltac lit_plain := apply Forall_forall; let c := fresh in let Hc := fresh in intros c Hc; cbn in Hc; repeat (destruct Hc as [<-|Hc]; [reflexivity|]); destruct Hc.
Lemma jwk_of_plain k : jwk_plain (jwk_of k).
Proof.
  unfold jwk_plain, jwk_fields. apply Forall_app. split.
  - unfold jwk_of. destruct (pk_pub k); cbn [j_type j_use j_id j_alg];
      repeat (constructor; [split; cbn [fst snd]; [lit_plain|first [lit_plain|apply hex_plain]]|]); constructor.
  - apply Forall_forall. intros kv Hkv. apply filter_In in Hkv. destruct Hkv as [Hkv _]. revert kv Hkv. apply Forall_forall.
    unfold jwk_of. destruct (pk_pub k); cbn [j_curve j_x j_y j_n j_e];
      repeat (constructor; [split; cbn [fst snd]; [lit_plain|first [lit_plain|apply b64u_plain]]|]); constructor.
Qed.

(** ** Fields *)
Lemma field_fields j :
  field "kty" (jwk_fields j) = j_type j /\ field "use" (jwk_fields j) = j_use j /\ field "kid" (jwk_fields j) = j_id j /\
  field "alg" (jwk_fields j) = j_alg j /\ field "crv" (jwk_fields j) = j_curve j /\ field "x" (jwk_fields j) = j_x j /\
  field "y" (jwk_fields j) = j_y j /\ field "n" (jwk_fields j) = j_n j /\ field "e" (jwk_fields j) = j_e j.
Proof.
  destruct j as [t u i a c x y n e]. unfold jwk_fields. cbn [j_type j_use j_id j_alg j_curve j_x j_y j_n j_e].
  destruct c, x, y, n, e; repeat split; reflexivity.
Qed.
Lemma read_jwk k : read_key (jwk_fields (jwk_of k)) = Some (hex (pk_raw k), pk_pub k).
Proof.
  destruct (field_fields (jwk_of k)) as (F1 & F2 & F3 & F4 & F5 & F6 & F7 & F8 & F9).
  unfold read_key, read_pub. cbv zeta. rewrite F1, F2, F3, F4, F5, F6, F7, F8, F9.
  unfold jwk_of. destruct (pk_pub k) as [x y|b|n e]; cbn [j_type j_use j_id j_alg j_curve j_x j_y j_n j_e];
    rewrite ?unb64u_b64u, ?int_bytes_value; reflexivity.
Qed.

Lemma jwks_describes keys : keys <> [] -> describes (jwks_text (map jwk_of keys)) (map (fun k => (hex (pk_raw k), pk_pub k)) keys).
Proof.
  intro H. exists (map jwk_fields (map jwk_of keys)). split.
  - apply jwks_tokens; [destruct keys; [congruence|discriminate]|]. apply Forall_forall. intros j Hj. apply in_map_iff in Hj.
    destruct Hj as (k & <- & _). apply jwk_of_plain.
  - rewrite !map_map. apply map_ext. apply read_jwk.
Qed.

(** A text describes at most one key set. *)
Lemma commas_objects_inj l1 l2 r1 r2 : commas (map object l1) ++ Pun "]"%char :: r1 = commas (map object l2) ++ Pun "]"%char :: r2 -> l1 = l2.
Proof.
  assert (Mem : forall f1 f2 a b, commas (map (fun kv : str * str => [Txt (fst kv); Pun ":"%char; Txt (snd kv)]) f1) ++ Pun "}"%char :: a =
     commas (map (fun kv : str * str => [Txt (fst kv); Pun ":"%char; Txt (snd kv)]) f2) ++ Pun "}"%char :: b -> f1 = f2 /\ a = b).
  { induction f1 as [|[k v] f1 IH]; intros [|[k' v'] f2] a b H.
    - cbn in H. injection H as ->. auto.
    - destruct f2 as [|x f2]; cbn in H; discriminate.
    - destruct f1 as [|x f1]; cbn in H; discriminate.
    - destruct f1 as [|x f1], f2 as [|x' f2].
      + cbn in H. injection H as -> -> ->. auto.
      + cbn [map commas app fst snd] in H. discriminate.
      + cbn [map commas app fst snd] in H. discriminate.
      + cbn [map] in H. cbn [commas app] in H. cbn [fst snd] in H. injection H as -> -> H.
        change (commas (map (fun kv : str * str => [Txt (fst kv); Pun ":"%char; Txt (snd kv)]) (x :: f1)) ++ Pun "}"%char :: a =
          commas (map (fun kv : str * str => [Txt (fst kv); Pun ":"%char; Txt (snd kv)]) (x' :: f2)) ++ Pun "}"%char :: b) in H.
        apply IH in H. destruct H as [H ->]. rewrite H. auto. }
  revert l2. induction l1 as [|o l1 IH]; intros [|o' l2] H.
  - reflexivity.
  - destruct l2; cbn in H; discriminate.
  - destruct l1; cbn in H; discriminate.
  - destruct l1 as [|x l1], l2 as [|x' l2].
    + cbn [map commas] in H. unfold object in H. cbn [app] in H. rewrite <- !app_assoc in H. injection H as H. apply Mem in H. destruct H as [-> _]. reflexivity.
    + exfalso. change (object o ++ Pun "]"%char :: r1 = (object o' ++ Pun ","%char :: commas (map object (x' :: l2))) ++ Pun "]"%char :: r2) in H.
      unfold object at 1 2 in H. cbn [app] in H. rewrite <- !app_assoc in H. cbn [app] in H. injection H as H. apply Mem in H. destruct H as [_ H]. discriminate.
    + exfalso. change ((object o ++ Pun ","%char :: commas (map object (x :: l1))) ++ Pun "]"%char :: r1 = object o' ++ Pun "]"%char :: r2) in H.
      unfold object at 1 3 in H. cbn [app] in H. rewrite <- !app_assoc in H. cbn [app] in H. injection H as H. apply Mem in H. destruct H as [_ H]. discriminate.
    + change ((object o ++ Pun ","%char :: commas (map object (x :: l1))) ++ Pun "]"%char :: r1 =
              (object o' ++ Pun ","%char :: commas (map object (x' :: l2))) ++ Pun "]"%char :: r2) in H.
      unfold object at 1 3 in H. cbn [app] in H. rewrite <- !app_assoc in H. cbn [app] in H. injection H as H. apply Mem in H. destruct H as [-> H].
      injection H as H. rewrite (IH (x' :: l2) H). reflexivity.
Qed.
Lemma key_set_inj a b : key_set a = key_set b -> a = b.
Proof. unfold key_set. intro H. injection H as H. exact (commas_objects_inj a b [Pun "}"%char] [Pun "}"%char] H). Qed.
Lemma describes_unique text a b : describes text a -> describes text b -> a = b.
Proof.
  intros (o1 & H1 & E1) (o2 & H2 & E2). assert (H3 : key_set o1 = key_set o2) by congruence. apply key_set_inj in H3. subst o2.
  rewrite E1 in E2. clear -E2. revert b E2. induction a as [|x a IH]; intros [|y b] H; try discriminate; [reflexivity|].
  cbn in H. injection H as -> H. f_equal. apply IH. exact H.
Qed.

(** ** Keys that sign were published before *)
Open Scope Z_scope.
Lemma keys_origin tpm ts ts2 k : In k (keys_after tpm (ts ++ ts2)) -> In k (keys_after tpm ts) \/ In (created k) ts2.
Proof.
  induction ts2 as [|t ts2 IH] using rev_ind; intro H; [rewrite app_nil_r in H; auto|].
  rewrite app_assoc in H. destruct (keys_after_snoc tpm (ts ++ ts2) t) as [id E]. rewrite E in H.
  assert (A : In k (keys_after tpm (ts ++ ts2)) \/ created k = t).
  { destruct (rotate_shape tpm id t (keys_after tpm (ts ++ ts2))) as (ks1 & H1 & H2).
    assert (Hk : In k ks1).
    { destruct H2 as [H2|(k' & H2 & _)]; [rewrite <- H2; exact H|rewrite H2; right; exact H]. }
    assert (B : In k (batch tpm id t) -> created k = t).
    { unfold batch. destruct tpm; cbn [In]; intros Hin; repeat (destruct Hin as [<-|Hin]; [reflexivity|]); destruct Hin. }
    destruct H1 as [[-> _]|[[_ ->]| ->]]; [left; exact Hk|right; apply B; exact Hk|].
    apply in_app_or in Hk. destruct Hk as [Hk|Hk]; [left; exact Hk|right; apply B; exact Hk]. }
  rewrite in_app_iff. destruct A as [A| <-]; [|right; right; left; reflexivity]. destruct (IH A) as [B|B]; auto.
Qed.

Lemma paced_extend d t0 ts ts2 : paced d t0 ts -> paced d (last (t0 :: ts) t0) ts2 -> paced d t0 (ts ++ ts2).
Proof.
  revert t0. induction ts as [|t ts IH]; intros t0 H1 H2; [exact H2|]. destruct H1 as [H1 H3]. cbn [app paced]. split; [exact H1|].
  apply IH; [exact H3|]. replace (last (t :: ts) t) with (last (t0 :: t :: ts) t0); [exact H2|].
  change (last (t0 :: t :: ts) t0) with (last (t :: ts) t0). clear. revert t.
  assert (G : forall (l : list Z) x a b, last (x :: l) a = last (x :: l) b).
  { induction l as [|y l IH]; intros x a b; [reflexivity|]. exact (IH y a b). }
  intro t. apply G.
Qed.

Lemma signing_key_published tpm t0 ts fetch ts2 sign t k :
  supported tpm t -> paced (5 * day) t0 (ts ++ [fetch]) ->
  Forall (fun x => fetch < x <= sign) ts2 -> paced (5 * day) (last (t0 :: ts) t0) ts2 ->
  fetch <= sign <= fetch + 2 * hour ->
  pick sign t (keys_after tpm ((t0 :: ts) ++ ts2)) None = Some k ->
  In k (keys_after tpm (t0 :: ts)).
Proof.
  intros Ht Hp H2 Hp2 Hs Hk.
  apply paced_app in Hp. destruct Hp as [Hp Hf].
  destruct (pick_In _ _ _ _ _ Hk) as [A|[Hin Hty]]; [discriminate|].
  destruct (keys_origin tpm (t0 :: ts) ts2 k Hin) as [A|A]; [exact A|]. exfalso.
  assert (HA : fetch < created k <= sign) by (rewrite Forall_forall in H2; exact (H2 _ A)).
  destruct (pick_fresh_only _ _ _ _ _ Hk) as [B|[B|(_ & l1 & l2 & B & C)]]; [discriminate|lia|].
  assert (D : 0 <= 5 * day) by (unfold day, hour; lia).
  destruct (inv_history tpm (5 * day) t0 ts D Hp) as (l & id & c & E & Hr & Hc).
  destruct (batch_type tpm id c t Ht) as (k' & Eb & Ec & Et').
  assert (Hk' : In k' (keys_after tpm (t0 :: ts))).
  { rewrite E. apply in_or_app. right. assert (X : In k' (filter (of_type t) (batch tpm id c))) by (rewrite Eb; left; reflexivity).
    apply filter_In in X. tauto. }
  assert (Hk2 : In k' (keys_after tpm ((t0 :: ts) ++ ts2))).
  { apply keys_keep; [exact Hk'|]. eapply Forall_impl; [|exact H2]. cbn beta. intros x Hx. unfold day, hour in *. lia. }
  destruct (inv_history tpm (5 * day) t0 (ts ++ ts2) D (paced_extend _ _ _ _ Hp Hp2)) as (m & id2 & c2 & _ & _ & Hc2).
  specialize (Hc2 t Ht). change (t0 :: ts ++ ts2) with ((t0 :: ts) ++ ts2) in Hc2. rewrite B in Hk2, Hc2.
  assert (F : filter (of_type t) l1 = []).
  { clear - C. induction l1 as [|a l1 IH]; [reflexivity|]. cbn [filter]. unfold of_type at 1.
    destruct (ktype_eqb (ktyp a) t) eqn:E; [|apply IH; intros x Hx; apply C; right; exact Hx].
    exfalso. apply (C a (or_introl eq_refl)). destruct (ktyp a), t; try discriminate; reflexivity. }
  rewrite filter_app_l, F in Hc2. cbn [app filter] in Hc2.
  assert (G : of_type t k = true) by (unfold of_type; rewrite Hty; destruct t; reflexivity).
  rewrite G in Hc2. apply chain_sorted in Hc2.
  apply in_app_or in Hk2. destruct Hk2 as [X|[X|X]].
  - exact (C k' X Et').
  - subst k'. lia.
  - rewrite Forall_forall in Hc2. assert (Y : In k' (filter (of_type t) l2)).
    { apply filter_In. split; [exact X|]. unfold of_type. rewrite Et'. destruct t; reflexivity. }
    specialize (Hc2 k' Y). lia.
Qed.
