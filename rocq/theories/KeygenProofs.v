(** Lemmas about KeygenModel. *)
From Verif Require Import Base XfccModel OcspGetModel AuthorityModel KeygenModel KeygenSpec.
From Verif Require PkiModel PkiWebModel PathProofs.
Open Scope nat_scope.

(** *** Forms *)

Lemma unescape_byte : forall c rest,
  query_unescape (form_byte c ++ rest) = match query_unescape rest with Some t => Some (c :: t) | None => None end.
Proof. intros [[] [] [] [] [] [] [] []] rest; reflexivity. Qed.
Lemma unescape_text : forall s, query_unescape (form_text s) = Some s.
Proof. induction s as [|c s IH]; [reflexivity|]. unfold form_text. cbn [map List.concat]. rewrite unescape_byte. unfold form_text in IH. rewrite IH. reflexivity. Qed.
Lemma byte_plain : forall c, forallb (fun x => negb (has_char x (lit "&;="))) (form_byte c) = true.
Proof. intros [[] [] [] [] [] [] [] []]; reflexivity. Qed.
Lemma text_plain : forall s x, In x (lit "&;=") -> ~ In x (form_text s).
Proof.
  intros s x H I. unfold form_text in I. apply in_concat in I as [b [B I]]. apply in_map_iff in B as [c [<- _]].
  pose proof (byte_plain c) as P. rewrite forallb_forall in P. specialize (P x I). apply negb_true_iff in P. apply has_char_false in P. exact (P H).
Qed.
Lemma not_in_pair : forall k v x, In x (lit "&;") -> ~ In x (form_text k ++ "="%char :: form_text v).
Proof.
  intros k v x H I. apply in_app_iff in I as [I|[I|I]].
  - revert I. apply text_plain. cbn in *. tauto.
  - subst x. cbn in H. destruct H as [H|[H|[]]]; discriminate.
  - revert I. apply text_plain. cbn in *. tauto.
Qed.
Lemma parse_pair_text : forall k v, parse_pair (form_text k ++ "="%char :: form_text v) = Some [(k, v)].
Proof.
  intros k v. unfold parse_pair.
  replace (has_char ";" _) with false by (symmetry; apply has_char_false; apply not_in_pair; cbn; tauto).
  replace (str_eqb (form_text k ++ "="%char :: form_text v) []) with false by (destruct (form_text k); reflexivity).
  rewrite PathProofs.cut_no_char by (apply text_plain; cbn; tauto). rewrite !unescape_text. reflexivity.
Qed.
Lemma parse_form : forall fields, parse_query (form_body fields) = Some fields.
Proof.
  intros fields. unfold parse_query, form_body. destruct fields as [|f fields]; [reflexivity|].
  rewrite split_join.
  - assert (G : forall l, parse_pairs (map (fun kv => form_text (fst kv) ++ "="%char :: form_text (snd kv)) l) = Some l).
    { induction l as [|[k v] l IH]; [reflexivity|]. cbn [map parse_pairs fst snd]. rewrite parse_pair_text, IH. reflexivity. }
    apply G.
  - discriminate.
  - apply Forall_forall. intros p I. apply in_map_iff in I as [[k v] [<- _]]. apply not_in_pair. cbn. tauto.
Qed.

(** *** Names *)

Definition subst_comma (c : ascii) : ascii := if Ascii.eqb c "," then " "%char else c.
Lemma sep_space : forall c, separator c <-> space (subst_comma c) = true.
Proof.
  intros c. unfold separator. split.
  - cbn [In]. intros H. repeat destruct H as [<-|H]; try reflexivity. destruct H.
  - destruct c as [[] [] [] [] [] [] [] []]; intros H; try (vm_compute in H; discriminate H); cbn; tauto.
Qed.
Lemma sep_kept : forall c, ~ separator c -> subst_comma c = c.
Proof. intros c H. unfold subst_comma. destruct (Ascii.eqb_spec c ","); [|reflexivity]. subst. destruct H. left. reflexivity. Qed.
Lemma fields_listed : forall s w, Forall (fun c => ~ separator c) w ->
  (w = [] -> forall a, Forall separator a -> listed (a ++ s) (fields_from [] (map subst_comma s))) /\
  (w <> [] -> forall a, Forall separator a -> listed (a ++ w ++ s) (fields_from w (map subst_comma s))).
Proof.
  induction s as [|c s IH]; intros w W; cbn [map fields_from].
  - split; [intros _ a A; rewrite app_nil_r; constructor; exact A|]. intros N a A. destruct w as [|x w]; [congruence|].
    apply listed_more; [exact A|exact N|exact W|left; reflexivity|constructor; constructor].
  - destruct (space (subst_comma c)) eqn:S; [apply sep_space in S|].
    + split.
      * intros _ a A. replace (a ++ c :: s) with ((a ++ [c]) ++ s) by (rewrite <- app_assoc; reflexivity).
        apply (proj1 (IH [] (Forall_nil _))); [reflexivity|]. apply Forall_app. auto.
      * intros N a A. destruct w as [|x w]; [congruence|]. apply listed_more; [exact A|exact N|exact W|right; exists c, s; auto|].
        change (c :: s) with ([c] ++ s). apply (proj1 (IH [] (Forall_nil _))); auto.
    + assert (NS : ~ separator c) by (intros X; apply sep_space in X; congruence). rewrite (sep_kept c NS).
      assert (W' : Forall (fun c => ~ separator c) (w ++ [c])) by (apply Forall_app; auto).
      split.
      * intros _ a A. change (c :: s) with ([c] ++ s). apply (IH [c]); [constructor; [exact NS|constructor]|discriminate|exact A].
      * intros _ a A. replace (a ++ w ++ c :: s) with (a ++ (w ++ [c]) ++ s) by (rewrite <- !app_assoc; reflexivity).
        apply (proj2 (IH (w ++ [c]) W')); [destruct w; discriminate|exact A].
Qed.
Lemma names_listed : forall s, listed s (names_of s).
Proof. intros s. apply (proj1 (fields_listed s [] (Forall_nil _)) eq_refl [] (Forall_nil _)). Qed.
Lemma fields_chars : forall s w x c, In x (fields_from w s) -> In c x -> In c w \/ In c s.
Proof.
  induction s as [|y s IH]; intros w x c; cbn [fields_from].
  - destruct w; intros H I; [destruct H|]. destruct H as [<-|[]]. left. exact I.
  - destruct (space y).
    + destruct w as [|z w]; intros H I.
      * destruct (IH [] x c H I) as [[]|X]. right. right. exact X.
      * destruct H as [<-|H]; [left; exact I|]. destruct (IH [] x c H I) as [[]|X]. right. right. exact X.
    + intros H I. destruct (IH (w ++ [y]) x c H I) as [X|X]; [|right; right; exact X].
      apply in_app_iff in X as [X|[<-|[]]]; [left; exact X|right; left; reflexivity].
Qed.
Lemma names_ia5 : forall s, ia5 s = true -> forallb ia5 (names_of s) = true.
Proof.
  intros s H. apply forallb_forall. intros x I. apply forallb_forall. intros c C.
  unfold names_of in I. destruct (fields_chars _ _ _ _ I C) as [[]|X]. apply in_map_iff in X as [y [<- Y]].
  destruct (Ascii.eqb y ","); [reflexivity|]. unfold ia5 in H. rewrite forallb_forall in H. apply H. exact Y.
Qed.

(** *** Maps *)
Lemma get_del : forall {A} i j (l : list (nat * A)), get i (del j l) = if j =? i then None else get i l.
Proof.
  intros A i j l. induction l as [|[k x] l IH]; cbn [del filter get fst]; [destruct (j =? i); reflexivity|].
  destruct (Nat.eqb_spec j k); cbn [negb].
  - unfold del in IH. rewrite IH. subst k. destruct (Nat.eqb_spec j i); [reflexivity|]. destruct (Nat.eqb_spec i j); [congruence|reflexivity].
  - cbn [get]. unfold del in IH. rewrite IH. destruct (Nat.eqb_spec i k); [|reflexivity]. destruct (Nat.eqb_spec j i); [congruence|reflexivity].
Qed.
Lemma get_put : forall {A} i j x (l : list (nat * A)), get i (put j x l) = if j =? i then Some x else get i l.
Proof.
  intros A i j x l. unfold put. cbn [get]. rewrite Nat.eqb_sym. destruct (Nat.eqb_spec j i) as [->|N]; [reflexivity|].
  rewrite get_del. destruct (Nat.eqb_spec j i); [congruence|reflexivity].
Qed.

(** What makeCSR and makeResponse do to the map. *)
Lemma make_csr_keys : forall ks id body pub,
  snd (make_csr ks id body pub) = snd (make_csr [] id body pub) /\
  exists o, (forall i, get i (fst (make_csr ks id body pub)) = if id =? i then match o with Some d => Some d | None => get i ks end else get i ks) /\
            get id (fst (make_csr [] id body pub)) = o.
Proof.
  intros ks id body pub. unfold make_csr. destruct (parse_query body) as [f|].
  2:{ cbn [fst snd]. split; [reflexivity|]. exists None. split; [intros i; destruct (id =? i); reflexivity|reflexivity]. }
  cbv zeta. destruct (str_eqb (value f (lit "password")) []).
  { cbn [fst snd]. split; [reflexivity|]. exists None. split; [intros i; destruct (id =? i); reflexivity|reflexivity]. }
  destruct (generate_key _) as [a|].
  2:{ cbn [fst snd]. split; [reflexivity|]. exists None. split; [intros i; destruct (id =? i); reflexivity|reflexivity]. }
  set (d := {| kd_key := _ |}). split; [destruct (forallb ia5 _); reflexivity|]. exists (Some d). split.
  - intros i. destruct (forallb ia5 _); cbn [fst]; rewrite get_put; reflexivity.
  - destruct (forallb ia5 _); cbn [fst]; rewrite get_put, Nat.eqb_refl; reflexivity.
Qed.
Lemma make_response_out : forall ks ks' id rp, get id ks = get id ks' -> snd (make_response ks id rp) = snd (make_response ks' id rp).
Proof.
  intros ks ks' id rp H. unfold make_response. destruct (rp_cert rp); [|reflexivity]. cbv zeta. rewrite H. destruct (get id ks') as [d|]; [|reflexivity].
  destruct (str_eqb (kd_format d) (lit "gpg")); [reflexivity|]. destruct (str_eqb _ _); reflexivity.
Qed.
Lemma make_response_keys : forall ks id rp i, i <> id -> get i (fst (make_response ks id rp)) = get i ks.
Proof.
  intros ks id rp i N. unfold make_response. destruct (rp_cert rp); [|reflexivity]. cbv zeta. destruct (get id ks) as [d|]; [|reflexivity].
  destruct (str_eqb (kd_format d) (lit "gpg")); [|destruct (str_eqb _ _)]; cbn [fst]; rewrite get_del; destruct (Nat.eqb_spec id i); congruence.
Qed.
Lemma make_response_gone : forall ks id rp, rp_cert rp <> None -> get id (fst (make_response ks id rp)) = None.
Proof.
  intros ks id rp N. unfold make_response. destruct (rp_cert rp); [|congruence]. cbv zeta. destruct (get id ks) as [d|] eqn:G; [|exact G].
  destruct (str_eqb (kd_format d) (lit "gpg")); [|destruct (str_eqb _ _)]; cbn [fst]; rewrite get_del, Nat.eqb_refl; reflexivity.
Qed.
Lemma make_response_sub : forall ks id rp i d, get i (fst (make_response ks id rp)) = Some d -> get i ks = Some d.
Proof.
  intros ks id rp i d H. destruct (Nat.eq_dec i id) as [->|N]; [|rewrite make_response_keys in H; assumption].
  unfold make_response in H. destruct (rp_cert rp) as [cc|]; [|exact H]. cbv zeta in H. destruct (get id ks) as [x|] eqn:G; [|cbn [fst] in H; congruence].
  destruct (str_eqb (kd_format x) (lit "gpg")); [|destruct (str_eqb _ _)]; cbn [fst] in H; rewrite get_del, Nat.eqb_refl in H; discriminate.
Qed.

(** *** The worker *)
Definition number (st : stage) : nat := match st with Reading n | Waiting n => n end.
Record inv (w : worker) : Prop := {
  i_low : forall r st, get r (w_reqs w) = Some st -> number st <= w_count w;
  i_diff : forall r r' st st', get r (w_reqs w) = Some st -> get r' (w_reqs w) = Some st' -> number st = number st' -> r = r';
  i_new : forall r n, get r (w_reqs w) = Some (Reading n) -> get n (w_keys w) = None;
  i_keys : forall n d, get n (w_keys w) = Some d -> n <= w_count w }.
Lemma inv_start : inv start.
Proof. constructor; intros; discriminate. Qed.
Lemma inv_step : forall w e w' x, inv w -> step w e = Some (w', x) -> inv w'.
Proof.
  intros w e w' x [I1 I2 I3 I4] H. destruct e as [r|r body pub|r rp|]; cbn [step] in H.
  - destruct (get r (w_reqs w)) eqn:G; [discriminate|]. injection H as <- <-. constructor; cbn [w_reqs w_count w_keys].
    + intros a st. rewrite get_put. destruct (r =? a); [intros E; injection E as <-; cbn; lia|]. intros E. specialize (I1 a st E). lia.
    + intros a b st st'. rewrite !get_put. destruct (Nat.eqb_spec r a), (Nat.eqb_spec r b); intros E E' N; try congruence.
      * injection E as <-. cbn in N. specialize (I1 b st' E'). lia.
      * injection E' as <-. cbn in N. specialize (I1 a st E). lia.
      * exact (I2 a b st st' E E' N).
    + intros a n. rewrite get_put. destruct (r =? a); [|apply I3]. intros E. injection E as <-.
      destruct (get (S (w_count w)) (w_keys w)) eqn:K; [|reflexivity]. apply I4 in K. lia.
    + intros n d K. apply I4 in K. lia.
  - destruct (get r (w_reqs w)) as [[n|n]|] eqn:G; try discriminate.
    destruct (make_csr (w_keys w) n body pub) as [ks c] eqn:M. injection H as <- <-.
    destruct (make_csr_keys (w_keys w) n body pub) as [_ [o [K _]]]. rewrite M in K. cbn [fst] in K.
    constructor; cbn [w_reqs w_count w_keys].
    + intros a st. rewrite get_put. destruct (r =? a); [intros E; injection E as <-; exact (I1 r _ G)|apply I1].
    + intros a b st st'. rewrite !get_put. destruct (Nat.eqb_spec r a), (Nat.eqb_spec r b); intros E E' N; try congruence.
      * injection E as <-. subst a. exact (I2 r b (Reading n) st' G E' N).
      * injection E' as <-. subst b. exact (I2 a r st (Reading n) E G N).
      * exact (I2 a b st st' E E' N).
    + intros a m. rewrite get_put. destruct (Nat.eqb_spec r a); [discriminate|]. intros E. rewrite K.
      destruct (Nat.eqb_spec n m); [|apply (I3 a); exact E]. subst m. specialize (I2 r a _ _ G E eq_refl). congruence.
    + intros m d. rewrite K. destruct (Nat.eqb_spec n m); [|apply I4]. subst m. intros _. exact (I1 r _ G).
  - destruct (get r (w_reqs w)) as [[n|n]|] eqn:G; try discriminate.
    assert (D : forall ks, (forall i d, get i ks = Some d -> get i (w_keys w) = Some d) -> inv {| w_count := w_count w; w_keys := ks; w_reqs := del r (w_reqs w) |}).
    { intros ks K. constructor; cbn [w_reqs w_count w_keys].
      - intros a st. rewrite get_del. destruct (r =? a); [discriminate|apply I1].
      - intros a b st st'. rewrite !get_del. destruct (r =? a), (r =? b); try discriminate. apply I2.
      - intros a m. rewrite get_del. destruct (r =? a); [discriminate|]. intros E. specialize (I3 a m E).
        destruct (get m ks) eqn:X; [|reflexivity]. apply K in X. congruence.
      - intros m d E. apply K in E. exact (I4 m d E). }
    destruct (rp_ok rp).
    + destruct (make_response (w_keys w) n rp) as [ks d] eqn:M. injection H as <- <-. apply D. intros i x E. apply (make_response_sub (w_keys w) n rp). rewrite M. exact E.
    + injection H as <- <-. apply D. auto.
  - injection H as <- <-. apply inv_start.
Qed.
Lemma inv_run : forall h w w' out, inv w -> run w h = Some (w', out) -> inv w'.
Proof.
  induction h as [|e h IH]; intros w w' out I H; cbn [run] in H; [injection H as <- <-; exact I|].
  destruct (step w e) as [[w1 x]|] eqn:E; [|discriminate]. destruct (run w1 h) as [[w2 o]|] eqn:F; [|discriminate]. injection H as <- <-.
  eapply IH; [|exact F]. eapply inv_step; eauto.
Qed.
Lemma run_app : forall a b w w' out, run w (a ++ b) = Some (w', out) ->
  exists w1 o1 o2, run w a = Some (w1, o1) /\ run w1 b = Some (w', o2) /\ out = o1 ++ o2.
Proof.
  induction a as [|e a IH]; intros b w w' out H; cbn [app run] in *; [exists w, [], out; auto|].
  destruct (step w e) as [[w1 x]|] eqn:E; [|discriminate]. destruct (run w1 (a ++ b)) as [[w2 o]|] eqn:F; [|discriminate]. injection H as <- <-.
  destruct (IH b w1 w2 o F) as [w3 [o1 [o2 [A [B C]]]]]. rewrite A. exists w3, (x :: o1), o2. subst o. auto.
Qed.

(** Other requests leave a waiting one alone. *)
Lemma others_step : forall w e w' x r n, inv w -> of_others r e -> step w e = Some (w', x) -> get r (w_reqs w) = Some (Waiting n) ->
  get r (w_reqs w') = Some (Waiting n) /\ get n (w_keys w') = get n (w_keys w).
Proof.
  intros w e w' x r n I O H G. destruct e as [a|a body pub|a rp|]; cbn [of_others] in O; [| | |destruct O]; cbn [step] in H.
  - destruct (get a (w_reqs w)); [discriminate|]. injection H as <- <-. cbn [w_reqs w_keys]. rewrite get_put. destruct (Nat.eqb_spec a r); [congruence|auto].
  - destruct (get a (w_reqs w)) as [[m|m]|] eqn:A; try discriminate. destruct (make_csr (w_keys w) m body pub) as [ks c] eqn:M. injection H as <- <-.
    cbn [w_reqs w_keys]. rewrite get_put. destruct (Nat.eqb_spec a r); [congruence|]. split; [exact G|].
    destruct (make_csr_keys (w_keys w) m body pub) as [_ [o [K _]]]. rewrite M in K. cbn [fst] in K. rewrite K.
    destruct (Nat.eqb_spec m n); [|reflexivity]. subst m. destruct I as [_ I2 _ _]. specialize (I2 a r _ _ A G eq_refl). congruence.
  - destruct (get a (w_reqs w)) as [[m|m]|] eqn:A; try discriminate.
    assert (N : n <> m). { intros <-. destruct I as [_ I2 _ _]. specialize (I2 a r _ _ A G eq_refl). congruence. }
    destruct (rp_ok rp).
    + destruct (make_response (w_keys w) m rp) as [ks d] eqn:M. injection H as <- <-. cbn [w_reqs w_keys]. rewrite get_del. destruct (Nat.eqb_spec a r); [congruence|].
      split; [exact G|]. rewrite <- (make_response_keys (w_keys w) m rp n N), M. reflexivity.
    + injection H as <- <-. cbn [w_reqs w_keys]. rewrite get_del. destruct (Nat.eqb_spec a r); [congruence|auto].
Qed.
Lemma others_run : forall h w w' out r n, inv w -> Forall (of_others r) h -> run w h = Some (w', out) -> get r (w_reqs w) = Some (Waiting n) ->
  get r (w_reqs w') = Some (Waiting n) /\ get n (w_keys w') = get n (w_keys w).
Proof.
  induction h as [|e h IH]; intros w w' out r n I O H G; cbn [run] in H; [injection H as <- <-; auto|].
  destruct (step w e) as [[w1 x]|] eqn:E; [|discriminate]. destruct (run w1 h) as [[w2 o]|] eqn:F; [|discriminate]. injection H as <- <-.
  inversion O as [|? ? O1 O2]; subst. destruct (others_step w e w1 x r n I O1 E G) as [G1 K1].
  destruct (IH w1 w2 o r n (inv_step _ _ _ _ I E) O2 F G1) as [G2 K2]. split; [exact G2|congruence].
Qed.

(** The number does not matter. *)
Lemma make_csr_number : forall a b body pub, snd (make_csr [] a body pub) = snd (make_csr [] b body pub) /\
  get a (fst (make_csr [] a body pub)) = get b (fst (make_csr [] b body pub)).
Proof.
  intros a b body pub. unfold make_csr. destruct (parse_query body) as [f|]; [|auto]. cbv zeta. destruct (str_eqb (value f (lit "password")) []); [auto|].
  destruct (generate_key _); [|auto]. destruct (forallb ia5 _); cbn [fst snd]; rewrite !get_put, !Nat.eqb_refl; auto.
Qed.
Lemma make_response_number : forall ks ks' a b rp, get a ks = get b ks' -> snd (make_response ks a rp) = snd (make_response ks' b rp).
Proof.
  intros ks ks' a b rp H. unfold make_response. destruct (rp_cert rp); [|reflexivity]. cbv zeta. rewrite H. destruct (get b ks') as [d|]; [|reflexivity].
  destruct (str_eqb (kd_format d) (lit "gpg")); [reflexivity|]. destruct (str_eqb _ _); reflexivity.
Qed.

(** A request that is alone. *)
Definition alone_sent (body pub : str) : option PkiModel.csr := snd (make_csr [] 1 body pub).
Definition alone_got (body pub : str) (rp : reply) : option download :=
  if rp_ok rp then snd (make_response (fst (make_csr [] 1 body pub)) 1 rp) else None.
Lemma alone_run : forall r body pub rp, exists w,
  run start [Post r; Body r body pub; Reply r rp] = Some (w, [Quiet; Sent (alone_sent body pub); Got (alone_got body pub rp)]).
Proof.
  intros r body pub rp. unfold start. cbn [run step w_reqs get w_count w_keys put del filter]. rewrite Nat.eqb_refl.
  unfold alone_sent, alone_got. destruct (make_csr [] 1 body pub) as [ks c]. cbn [run step w_reqs w_keys get fst snd put]. rewrite Nat.eqb_refl.
  destruct (rp_ok rp); [|eexists; reflexivity]. destruct (make_response ks 1 rp) as [ks2 d]. eexists. reflexivity.
Qed.
Lemma isolated : forall h1 r body pub h2 w out rp,
  run start (h1 ++ Body r body pub :: h2) = Some (w, out) -> Forall (of_others r) h2 ->
  (exists w1 w2 o, run start h1 = Some (w1, o) /\ step w1 (Body r body pub) = Some (w2, Sent (alone_sent body pub))) /\
  exists w', step w (Reply r rp) = Some (w', Got (alone_got body pub rp)).
Proof.
  intros h1 r body pub h2 w out rp H O. destruct (run_app h1 (Body r body pub :: h2) start w out H) as [w1 [o1 [o2 [A [B _]]]]].
  assert (I1 := inv_run h1 start w1 o1 inv_start A). cbn [run] in B. destruct (step w1 (Body r body pub)) as [[w2 x]|] eqn:E; [|discriminate].
  destruct (run w2 h2) as [[w3 o3]|] eqn:F; [|discriminate]. injection B as <- <-. assert (I2 := inv_step _ _ _ _ I1 E).
  assert (E' := E). cbn [step] in E'. destruct (get r (w_reqs w1)) as [[n|n]|] eqn:G; try discriminate.
  destruct (make_csr (w_keys w1) n body pub) as [ks c] eqn:M. injection E' as <- <-.
  destruct (make_csr_keys (w_keys w1) n body pub) as [S [o [K Ko]]]. rewrite M in S, K. cbn [fst snd] in S, K.
  destruct (make_csr_number n 1 body pub) as [S1 K1].
  split.
  - exists w1. eexists. exists o1. split; [exact A|]. rewrite E. unfold alone_sent. rewrite <- S1, <- S. reflexivity.
  - destruct (others_run h2 _ w3 o3 r n I2 O F) as [G3 K3]; [cbn [w_reqs]; rewrite get_put, Nat.eqb_refl; reflexivity|].
    cbn [w_keys] in K3. cbn [step]. rewrite G3. unfold alone_got. destruct (rp_ok rp); [|eexists; reflexivity].
    destruct (make_response (w_keys w3) n rp) as [ks3 d] eqn:R. eexists.
    replace d with (snd (make_response (w_keys w3) n rp)) by (rewrite R; reflexivity).
    rewrite (make_response_number (w_keys w3) (fst (make_csr [] 1 body pub)) n 1 rp); [reflexivity|].
    rewrite K3, K, Nat.eqb_refl, <- K1, Ko. destruct o; [reflexivity|]. destruct I1 as [_ _ I3 _]. exact (I3 r n G).
Qed.
