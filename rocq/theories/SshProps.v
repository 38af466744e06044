(** C46 and C64: the SSH certificate authority. *)
From Verif Require Import Base SshModel.
Open Scope Z_scope.

Ltac inv H := inversion H; subst; clear H.
Ltac by_byte c := destruct c as [[] [] [] [] [] [] [] []].

(** A certificate can be used at time [t], in seconds (golang.org/x/crypto/ssh CheckCert, sshd). *)
Definition valid_at (c : ssh_cert) (t : Z) : Prop := sc_after c <= t < sc_before c.
(** The clock is past the fifth minute of 1970 and before the end of its range. *)
Definition sane (now : Z) : Prop := 300 * second <= now < 2 ^ 63.

(** ** C46 *)

(** A certificate names exactly the user who is authenticated, is a user certificate, for
    the key in the request, has no options, and is signed by the key of this authority. *)
Theorem C46_names_the_user :
  forall parse before i q now c,
  answer parse before (ServeCert i q now) = OCert c ->
  exists email body, q_claims q = Some (Some email) /\ email <> [] /\ q_method q = lit "POST" /\ q_csrf q = lit "1" /\ q_body q = Some body /\
    sc_id c = email /\ sc_principals c = [email] /\ sc_user c = true /\ parse (firstn (Z.to_nat 102400) body) = Some (sc_key c) /\
    sc_options c = [] /\ answer parse before (ServeKey i) = OKey (sc_signer c).
Proof.
  intros parse before i q now c. unfold answer. cbn [step snd]. destruct (nth_error _ i) as [[name k]|]; [|discriminate]. unfold serve_certificate.
  destruct (q_claims q) as [[email|]|]; cbn [str_eqb]; try discriminate.
  destruct (str_eqb email []) eqn:E; [discriminate|]. destruct (str_eqb (q_method q) _) eqn:M; [|discriminate]. cbn [negb].
  destruct (str_eqb (q_csrf q) _) eqn:C; [|discriminate]. cbn [negb]. destruct (str_eqb (q_content_type q) _); [|discriminate]. cbn [negb].
  destruct (q_body q) as [body|]; [|discriminate]. destruct (parse _) as [pub|] eqn:P; [|discriminate]. destruct (q_rand q); [|discriminate]. destruct (q_sign_ok q); [|discriminate].
  intros H. inv H. exists email, body. cbn. apply str_eqb_neq in E. apply str_eqb_spec in M, C. repeat split; auto.
Qed.

(** It is valid when it is issued and at no time later than ten minutes after that, nor
    earlier than five minutes and a second before. *)
Theorem C46_short_lived :
  forall parse before i q now c,
  answer parse before (ServeCert i q now) = OCert c -> sane now ->
  valid_at c (now / second) /\ forall t, valid_at c t -> now - 301 * second < t * second < now + 600 * second.
Proof.
  intros parse before i q now c H [S1 S2].
  assert (V : sc_after c = unix64 (now - 300 * second) /\ sc_before c = unix64 (now + issued_lifetime)).
  { revert H. unfold answer. cbn [step snd]. destruct (nth_error _ i) as [[name k]|]; [|discriminate]. unfold serve_certificate.
    destruct (str_eqb _ []); [discriminate|]. destruct (negb _); [discriminate|]. destruct (negb _); [discriminate|]. destruct (negb _); [discriminate|].
    destruct (q_body q); [|discriminate]. destruct (parse _); [|discriminate]. destruct (q_rand q); [|discriminate]. destruct (q_sign_ok q); [|discriminate].
    intros H. inv H. auto. }
  destruct V as [V1 V2]. unfold valid_at. rewrite V1, V2. unfold unix64, issued_lifetime. change (2 ^ 63) with 9223372036854775808 in S2. unfold second in *.
  assert (A : (now - 300 * 1000000000) / 1000000000 = now / 1000000000 - 300) by (replace (now - 300 * 1000000000) with (now + (-300) * 1000000000) by lia; rewrite Z.div_add by lia; lia).
  assert (B : (now + 600 * 1000000000) / 1000000000 = now / 1000000000 + 600) by (rewrite Z.div_add by lia; reflexivity).
  pose proof (Z.div_mod now 1000000000 ltac:(lia)) as D. pose proof (Z.mod_pos_bound now 1000000000 ltac:(lia)) as R.
  set (s := now / 1000000000) in *. rewrite A, B. change (2 ^ 64) with 18446744073709551616. rewrite !Z.mod_small by lia. split; [lia|]. intros t [T1 T2]. lia.
Qed.

(** Without an authenticated user with an address there is none. *)
Theorem C46_unauthenticated_refused :
  forall parse before i q now k,
  (q_claims q = None \/ q_claims q = Some None \/ q_claims q = Some (Some [])) -> answer parse before (ServeKey i) = OKey k ->
  answer parse before (ServeCert i q now) = OStatus 403.
Proof.
  intros parse before i q now k H. unfold answer. cbn [step snd]. destruct (nth_error _ i) as [[name k0]|]; [|discriminate]. intros _.
  unfold serve_certificate. destruct H as [->|[->| ->]]; reflexivity.
Qed.

(** What cannot be read, is not a key, or cannot be signed, is an internal error. *)
Theorem C46_failures : forall parse before i q now email k,
  answer parse before (ServeKey i) = OKey k -> q_claims q = Some (Some email) -> email <> [] -> q_method q = lit "POST" ->
  q_csrf q = lit "1" -> q_content_type q = lit "text/plain" ->
  q_body q = None \/ (exists body, q_body q = Some body /\ parse (firstn (Z.to_nat 102400) body) = None) \/ q_rand q = None \/ q_sign_ok q = false ->
  answer parse before (ServeCert i q now) = OStatus 500.
Proof.
  intros parse before i q now email k H H1 H2 H3 H4 H5 F. revert H. unfold answer. cbn [step snd].
  destruct (nth_error _ i) as [[name k0]|]; [|discriminate]. intros [= ->]. unfold serve_certificate.
  rewrite H1, H3, H4, H5. apply str_eqb_neq in H2. rewrite H2. cbn [negb]. rewrite !str_eqb_refl. cbn [negb].
  destruct (q_body q) as [body|] eqn:B; [|reflexivity]. destruct (parse _) as [pub|] eqn:P; [|reflexivity]. destruct (q_rand q) as [sn|]; [|reflexivity].
  destruct (q_sign_ok q); [|reflexivity]. destruct F as [F|[(b & E & F)|[F|F]]]; try discriminate. congruence.
Qed.
Print Assumptions C46_failures.
Print Assumptions C46_unauthenticated_refused.

(** A user who sends a key the way the page does gets a certificate for it. *)
Theorem C46_honest_request_succeeds :
  forall parse before i q now email body pub sn k,
  answer parse before (ServeKey i) = OKey k -> q_claims q = Some (Some email) -> email <> [] -> q_method q = lit "POST" ->
  q_csrf q = lit "1" -> q_content_type q = lit "text/plain" -> q_body q = Some body -> (List.length body <= Z.to_nat 102400)%nat ->
  parse body = Some pub -> q_rand q = Some sn -> q_sign_ok q = true ->
  exists c, answer parse before (ServeCert i q now) = OCert c /\ sc_key c = pub /\ sc_id c = email /\ sc_serial c = sn /\ sc_signer c = k.
Proof.
  intros parse before i q now email body pub sn k H H1 H2 H3 H4 H5 H6 H7 H8 H9 H10. revert H. unfold answer. cbn [step snd].
  destruct (nth_error _ i) as [[name k0]|]; [|discriminate]. intros [= ->]. unfold serve_certificate.
  rewrite H1, H3, H4, H5, H6, H9, H10, firstn_all2 by exact H7. rewrite H8. apply str_eqb_neq in H2. rewrite H2.
  eexists. split; [reflexivity|]. split; [reflexivity|]. split; [reflexivity|]. split; reflexivity.
Qed.
Print Assumptions C46_honest_request_succeeds.

Definition ex_parse (s : str) : option str := if has_prefix s (lit "ssh-ed25519 ") then Some s else None.
Definition ex_q : request := {| q_claims := Some (Some (lit "bob@x")); q_method := lit "POST"; q_csrf := lit "1"; q_content_type := lit "text/plain";
  q_body := Some (lit "ssh-ed25519 AAAA"); q_rand := Some 7%N; q_sign_ok := true |}.
Example C46_example :
  exists c, answer ex_parse [New (lit "ca") (lit "K1") Works] (ServeCert 0 ex_q (1000 * second)) = OCert c /\ sane (1000 * second) /\
  sc_after c = 700 /\ sc_before c = 1600 /\ sc_signer c = lit "K1".
Proof. eexists. split; [vm_compute; reflexivity|]. repeat split; vm_compute; congruence. Qed.

(** ** C64 *)

Lemma path_escape_first a b s t :
  path_escape_byte a ++ s = path_escape_byte b ++ t -> a = b /\ s = t.
Proof.
  assert (D : forall c, path_escape_byte c = if path_keep c then [c] else ["%"%char; upper_hex (N_of_ascii c / 16); upper_hex (N_of_ascii c mod 16)]) by reflexivity.
  assert (K : path_keep "%" = false) by reflexivity.
  assert (U : forall n, (n < 16)%N -> forall m, (m < 16)%N -> upper_hex n = upper_hex m -> n = m).
  { assert (F : forall n, (n < 16)%N -> In n (map N.of_nat (seq 0 16))).
    { intros n Hn. apply in_map_iff. exists (N.to_nat n). rewrite N2Nat.id. split; [reflexivity|]. apply in_seq. lia. }
    intros n Hn m Hm E. apply F in Hn, Hm. cbn in Hn, Hm.
    repeat (destruct Hn as [<-|Hn]; [repeat (destruct Hm as [<-|Hm]; [first [reflexivity|discriminate E]|]); destruct Hm|]). destruct Hn. }
  rewrite !D. destruct (path_keep a) eqn:A, (path_keep b) eqn:B; cbn [app]; intros H.
  - inv H. auto.
  - inv H. congruence.
  - inv H. congruence.
  - injection H as H1 H2 H3. split; [|exact H3].
    pose proof (N_ascii_bounded a). pose proof (N_ascii_bounded b).
    apply U in H1; [|apply N.div_lt_upper_bound; lia..]. apply U in H2; [|apply N.mod_lt; lia..].
    rewrite <- (ascii_N_embedding a), <- (ascii_N_embedding b). f_equal. rewrite (N.div_mod (N_of_ascii a) 16), (N.div_mod (N_of_ascii b) 16), H1, H2 by lia. reflexivity.
Qed.
Lemma path_escape_nonempty c s : path_escape_byte c ++ s <> [].
Proof. unfold path_escape_byte. destruct (path_keep c); discriminate. Qed.
Lemma path_escape_inj a b : path_escape a = path_escape b -> a = b.
Proof.
  unfold path_escape. revert b. induction a as [|x a IH]; intros [|y b]; cbn [map List.concat]; intros H.
  - reflexivity.
  - symmetry in H. destruct (path_escape_nonempty _ _ H).
  - destruct (path_escape_nonempty _ _ H).
  - apply path_escape_first in H as [-> H]. f_equal. apply IH. exact H.
Qed.
Lemma ca_file_inj a b : ca_file a = ca_file b -> a = b.
Proof. unfold ca_file. intros H. apply app_inv_head in H. apply path_escape_inj. exact H. Qed.

(** Different authorities have different files. *)
Theorem C64_files_distinct : forall a b, ca_file a = ca_file b -> a = b.
Proof. exact ca_file_inj. Qed.

Lemma after_snoc parse ops o : after parse (ops ++ [o]) = fst (step parse (after parse ops) o).
Proof. unfold after. rewrite fold_left_app. reflexivity. Qed.

(** The key in use is the key in the file. *)
Lemma running_file parse ops name k : In (name, k) (s_running (after parse ops)) -> assoc (ca_file name) (s_files (after parse ops)) = Some (Some k).
Proof.
  revert name k. induction ops as [|o ops IH] using rev_ind; [intros ? ? []|]. intros name k. rewrite after_snoc.
  destruct o as [n key x|i|i q now]; cbn [step fst]; try apply IH. unfold init_ca.
  set (old := match assoc (ca_file n) (s_files (after parse ops)) with Some k => k | None => None end).
  destruct x; cbn [fst]; try apply IH; destruct old as [ok|] eqn:O; cbn [fst]; try apply IH; cbn [s_running s_files];
    intros H; apply in_app_or in H as [H|[H|[]]]; try (apply IH; exact H).
  - inv H. unfold old in O. destruct (assoc _ _) as [z|]; [subst; reflexivity|discriminate].
  - destruct (str_eq_dec name n) as [->|N].
    + exfalso. apply IH in H. unfold old in O. rewrite H in O. discriminate.
    + rewrite assoc_set_neq by (intros E; apply ca_file_inj in E; congruence). apply IH. exact H.
  - inv H. apply assoc_set_eq.
  - inv H. unfold old in O. destruct (assoc _ _) as [z|]; [subst; reflexivity|discriminate].
  - inv H. unfold old in O. destruct (assoc _ _) as [z|]; [subst; reflexivity|discriminate].
Qed.
Lemma running_mono parse ops more i x : nth_error (s_running (after parse ops)) i = Some x -> nth_error (s_running (after parse (ops ++ more))) i = Some x.
Proof.
  induction more as [|o more IH] using rev_ind; intros H; [rewrite app_nil_r; exact H|]. rewrite app_assoc, after_snoc. specialize (IH H).
  assert (L : exists l, s_running (fst (step parse (after parse (ops ++ more)) o)) = s_running (after parse (ops ++ more)) ++ l).
  { destruct o as [n key x0|j|j q now]; cbn [step fst]; try (exists []; symmetry; apply app_nil_r). unfold init_ca.
    destruct x0; cbn [fst]; try (exists []; symmetry; apply app_nil_r); destruct (match assoc _ _ with Some k => k | None => None end); cbn [fst];
      try (exists []; symmetry; apply app_nil_r); eexists; reflexivity. }
  destruct L as (l & L). rewrite L, nth_error_app1; [exact IH|]. apply nth_error_Some. congruence.
Qed.

(** The public key of an authority is the same for ever, whatever is restarted and whichever
    writes fail. *)
Theorem C64_key_stays :
  forall parse before between i j name k k',
  named parse before i name -> named parse (before ++ between) j name ->
  answer parse before (ServeKey i) = OKey k -> answer parse (before ++ between) (ServeKey j) = OKey k' -> k' = k.
Proof.
  intros parse before between i j name k k' [k1 N1] [k2 N2]. unfold answer. cbn [step snd]. rewrite N1, N2. intros H1 H2. inv H1. inv H2.
  apply running_mono with (more := between) in N1. apply nth_error_In, running_file in N1. apply nth_error_In, running_file in N2. congruence.
Qed.

(** Different authorities have different keys, if generated keys are different. *)
Definition generated (ops : list op) : list str := map (fun o => match o with New _ k _ => k | _ => [] end) (filter (fun o => match o with New _ _ _ => true | _ => false end) ops).
Lemma generated_snoc ops o : generated (ops ++ [o]) = generated ops ++ generated [o].
Proof. unfold generated. rewrite filter_app, map_app. reflexivity. Qed.
Lemma key_generated parse ops f k : assoc f (s_files (after parse ops)) = Some (Some k) -> In k (generated ops).
Proof.
  revert f k. induction ops as [|o ops IH] using rev_ind; [discriminate|]. intros f k. rewrite after_snoc, generated_snoc. intros H. apply in_or_app.
  destruct o as [n key x|i|i q now]; cbn [step fst] in H; try (left; eapply IH; exact H). unfold init_ca in H.
  destruct x; cbn [fst] in H; try (left; eapply IH; exact H); destruct (match assoc (ca_file n) _ with Some k => k | None => None end); cbn [fst s_files] in H; try (left; eapply IH; exact H).
  destruct (str_eq_dec (ca_file n) f) as [<-|N]; [rewrite assoc_set_eq in H; inv H; right; left; reflexivity|]. rewrite assoc_set_neq in H by exact N. left. eapply IH. exact H.
Qed.
(** The file of an authority is never in another directory, whatever its name. *)
Theorem C64_no_directory : forall n, ~ In "/"%char (ca_file n).
Proof.
  intros n. unfold ca_file. intros H. apply in_app_or in H as [H|H]; [cbn in H; intuition discriminate|].
  unfold path_escape in H. apply in_concat in H as (l & L & H). apply in_map_iff in L as (c & <- & _).
  revert H. clear. destruct c as [a b c d e f g h].
  destruct a, b, c, d, e, f, g, h; vm_compute; intuition discriminate.
Qed.

(** A name of letters, digits and these characters is the name of the file; there are no
    others in a file name. *)
Definition file_characters : str := lit "abcdefghijklmnopqrstuvwxyzABCDEFGHIJKLMNOPQRSTUVWXYZ0123456789-_.~$&+=:@".
Theorem C64_file_names : forall n,
  ((forall c, In c n -> In c file_characters) -> ca_file n = lit "sshca-" ++ n) /\
  (forall c, In c (ca_file n) -> In c file_characters \/ c = "%"%char).
Proof.
  intros n. unfold ca_file. split.
  - intros H. f_equal. unfold path_escape. induction n as [|c n IH]; [reflexivity|]. cbn [map List.concat].
    rewrite IH by (intros x I; apply H; right; exact I). assert (K : path_escape_byte c = [c]); [|rewrite K; reflexivity].
    specialize (H c (or_introl eq_refl)). cbn in H. repeat (destruct H as [<-|H]; [reflexivity|]). destruct H.
  - intros c H. apply in_app_or in H as [H|H]; [left; cbn in H |- *; tauto|]. unfold path_escape in H. apply in_concat in H as (l & L & H). apply in_map_iff in L as (x & <- & _).
    assert (K : forallb (fun c => has_char c ("%"%char :: file_characters)) (path_escape_byte x) = true) by (clear; destruct x as [[] [] [] [] [] [] [] []]; reflexivity).
    rewrite forallb_forall in K. specialize (K c H). apply has_char_spec in K as [K|K]; [right; symmetry; exact K|left; exact K].
Qed.
Print Assumptions C64_file_names.
Print Assumptions C64_no_directory.

Theorem C64_keys_distinct :
  forall parse ops i j n1 n2 k,
  NoDup (generated ops) -> named parse ops i n1 -> named parse ops j n2 ->
  answer parse ops (ServeKey i) = OKey k -> answer parse ops (ServeKey j) = OKey k -> n1 = n2.
Proof.
  intros parse ops i j n1 n2 k ND [k1 N1] [k2 N2]. unfold answer. cbn [step snd]. rewrite N1, N2. intros H1 H2. inv H1. inv H2.
  apply nth_error_In, running_file in N1. apply nth_error_In, running_file in N2. apply ca_file_inj.
  revert ND N1 N2. generalize (ca_file n1) (ca_file n2). induction ops as [|o ops IH] using rev_ind; [discriminate|].
  intros f1 f2. rewrite generated_snoc, after_snoc. intros ND N1 N2.
  assert (ND' : NoDup (generated ops)) by (clear - ND; induction (generated ops); [constructor|]; inv ND; constructor; [intros X; apply H1, in_or_app; left; exact X|apply IHl; assumption]).
  destruct o as [n key x|i'|i' q now]; cbn [step fst] in N1, N2; try (eapply IH; eassumption). unfold init_ca in N1, N2.
  destruct x; cbn [fst] in N1, N2; try (eapply IH; eassumption); destruct (match assoc (ca_file n) _ with Some k => k | None => None end); cbn [fst s_files] in N1, N2; try (eapply IH; eassumption).
  assert (F : forall f, assoc f (s_files (after parse ops)) <> Some (Some key)).
  { intros f X. apply key_generated in X. cbn in ND. apply NoDup_remove_2 in ND. apply ND. rewrite app_nil_r. exact X. }
  destruct (str_eq_dec (ca_file n) f1) as [<-|Q1]; destruct (str_eq_dec (ca_file n) f2) as [<-|Q2].
  - reflexivity.
  - rewrite assoc_set_eq in N1. inv N1. rewrite assoc_set_neq in N2 by exact Q2. destruct (F _ N2).
  - rewrite assoc_set_eq in N2. inv N2. rewrite assoc_set_neq in N1 by exact Q1. destruct (F _ N1).
  - rewrite assoc_set_neq in N1 by exact Q1. rewrite assoc_set_neq in N2 by exact Q2. eapply IH; eassumption.
Qed.

Example C64_example :
  let ops := [New (lit "a/b") (lit "K1") CommitFails; New (lit "a/b") (lit "K2") Works; New (lit "a%2Fb") (lit "K3") Works; New (lit "a/b") (lit "K4") Works] in
  NoDup (generated ops) /\ named ex_parse ops 0 (lit "a/b") /\ named ex_parse ops 2 (lit "a/b") /\ named ex_parse ops 1 (lit "a%2Fb") /\
  answer ex_parse ops (ServeKey 0) = OKey (lit "K2") /\ answer ex_parse ops (ServeKey 2) = OKey (lit "K2") /\ answer ex_parse ops (ServeKey 1) = OKey (lit "K3").
Proof.
  split; [vm_compute; repeat (constructor; [cbn; intuition discriminate|]); constructor|].
  repeat split; try (eexists; vm_compute; reflexivity); vm_compute; reflexivity.
Qed.

Print Assumptions C46_names_the_user.
Print Assumptions C46_short_lived.
Print Assumptions C46_unauthenticated_refused.
Print Assumptions C64_files_distinct.
Print Assumptions C64_key_stays.
Print Assumptions C64_keys_distinct.
