From Coq Require Import ZArith.
From Verif Require Import Base XfccModel XfccProofs PemModel PemSpec.
Local Open Scope nat_scope.

(** ** base64 *)
Lemma b64_value_char b5 b4 b3 b2 b1 b0 : b64_value (b64_char b5 b4 b3 b2 b1 b0) = Some (b5, b4, b3, b2, b1, b0).
Proof. destruct b5, b4, b3, b2, b1, b0; reflexivity. Qed.
Lemma b64_eqb b5 b4 b3 b2 b1 b0 : Ascii.eqb (b64_char b5 b4 b3 b2 b1 b0) equal = false.
Proof. destruct b5, b4, b3, b2, b1, b0; reflexivity. Qed.
Lemma unbase64_base64 s : unbase64 (base64 s) = Some s.
Proof.
  induction s as [|[]|[] []|[] [] [] r IH] using base64_cases; cbn [base64 unbase64];
    rewrite ?b64_value_char, ?b64_eqb, ?Ascii.eqb_refl; try reflexivity.
  rewrite IH. reflexivity.
Qed.
Lemma base64_filter s : filter no_space (base64 s) = base64 s.
Proof.
  assert (B : forall c, b64ish c = true -> no_space c = true) by (intros [[] [] [] [] [] [] [] []]; vm_compute; congruence).
  generalize (base64_chars s). generalize (base64 s). induction l as [|c l IH]; intro H; [reflexivity|].
  cbn [filter]. rewrite B by (apply H; left; reflexivity). rewrite IH; [reflexivity|]. intros x X. apply H. right. exact X.
Qed.
Lemma filter_newline s : filter no_space s = filter no_space (filter (fun c => negb (Ascii.eqb c newline)) s).
Proof.
  induction s as [|c s IH]; [reflexivity|]. cbn [filter]. destruct (Ascii.eqb c newline) eqn:E; cbn [negb filter].
  - apply Ascii.eqb_eq in E as ->. cbn. exact IH.
  - rewrite IH. reflexivity.
Qed.
Lemma lines_filter n s : filter no_space (lines n (base64 s)) = base64 s.
Proof. rewrite filter_newline, lines_content by (apply base64_no; reflexivity). apply base64_filter. Qed.

(** ** lines *)
Lemma lines_end n s : 1 <= n <= 64 -> (lines n s = [] /\ s = [] /\ n = 64) \/ exists t, lines n s = t ++ [newline].
Proof.
  revert n. induction s as [|c s IH]; intros n H; cbn [lines].
  - destruct (Nat.eqb_spec n 64); [left; auto|]. right. exists []. reflexivity.
  - right. destruct n as [|[|n]]; [lia| |].
    + destruct (IH 64) as [(E & _)|[t E]]; [lia| |]; rewrite E; [exists [c]; reflexivity|]. exists (c :: newline :: t). reflexivity.
    + destruct (IH (S (S n) - 1)) as [(_ & _ & E)|[t E]]; [lia|lia|]. rewrite E. exists (c :: t). reflexivity.
Qed.
Lemma body_no_dash n s : ~ In "-"%char (lines n (base64 s)).
Proof. intro H. apply lines_chars in H as [H|H]; [discriminate|]. revert H. apply base64_no. reflexivity. Qed.
Lemma body_no_colon n s : ~ In ":"%char (lines n (base64 s)).
Proof. intro H. apply lines_chars in H as [H|H]; [discriminate|]. revert H. apply base64_no. reflexivity. Qed.

(** ** cut, get_line *)
Lemma cut_app c a b : ~ In c a -> cut c (a ++ c :: b) = (a, b, true).
Proof.
  induction a as [|x a IH]; intro H; cbn [app cut]; [rewrite Ascii.eqb_refl; reflexivity|].
  assert (E : Ascii.eqb x c = false) by (apply Ascii.eqb_neq; intros ->; apply H; left; reflexivity).
  rewrite E, IH; [reflexivity|]. intro X. apply H. right. exact X.
Qed.
Lemma cut_none c a : ~ In c a -> cut c a = (a, [], false).
Proof.
  induction a as [|x a IH]; intro H; cbn [cut]; [reflexivity|].
  assert (E : Ascii.eqb x c = false) by (apply Ascii.eqb_neq; intros ->; apply H; left; reflexivity).
  rewrite E, IH; [reflexivity|]. intro X. apply H. right. exact X.
Qed.
Lemma trim_right_last a c : blank c = false -> trim_right (a ++ [c]) = a ++ [c].
Proof.
  intro H. induction a as [|x a IH]; cbn [app trim_right]; [rewrite H; reflexivity|].
  rewrite IH. destruct (a ++ [c]) eqn:E; [destruct a; discriminate|reflexivity].
Qed.
Lemma trim_right_in c s : In c (trim_right s) -> In c s.
Proof.
  induction s as [|x s IH]; cbn [trim_right]; [tauto|].
  destruct (trim_right s) eqn:E; [destruct (blank x); cbn [In]; tauto|]. cbn [In] in *. tauto.
Qed.
Lemma removelast_in {A} (x : A) s : In x (removelast s) -> In x s.
Proof.
  induction s as [|y s IH]; cbn [removelast]; [tauto|]. destruct s as [|z s]; [intros []|]. cbn [In] in *. tauto.
Qed.
Lemma get_line_in c s : In c (fst (get_line s)) -> In c (fst (fst (cut newline s))).
Proof.
  unfold get_line. destruct (cut newline s) as [[a b] f]. cbn [fst]. intro H. apply trim_right_in in H.
  destruct (f && _); [apply removelast_in in H|]; exact H.
Qed.
Lemma cut_in c s x : In x (fst (fst (cut c s))) -> In x s.
Proof.
  destruct (cut_spec c s) as [(a & b & -> & _ & ->)|[_ ->]]; cbn [fst]; [|auto]. rewrite in_app_iff. tauto.
Qed.
Lemma get_line_end a b : ~ In newline a -> forall c, blank c = false -> c <> newline -> c <> "013"%char ->
  get_line (a ++ c :: newline :: b) = (a ++ [c], b).
Proof.
  intros H c B N R. unfold get_line. replace (a ++ c :: newline :: b) with ((a ++ [c]) ++ newline :: b) by (rewrite <- app_assoc; reflexivity).
  rewrite cut_app by (rewrite in_app_iff; cbn [In]; intuition congruence).
  rewrite last_last. apply Ascii.eqb_neq in R. rewrite R. cbn [andb]. rewrite trim_right_last by exact B. reflexivity.
Qed.
Lemma get_line_snd s : snd (get_line s) = snd (fst (cut newline s)).
Proof. unfold get_line. destruct (cut newline s) as [[a b] f]. reflexivity. Qed.
Lemma get_line_shorter s : List.length (snd (get_line s)) <= List.length s.
Proof.
  rewrite get_line_snd. destruct (cut_spec newline s) as [(a & b & -> & _ & ->)|[_ ->]]; cbn [fst snd]; [rewrite app_length; cbn; lia|cbn; lia].
Qed.

(** ** cut_sub *)
Lemma cut_sub_some p s a b : cut_sub p s = Some (a, b) -> s = a ++ p ++ b.
Proof.
  revert a b. induction s as [|c s IH]; intros a b; cbn [cut_sub].
  - destruct (has_prefix [] p) eqn:E; [|discriminate]. intros [= <- <-]. apply has_prefix_spec in E as [t E].
    cbn [app]. rewrite E. rewrite skipn_app, skipn_all, Nat.sub_diag. reflexivity.
  - destruct (has_prefix (c :: s) p) eqn:E.
    + intros [= <- <-]. apply has_prefix_spec in E as [t E]. cbn [app]. rewrite E. rewrite skipn_app, skipn_all, Nat.sub_diag. reflexivity.
    + destruct (cut_sub p s) as [[a' b']|]; [|discriminate]. intros [= <- <-]. rewrite (IH a' b') at 1 by reflexivity. reflexivity.
Qed.
Lemma cut_sub_no c p s : ~ In c s -> cut_sub (c :: p) s = None.
Proof.
  intro H. destruct (cut_sub (c :: p) s) as [[a b]|] eqn:E; [|reflexivity]. apply cut_sub_some in E. exfalso. apply H.
  rewrite E. apply in_or_app. right. left. reflexivity.
Qed.
Lemma cut_sub_dash p L T : ~ In "-"%char L ->
  cut_sub (newline :: "-"%char :: p) (L ++ newline :: "-"%char :: p ++ T) = Some (L, T).
Proof.
  set (s := newline :: "-"%char :: p). intro H. induction L as [|c L IH].
  - replace ([] ++ newline :: "-"%char :: p ++ T) with (s ++ T) by reflexivity. 
    assert (E : has_prefix (s ++ T) s = true) by apply has_prefix_app.
    destruct (s ++ T) as [|x r] eqn:X; [discriminate X|]. cbn [cut_sub]. rewrite E.
    rewrite <- X, skipn_app, skipn_all, Nat.sub_diag. reflexivity.
  - cbn [app cut_sub]. assert (E : has_prefix (c :: L ++ newline :: "-"%char :: p ++ T) s = false).
    { unfold s. destruct L as [|d L]; cbn [has_prefix app].
      - change (Ascii.eqb newline "-") with false. rewrite andb_false_l, andb_false_r. reflexivity.
      - assert (D : Ascii.eqb d "-" = false) by (apply Ascii.eqb_neq; intros ->; apply H; right; left; reflexivity).
        rewrite D. cbn [andb]. apply andb_false_r. }
    rewrite E, IH by (intro X; apply H; right; exact X). reflexivity.
Qed.
Lemma cut_sub_cut p L E n : ~ In "-"%char L -> ~ In newline E -> has_prefix (firstn (n - List.length L) E) ("-"%char :: p) = false ->
  cut_sub (newline :: "-"%char :: p) (firstn n (L ++ E)) = None.
Proof.
  intros HL HE. revert n. induction L as [|c L IH]; intros n H.
  - apply cut_sub_no. intro X. apply HE. revert X. clear. revert n.
    cbn [app]. induction E as [|e E IH]; intros [|n]; cbn [firstn In]; try tauto. intros [X|X]; [auto|right; eauto].
  - destruct n as [|n]; [reflexivity|]. cbn [app firstn cut_sub].
    assert (HL' : ~ In "-"%char L) by (intro X; apply HL; right; exact X).
    assert (P : has_prefix (firstn n (L ++ E)) ("-"%char :: p) = false).
    { destruct L as [|d L]; [cbn [app]; cbn [List.length] in H; replace (S n - 1) with n in H by lia; exact H|].
      destruct n as [|n]; [reflexivity|]. cbn [app firstn has_prefix].
      assert (D : Ascii.eqb d "-" = false) by (apply Ascii.eqb_neq; intros ->; apply HL'; left; reflexivity).
      rewrite D. reflexivity. }
    change (has_prefix (c :: firstn n (L ++ E)) (newline :: "-"%char :: p)) with (Ascii.eqb c newline && has_prefix (firstn n (L ++ E)) ("-"%char :: p)).
    rewrite P, andb_false_r, IH; [reflexivity|exact HL'|]. cbn [List.length] in H. exact H.
Qed.

Lemma in_firstn {A} (x : A) n s : In x (firstn n s) -> In x s.
Proof. revert n. induction s as [|y s IH]; intros [|n]; cbn [firstn In]; try tauto. intros [H|H]; [auto|right; eauto]. Qed.

(** ** Decoding *)
Lemma headers_none f n r : r <> [] -> ~ In ":"%char (fst (fst (cut newline r))) -> headers f n r = Some (n, r).
Proof.
  intros R H. destruct r as [|c r]; [congruence|]. destruct (get_line (c :: r)) as [line next] eqn:G.
  assert (E : has_char ":" line = false).
  { apply has_char_false. intro X. apply H. apply get_line_in. rewrite G. exact X. }
  destruct f; cbn [headers]; rewrite G, E; reflexivity.
Qed.
Lemma dashes_suffix ty : has_suffix (ty ++ dashes) dashes = true.
Proof. apply has_suffix_spec. exists ty. reflexivity. Qed.
Lemma firstn_len {A} (a b : list A) : firstn (List.length a) (a ++ b) = a.
Proof. rewrite firstn_app, Nat.sub_diag, firstn_all. cbn. apply app_nil_r. Qed.
Lemma skipn_len {A} (a b : list A) : skipn (List.length a) (a ++ b) = b.
Proof. rewrite skipn_app, skipn_all, Nat.sub_diag. reflexivity. Qed.
Lemma type_line_newline ty : plain_type ty -> ~ In newline (ty ++ dashes).
Proof. intros [H _]. rewrite in_app_iff. intros [X|X]; [auto|]. cbn [dashes lit In] in X. repeat destruct X as [X|X]; try discriminate X; contradiction. Qed.
Lemma get_type_line ty r : plain_type ty -> get_line (ty ++ dashes ++ newline :: r) = (ty ++ dashes, r).
Proof.
  intro P. replace (ty ++ dashes ++ newline :: r) with ((ty ++ lit "----") ++ "-"%char :: newline :: r) by (rewrite <- !app_assoc; reflexivity).
  rewrite get_line_end; [rewrite <- app_assoc; reflexivity| |reflexivity|discriminate|discriminate].
  intro X. apply (type_line_newline ty P). rewrite in_app_iff in *. destruct X as [X|X]; [auto|]. right. cbn in *. tauto.
Qed.

(** What follows the two words: nothing, or a new line. *)
Definition at_end (suf : str) : Prop := suf = [] \/ exists r, suf = newline :: r.

(** The rest of Decode, once the type is known. *)
Lemma trailer_ok ty suf : at_end suf ->
  let trailer := ty ++ dashes ++ suf in
  let k := List.length ty + List.length dashes in
  (List.length trailer <? k) = false /\ has_prefix (firstn k trailer) ty = true /\ has_suffix (firstn k trailer) dashes = true /\
  str_eqb (fst (get_line (skipn k trailer))) [] = true.
Proof.
  intros H trailer k. assert (K : k = List.length (ty ++ dashes)) by (unfold k; rewrite app_length; reflexivity).
  assert (T : trailer = (ty ++ dashes) ++ suf) by (unfold trailer; rewrite app_assoc; reflexivity).
  rewrite T, K, firstn_len, skipn_len, dashes_suffix, has_prefix_app. repeat split.
  - apply Nat.ltb_ge. rewrite !app_length. lia.
  - destruct H as [->|[r ->]]; reflexivity.
Qed.

Lemma firstn_type ty : firstn (List.length (ty ++ dashes) - List.length dashes) (ty ++ dashes) = ty.
Proof. rewrite app_length. replace (List.length ty + _ - _) with (List.length ty) by lia. apply firstn_len. Qed.

Lemma cut_app_in c a b x : ~ In x a -> ~ In x b -> ~ In x (fst (fst (cut c (a ++ b)))).
Proof. intros A B X. apply cut_in in X. rewrite in_app_iff in X. tauto. Qed.
Lemma cut_prefix_in c a b x : ~ In x a -> ~ In x (fst (fst (cut c (a ++ c :: b)))).
Proof.
  intro A. induction a as [|y a IH]; cbn [app cut]; [rewrite Ascii.eqb_refl; cbn; tauto|].
  destruct (Ascii.eqb y c); [cbn; tauto|]. destruct (cut c (a ++ c :: b)) as [[u v] f]. cbn [fst In] in *. 
  intros [->|X]; [apply A; left; reflexivity|]. apply IH; [|exact X]. intro Y. apply A. right. exact Y.
Qed.

Lemma mark_colon ty : plain_type ty -> ~ In ":"%char (end_mark ++ ty ++ dashes).
Proof. intros [_ H]. rewrite !in_app_iff. intros [X|[X|X]]; [|auto|]; cbn [end_mark dashes lit In] in X; repeat destruct X as [X|X]; try discriminate X; contradiction. Qed.

Lemma scan_begin f s : pem_scan (S f) (begin_mark ++ s) =
  let '(type_line, rest) := get_line s in
  if negb (has_suffix type_line dashes) then pem_scan f rest else
  let ty := firstn (List.length type_line - List.length dashes) type_line in
  match headers (List.length rest) 0 rest with
  | None => None
  | Some (n, rest) =>
      match (if (n =? 0) && has_prefix rest end_mark then Some ([], skipn (List.length end_mark) rest)
             else cut_sub (newline :: end_mark) rest) with
      | None => pem_scan f rest
      | Some (body, trailer) =>
          let k := List.length ty + List.length dashes in
          if List.length trailer <? k then pem_scan f rest
          else if negb (has_prefix (firstn k trailer) ty) || negb (has_suffix (firstn k trailer) dashes) then pem_scan f rest
          else if negb (str_eqb (fst (get_line (skipn k trailer))) []) then pem_scan f rest
          else match unbase64 (filter no_space body) with
               | None => pem_scan f rest
               | Some bytes => Some (ty, bytes, snd (get_line trailer))
               end
      end
  end.
Proof. cbn [pem_scan]. rewrite has_prefix_app, skipn_len. reflexivity. Qed.

Lemma scan_block f ty b suf : plain_type ty -> at_end suf ->
  pem_scan (S f) (begin_mark ++ ty ++ dashes ++ newline :: lines 64 (base64 b) ++ end_mark ++ ty ++ dashes ++ suf) =
  Some (ty, b, snd (get_line suf)).
Proof.
  intros P S. rewrite scan_begin, get_type_line by exact P. rewrite dashes_suffix, firstn_type. cbn [negb].
  set (body := lines 64 (base64 b)). set (rest := body ++ end_mark ++ ty ++ dashes ++ suf).
  assert (C : ~ In ":"%char (fst (fst (cut newline rest)))).
  { unfold rest. destruct S as [->|[r ->]].
    - rewrite app_nil_r. apply cut_app_in; [apply body_no_colon|apply mark_colon, P].
    - replace (body ++ end_mark ++ ty ++ dashes ++ newline :: r) with ((body ++ end_mark ++ ty ++ dashes) ++ newline :: r) by (rewrite <- !app_assoc; reflexivity).
      apply cut_prefix_in. rewrite in_app_iff. intros [X|X]; [exact (body_no_colon _ _ X)|exact (mark_colon ty P X)]. }
  rewrite headers_none; [|unfold rest; destruct body; discriminate|exact C].
  destruct (trailer_ok ty suf S) as (T1 & T2 & T3 & T4). cbv zeta in T1, T2, T3, T4.
  assert (G : snd (get_line (ty ++ dashes ++ suf)) = snd (get_line suf)).
  { destruct S as [->|[r ->]].
    - rewrite app_nil_r, get_line_snd, cut_none by (apply type_line_newline, P). reflexivity.
    - rewrite get_type_line by exact P. reflexivity. }
  change (0 =? 0) with true. cbn [andb].
  destruct (lines_end 64 (base64 b)) as [(E & E' & _)|[t E]]; [lia| |]; fold body in E.
  - unfold rest at 1. rewrite E. cbn [app]. rewrite has_prefix_app. 
    assert (K : skipn (List.length end_mark) rest = ty ++ dashes ++ suf) by (unfold rest; rewrite E; cbn [app]; apply skipn_len). rewrite !K.
    cbv zeta. rewrite T1, T2, T3, T4. cbn [negb orb]. 
    assert (B : b = []) by (destruct b as [|[] [|[] [|[] ?]]]; [reflexivity|discriminate E'|discriminate E'|discriminate E']).
    rewrite B. cbn [filter unbase64]. rewrite G. reflexivity.
  - assert (D : ~ In "-"%char t) by (intro X; apply (body_no_dash 64 b); fold body; rewrite E; apply in_or_app; left; exact X).
    assert (N : has_prefix rest end_mark = false).
    { unfold rest. rewrite E. destruct t as [|c t]; [reflexivity|]. cbn [app].
      change end_mark with ("-"%char :: lit "----END ") at 2. cbn [has_prefix].
      replace (Ascii.eqb c "-") with false; [reflexivity|]. symmetry. apply Ascii.eqb_neq. intros ->. apply D. left. reflexivity. }
    rewrite N. unfold rest at 1. rewrite E, <- app_assoc.
    change end_mark with ("-"%char :: lit "----END ") at 1 2. 
    change ([newline] ++ ("-"%char :: lit "----END ") ++ ty ++ dashes ++ suf) with (newline :: "-"%char :: lit "----END " ++ (ty ++ dashes ++ suf)).
    rewrite cut_sub_dash by exact D.
    cbv zeta. rewrite T1, T2, T3, T4. cbn [negb orb].
    assert (F : filter no_space t = base64 b).
    { rewrite <- (lines_filter 64 b). fold body. rewrite E, filter_app. cbn. rewrite app_nil_r. reflexivity. }
    rewrite F, unbase64_base64, G. reflexivity.
Qed.

Lemma encode_scan f ty b rest : plain_type ty -> pem_scan (S f) (pem_encode ty b ++ rest) = Some (ty, b, rest).
Proof.
  intro P. assert (E : at_end (newline :: rest)) by (right; exists rest; reflexivity).
  pose proof (scan_block f ty b (newline :: rest) P E) as H. unfold pem_encode. rewrite <- ?app_assoc. cbn [app]. rewrite <- ?app_assoc. cbn [app].
  rewrite H. reflexivity.
Qed.

(** ** Less than a block *)
Lemma scan_nothing f s : has_prefix s begin_mark = false -> cut_sub (newline :: begin_mark) s = None -> pem_scan f s = None.
Proof. intros A B. destruct f; [reflexivity|]. cbn [pem_scan]. rewrite A, B. reflexivity. Qed.
Lemma has_prefix_firstn s p n : n < List.length p -> has_prefix (firstn n s) p = false.
Proof.
  revert s n. induction p as [|y p IH]; intros s n H; [cbn in H; lia|]. destruct n as [|n]; [destruct s; reflexivity|].
  destruct s as [|x s]; [reflexivity|]. cbn [firstn has_prefix]. cbn [List.length] in H. rewrite IH by lia. apply andb_false_r.
Qed.
Lemma firstn_past {A} (a b : list A) n : List.length a <= n -> firstn n (a ++ b) = a ++ firstn (n - List.length a) b.
Proof. intro H. rewrite firstn_app, firstn_all2 by exact H. reflexivity. Qed.
Lemma firstn_short {A} (a b : list A) n : n <= List.length a -> firstn n (a ++ b) = firstn n a.
Proof. intro H. rewrite firstn_app. replace (n - List.length a) with 0 by lia. cbn. apply app_nil_r. Qed.

Lemma body_scan_none f ty b n : plain_type ty ->
  pem_scan f (firstn n (lines 64 (base64 b) ++ end_mark ++ ty ++ dashes)) = None.
Proof.
  intro P. set (body := lines 64 (base64 b)). 
  assert (D : ~ In "-"%char body) by apply body_no_dash.
  assert (M : forall m, has_prefix (firstn m (end_mark ++ ty ++ dashes)) begin_mark = false).
  { intro m. do 7 (destruct m as [|m]; [reflexivity|]). reflexivity. }
  apply scan_nothing.
  - destruct body as [|c body]; [apply M|]. destruct n; [reflexivity|]. cbn [app firstn]. change begin_mark with ("-"%char :: lit "----BEGIN ").
    cbn [has_prefix]. replace (Ascii.eqb c "-") with false; [reflexivity|]. symmetry. apply Ascii.eqb_neq. intros ->. apply D. left. reflexivity.
  - change begin_mark with ("-"%char :: lit "----BEGIN "). apply cut_sub_cut; [exact D| |apply M].
    rewrite in_app_iff. intros [X|X]; [|exact (type_line_newline ty P X)]. cbn [end_mark lit In] in X. repeat destruct X as [X|X]; try discriminate X; contradiction.
Qed.

(** What is found of the second mark in less than a block: nothing, or less than the type. *)
Definition found_short (ty : str) (o : option (str * str)) : Prop :=
  match o with Some (_, trailer) => List.length trailer < List.length ty + List.length dashes | None => True end.
Lemma end_short ty b n : plain_type ty -> n < List.length (lines 64 (base64 b) ++ end_mark ++ ty ++ dashes) ->
  let rest := firstn n (lines 64 (base64 b) ++ end_mark ++ ty ++ dashes) in
  found_short ty (if has_prefix rest end_mark then Some ([], skipn (List.length end_mark) rest) else cut_sub (newline :: end_mark) rest).
Proof.
  intros P. set (body := lines 64 (base64 b)). intros H rest. rewrite !app_length in H.
  assert (NE : ~ In newline (end_mark ++ ty ++ dashes)).
  { rewrite in_app_iff. intros [X|X]; [|exact (type_line_newline ty P X)]. cbn [end_mark lit In] in X. repeat destruct X as [X|X]; try discriminate X; contradiction. }
  destruct (lines_end 64 (base64 b)) as [(E & _)|[t E]]; [lia| |]; fold body in E.
  - unfold rest. rewrite E in *. cbn [app]. cbn [List.length] in H. destruct (has_prefix _ _) eqn:HP.
    + cbn [found_short]. rewrite skipn_length, firstn_length, !app_length.
      destruct (Nat.lt_ge_cases n (List.length end_mark)) as [L|L]; [rewrite has_prefix_firstn in HP by exact L; discriminate|]. lia.
    + rewrite cut_sub_no; [exact Logic.I|]. intro X. apply in_firstn in X. auto.
  - assert (D : ~ In "-"%char t) by (intro X; apply (body_no_dash 64 b); fold body; rewrite E; apply in_or_app; left; exact X).
    assert (N : has_prefix rest end_mark = false).
    { unfold rest. rewrite E. destruct n; [reflexivity|]. destruct t as [|c t]; [reflexivity|]. cbn [app firstn].
      change end_mark with ("-"%char :: lit "----END ") at 2. cbn [has_prefix].
      replace (Ascii.eqb c "-") with false; [reflexivity|]. symmetry. apply Ascii.eqb_neq. intros ->. apply D. left. reflexivity. }
    rewrite N. destruct (Nat.lt_ge_cases n (List.length body + List.length end_mark)) as [L|L].
    + unfold rest. change end_mark with ("-"%char :: lit "----END ") at 1. rewrite cut_sub_cut; [exact Logic.I|apply body_no_dash|exact NE|].
      change ("-"%char :: lit "----END ") with end_mark. apply has_prefix_firstn. assert (0 < List.length end_mark) by (cbn; lia). lia.
    + assert (R : rest = t ++ newline :: "-"%char :: lit "----END " ++ firstn (n - (List.length body + List.length end_mark)) (ty ++ dashes)).
      { unfold rest. replace (body ++ end_mark ++ ty ++ dashes) with ((body ++ end_mark) ++ ty ++ dashes) by (rewrite <- app_assoc; reflexivity).
        rewrite firstn_past by (rewrite app_length; lia). rewrite app_length, E, <- !app_assoc. reflexivity. }
      rewrite R. change end_mark with ("-"%char :: lit "----END "). rewrite cut_sub_dash by exact D. cbn [found_short].
      change ("-"%char :: lit "----END ") with end_mark. rewrite firstn_length, app_length. lia.
Qed.

Lemma short_block f ty b n : plain_type ty ->
  S n < List.length (pem_encode ty b) -> pem_scan f (firstn n (pem_encode ty b)) = None.
Proof.
  intros P H. set (body := lines 64 (base64 b)).
  assert (L : List.length (pem_encode ty b) = List.length begin_mark + List.length (ty ++ dashes) + 1 + List.length (body ++ end_mark ++ ty ++ dashes) + 1).
  { unfold pem_encode. fold body. rewrite !app_length. cbn [List.length]. rewrite !app_length. cbn [List.length]. lia. }
  assert (E : pem_encode ty b = (begin_mark ++ (ty ++ dashes) ++ newline :: (body ++ end_mark ++ ty ++ dashes)) ++ [newline]).
  { unfold pem_encode. fold body. rewrite <- !app_assoc. cbn [app]. rewrite <- !app_assoc. reflexivity. }
  rewrite E, firstn_short by (rewrite L in H; rewrite !app_length in *; cbn [List.length] in *; rewrite ?app_length in *; lia). rewrite L in H. clear L E.
  assert (NL : ~ In newline (begin_mark ++ ty ++ dashes)).
  { rewrite in_app_iff. intros [X|X]; [|exact (type_line_newline ty P X)]. cbn [begin_mark lit In] in X. repeat destruct X as [X|X]; try discriminate X; contradiction. }
  destruct (Nat.lt_ge_cases n (List.length begin_mark)) as [L1|L1].
  { rewrite firstn_short by lia. apply scan_nothing.
    - apply has_prefix_firstn. lia.
    - apply cut_sub_no. intro X. apply in_firstn in X. apply NL. apply in_or_app. left. exact X. }
  rewrite firstn_past by exact L1. destruct f as [|f]; [reflexivity|]. rewrite scan_begin.
  set (m := n - List.length begin_mark). 
  destruct (Nat.le_gt_cases m (List.length (ty ++ dashes))) as [L2|L2].
  { rewrite firstn_short by lia. destruct (get_line (firstn m (ty ++ dashes))) as [line next] eqn:G.
    assert (N : next = []).
    { change next with (snd (line, next)). rewrite <- G, get_line_snd, cut_none; [reflexivity|]. intro X. apply in_firstn in X. exact (type_line_newline ty P X). }
    rewrite N. destruct (has_suffix line dashes); cbn [negb]; [reflexivity|]. apply scan_nothing; reflexivity. }
  rewrite firstn_past by lia. remember (m - List.length (ty ++ dashes)) as q eqn:Q. destruct q as [|q]; [lia|].
  cbn [firstn]. rewrite <- app_assoc, get_type_line by exact P. rewrite dashes_suffix, firstn_type. cbn [negb]. cbv zeta.
  assert (Lq : q < List.length (body ++ end_mark ++ ty ++ dashes)) by lia.
  set (rest := firstn q (body ++ end_mark ++ ty ++ dashes)).
  assert (B : pem_scan f rest = None) by (apply body_scan_none; exact P).
  assert (C : ~ In ":"%char (fst (fst (cut newline rest)))).
  { intro X. apply cut_in, in_firstn in X. rewrite in_app_iff in X. destruct X as [X|X]; [exact (body_no_colon _ _ X)|exact (mark_colon ty P X)]. }
  assert (W : found_short ty (if has_prefix rest end_mark then Some ([], skipn (List.length end_mark) rest) else cut_sub (newline :: end_mark) rest))
    by (apply end_short; assumption).
  destruct (list_eq_dec ascii_dec rest []) as [R|R]; [rewrite R; reflexivity|].
  rewrite headers_none by assumption. change (0 =? 0) with true. cbn [andb].
  destruct (if has_prefix rest end_mark then _ else _) as [[bd tr]|]; [|exact B]. cbn [found_short] in W.
  apply Nat.ltb_lt in W. rewrite W. exact B.
Qed.

Lemma almost_block f ty b : plain_type ty ->
  pem_scan (S f) (firstn (List.length (pem_encode ty b) - 1) (pem_encode ty b)) = Some (ty, b, []).
Proof.
  intro P. assert (A : at_end []) by (left; reflexivity). pose proof (scan_block f ty b [] P A) as H. change (snd (get_line [])) with (@nil ascii) in H. rewrite <- H. f_equal. rewrite app_nil_r.
  set (body := lines 64 (base64 b)).
  assert (E : pem_encode ty b = (begin_mark ++ ty ++ dashes ++ newline :: body ++ end_mark ++ ty ++ dashes) ++ [newline]).
  { unfold pem_encode. fold body. rewrite <- !app_assoc. cbn [app]. rewrite <- !app_assoc. reflexivity. }
  rewrite E. set (x := begin_mark ++ _). rewrite app_length. cbn [List.length]. replace (List.length x + 1 - 1) with (List.length x) by lia. apply firstn_len.
Qed.

(** ** The loop ends *)
Lemma cut_sub_shorter p s a b : cut_sub p s = Some (a, b) -> List.length b + List.length p <= List.length s.
Proof. intro H. apply cut_sub_some in H. rewrite H, !app_length. lia. Qed.
Lemma headers_shorter f n r m r' : headers f n r = Some (m, r') -> List.length r' <= List.length r.
Proof.
  revert n r. induction f as [|f IH]; intros n r; destruct r as [|c r]; cbn [headers]; try discriminate;
    pose proof (get_line_shorter (c :: r)) as G; destruct (get_line (c :: r)) as [line next]; cbn [snd] in G;
    destruct (has_char ":" line); try discriminate; try (intros [= <- <-]; lia).
  intro H. apply IH in H. lia.
Qed.
(** One round of the loop: a result, or the text to go on with. *)
Definition round (s : str) : option (str * str * str) + option str :=
  match (if has_prefix s begin_mark then Some (skipn (List.length begin_mark) s)
         else option_map snd (cut_sub (newline :: begin_mark) s)) with
  | None => inr None
  | Some rest =>
      let '(type_line, rest) := get_line rest in
      if negb (has_suffix type_line dashes) then inr (Some rest) else
      let ty := firstn (List.length type_line - List.length dashes) type_line in
      match headers (List.length rest) 0 rest with
      | None => inr None
      | Some (n, rest) =>
          match (if (n =? 0) && has_prefix rest end_mark then Some ([], skipn (List.length end_mark) rest)
                 else cut_sub (newline :: end_mark) rest) with
          | None => inr (Some rest)
          | Some (body, trailer) =>
              let k := List.length ty + List.length dashes in
              if List.length trailer <? k then inr (Some rest)
              else if negb (has_prefix (firstn k trailer) ty) || negb (has_suffix (firstn k trailer) dashes) then inr (Some rest)
              else if negb (str_eqb (fst (get_line (skipn k trailer))) []) then inr (Some rest)
              else match unbase64 (filter no_space body) with
                   | None => inr (Some rest)
                   | Some bytes => inl (Some (ty, bytes, snd (get_line trailer)))
                   end
          end
      end
  end.
Lemma scan_round f s : pem_scan (S f) s = match round s with inl o => o | inr None => None | inr (Some r) => pem_scan f r end.
Proof.
  unfold round. cbn [pem_scan]. destruct (if has_prefix s begin_mark then _ else _) as [r|]; [|reflexivity].
  destruct (get_line r) as [tl r1]. destruct (negb (has_suffix tl dashes)); [reflexivity|].
  destruct (headers _ _ _) as [[n r2]|]; [|reflexivity].
  destruct (if (n =? 0) && has_prefix r2 end_mark then _ else _) as [[bd tr]|]; [|reflexivity]. cbv zeta.
  destruct (List.length tr <? _); [reflexivity|]. destruct (negb _ || negb _); [reflexivity|]. destruct (negb _); [reflexivity|].
  destruct (unbase64 _); reflexivity.
Qed.
Lemma round_shorter s : match round s with
  | inl (Some (_, _, r)) => List.length r < List.length s
  | inr (Some r) => List.length r < List.length s
  | _ => True
  end.
Proof.
  unfold round. destruct (if has_prefix s begin_mark then _ else _) as [r|] eqn:E; [|exact Logic.I].
  assert (L : List.length r < List.length s).
  { destruct (has_prefix s begin_mark) eqn:HP.
    - assert (E' : r = skipn (List.length begin_mark) s) by congruence. rewrite E', skipn_length. apply has_prefix_spec in HP as [t ->]. rewrite app_length. assert (0 < List.length begin_mark) by (cbn; lia). lia.
    - destruct (cut_sub _ s) as [[a b]|] eqn:C; [|discriminate]. injection E as <-. apply cut_sub_shorter in C. cbn [snd List.length] in *. lia. }
  pose proof (get_line_shorter r) as G. destruct (get_line r) as [tl r1]. cbn [snd] in G.
  destruct (negb (has_suffix tl dashes)); [lia|].
  destruct (headers _ _ _) as [[n r2]|] eqn:H; [|exact Logic.I]. apply headers_shorter in H.
  destruct (if (n =? 0) && has_prefix r2 end_mark then _ else _) as [[bd tr]|] eqn:F; [|lia]. cbv zeta.
  assert (T : List.length tr <= List.length r2).
  { destruct ((n =? 0) && has_prefix r2 end_mark); [assert (E2 : tr = skipn (List.length end_mark) r2) by congruence; rewrite E2, skipn_length; lia|]. apply cut_sub_shorter in F. lia. }
  pose proof (get_line_shorter tr).
  destruct (List.length tr <? _); [lia|]. destruct (negb _ || negb _); [lia|]. destruct (negb _); [lia|].
  destruct (unbase64 _); lia.
Qed.
Lemma scan_enough f g s : List.length s < f -> List.length s < g -> pem_scan f s = pem_scan g s.
Proof.
  revert g s. induction f as [|f IH]; intros g s Hf Hg; [lia|]. destruct g as [|g]; [lia|]. rewrite !scan_round.
  pose proof (round_shorter s) as L. destruct (round s) as [o|[r|]]; [reflexivity| |reflexivity]. apply IH; lia.
Qed.
Lemma scan_shorter f s ty b r : pem_scan f s = Some (ty, b, r) -> List.length r < List.length s.
Proof.
  revert s. induction f as [|f IH]; intro s; [discriminate|]. rewrite scan_round. pose proof (round_shorter s) as L.
  destruct (round s) as [o|[r'|]]; [intros ->; exact L| |discriminate]. intro H. apply IH in H. lia.
Qed.
Lemma blocks_enough f g s : List.length s < f -> List.length s < g -> blocks f s = blocks g s.
Proof.
  revert g s. induction f as [|f IH]; intros g s Hf Hg; [lia|]. destruct g as [|g]; [lia|]. cbn [blocks].
  destruct (pem_decode s) as [[[ty b] r]|] eqn:D; [|reflexivity]. apply scan_shorter in D. f_equal. apply IH; lia.
Qed.
Lemma all_blocks_step s : all_blocks s = match pem_decode s with Some (ty, b, r) => (ty, b) :: all_blocks r | None => [] end.
Proof.
  unfold all_blocks at 1. cbn [blocks]. destruct (pem_decode s) as [[[ty b] r]|] eqn:D; [|reflexivity]. apply scan_shorter in D.
  f_equal. apply blocks_enough; lia.
Qed.

(** ** Files *)
Lemma encode_decode ty b rest : plain_type ty -> pem_decode (pem_encode ty b ++ rest) = Some (ty, b, rest).
Proof. intro P. apply encode_scan. exact P. Qed.
Lemma round_text u r : ~ In "-"%char u -> round (u ++ newline :: begin_mark ++ r) = round (begin_mark ++ r).
Proof.
  intro D. unfold round. rewrite (has_prefix_app begin_mark r), skipn_len.
  replace (has_prefix (u ++ newline :: begin_mark ++ r) begin_mark) with false.
  - change begin_mark with ("-"%char :: lit "----BEGIN "). cbn [app]. rewrite cut_sub_dash by exact D. reflexivity.
  - symmetry. destruct u as [|c u]; [reflexivity|]. change begin_mark with ("-"%char :: lit "----BEGIN ") at 2. cbn [app has_prefix].
    replace (Ascii.eqb c "-") with false; [reflexivity|]. symmetry. apply Ascii.eqb_neq. intros ->. apply D. left. reflexivity.
Qed.
Lemma text_decode t ty b rest : text t -> plain_type ty -> pem_decode (t ++ pem_encode ty b ++ rest) = Some (ty, b, rest).
Proof.
  intros [D [u ->]] P. unfold pem_decode. pose proof (encode_scan (List.length ((u ++ [newline]) ++ pem_encode ty b ++ rest)) ty b rest P) as H.
  rewrite <- H. rewrite !scan_round.
  assert (E : exists r, pem_encode ty b ++ rest = begin_mark ++ r).
  { eexists. unfold pem_encode. rewrite <- app_assoc. reflexivity. }
  destruct E as [r E]. rewrite E, <- app_assoc. cbn [app]. rewrite round_text; [reflexivity|]. intro X. apply D. apply in_or_app. left. exact X.
Qed.
Lemma all_blocks_nil : all_blocks [] = [].
Proof. reflexivity. Qed.
Lemma file_blocks l rest : Forall (fun b => plain_type (fst b)) l -> all_blocks (file_of l ++ rest) = l ++ all_blocks rest.
Proof.
  induction l as [|[ty b] l IH]; intro F; [reflexivity|]. inversion F as [|? ? P F']; subst. unfold file_of. cbn [map List.concat fst snd].
  rewrite <- app_assoc, all_blocks_step, encode_decode by exact P. cbn [app]. f_equal. apply IH. exact F'.
Qed.
Lemma encode_long ty b : 11 < List.length (pem_encode ty b).
Proof. unfold pem_encode. rewrite app_length. cbn [List.length begin_mark lit]. rewrite !app_length. cbn. lia. Qed.
Lemma cut_blocks l n : Forall (fun b => plain_type (fst b)) l -> all_blocks (firstn n (file_of l)) = firstn (complete n l) l.
Proof.
  revert n. induction l as [|[ty b] l IH]; intros n F; [destruct n; reflexivity|]. inversion F as [|? ? P F']; subst. cbn [fst] in P.
  unfold file_of. cbn [map List.concat complete fst snd]. fold (file_of l). pose proof (encode_long ty b) as L.
  destruct (S n <? List.length (pem_encode ty b)) eqn:C.
  - apply Nat.ltb_lt in C. rewrite firstn_short by lia. rewrite all_blocks_step. unfold pem_decode. rewrite short_block by assumption. reflexivity.
  - apply Nat.ltb_ge in C. cbn [firstn]. destruct (Nat.eq_dec (S n) (List.length (pem_encode ty b))) as [E|E].
    + rewrite firstn_short by lia. replace n with (List.length (pem_encode ty b) - 1) at 1 by lia.
      rewrite all_blocks_step. unfold pem_decode. rewrite almost_block by exact P. f_equal.
      replace (n - List.length (pem_encode ty b)) with 0 by lia. rewrite all_blocks_nil. destruct l as [|[ty' b'] l]; [reflexivity|].
      cbn [complete fst snd]. pose proof (encode_long ty' b') as L'. replace (1 <? List.length (pem_encode ty' b')) with true; [reflexivity|]. symmetry. apply Nat.ltb_lt. lia.
    + rewrite firstn_past by lia. rewrite all_blocks_step, encode_decode by exact P. f_equal. apply IH. exact F'.
Qed.

(** ** The root *)
Definition root_file (l : lib) (k : nat) (c : x509) : list (str * str) :=
  [(lit "PRIVATE KEY", l_key_der l k); (lit "CERTIFICATE", x_raw c)].
Lemma save_file l k c : save_root l k c = file_of (root_file l k c).
Proof. unfold save_root, file_of. cbn. rewrite app_nil_r. reflexivity. Qed.
Lemma plain_by ty : forallb (fun c => negb (Ascii.eqb c newline || Ascii.eqb c ":")) ty = true -> plain_type ty.
Proof. rewrite forallb_forall. intro H. split; intro X; specialize (H _ X); discriminate H. Qed.
Lemma root_plain l k c : Forall (fun b => plain_type (fst b)) (root_file l k c).
Proof. constructor; [apply plain_by; reflexivity|]. constructor; [apply plain_by; reflexivity|constructor]. Qed.
Lemma root_loop l k c m : lib_ok l -> l_parse_cert l (x_raw c) = Some c ->
  read_loop l (firstn m (root_file l k c)) None None =
  Some (match m with 0 => (None, None) | 1 => (Some k, None) | _ => (Some k, Some c) end).
Proof.
  intros K C. unfold root_file. destruct m as [|[|m]]; cbn [firstn read_loop]; [reflexivity| |].
  - change (str_eqb (lit "PRIVATE KEY") (lit "PRIVATE KEY")) with true. rewrite K. reflexivity.
  - change (str_eqb (lit "PRIVATE KEY") (lit "PRIVATE KEY")) with true. rewrite K.
    change (str_eqb (lit "CERTIFICATE") (lit "PRIVATE KEY")) with false. change (str_eqb (lit "CERTIFICATE") (lit "CERTIFICATE")) with true.
    rewrite C. rewrite firstn_nil. reflexivity.
Qed.
Lemma read_saved l k c : lib_ok l -> l_parse_cert l (x_raw c) = Some c -> read_root l (save_root l k c) = Some (k, c).
Proof.
  intros K C. unfold read_root. rewrite save_file. pose proof (file_blocks (root_file l k c) [] (root_plain l k c)) as H.
  rewrite app_nil_r, all_blocks_nil, app_nil_r in H. rewrite H. pose proof (root_loop l k c 2 K C) as R. cbn [firstn] in R. unfold root_file in *. rewrite R. reflexivity.
Qed.
Lemma read_cut l k c n : lib_ok l -> l_parse_cert l (x_raw c) = Some c ->
  read_root l (firstn n (save_root l k c)) = if List.length (save_root l k c) <=? S n then Some (k, c) else None.
Proof.
  intros K C. unfold read_root. rewrite save_file, cut_blocks by apply root_plain. rewrite root_loop by assumption.
  unfold root_file at 1. cbn [complete fst snd]. unfold file_of. unfold root_file. cbn [map List.concat fst snd]. rewrite app_nil_r, app_length.
  pose proof (encode_long (lit "PRIVATE KEY") (l_key_der l k)) as L1. pose proof (encode_long (lit "CERTIFICATE") (x_raw c)) as L2.
  set (a := List.length (pem_encode (lit "PRIVATE KEY") (l_key_der l k))) in *. set (b := List.length (pem_encode (lit "CERTIFICATE") (x_raw c))) in *. cbv zeta.
  destruct (Nat.ltb_spec (S n) a); [|destruct (Nat.ltb_spec (S (n - a)) b)]; destruct (Nat.leb_spec (a + b) (S n)); try reflexivity; lia.
Qed.

Lemma read_empty l : read_root l [] = None.
Proof. reflexivity. Qed.

(** The file that earlier starts left. *)
Definition left_by (l : lib) (past : list start) (file : option str) : Prop :=
  match file with
  | None => True
  | Some b => exists s n, In s past /\ b = firstn n (save_root l (s_key s) (s_cert s))
  end.
Lemma new_left l past file s : lib_ok l -> Forall (proper l) past -> left_by l past file ->
  left_by l (past ++ [s]) (fst (cm_new l file s)) /\
  (forall r, snd (cm_new l file s) = Some r -> exists s', In s' (past ++ [s]) /\ r = (s_key s', s_cert s')).
Proof.
  intros K F L.
  assert (L' : left_by l (past ++ [s]) file).
  { destruct file as [b|]; [|exact Logic.I]. destruct L as (s' & n & I' & E). exists s', n. split; [apply in_or_app; left; exact I'|exact E]. }
  assert (S' : In s (past ++ [s])) by (apply in_or_app; right; left; reflexivity).
  unfold cm_new. destruct (match file with Some b => read_root l b | None => None end) as [kc|] eqn:R.
  - split; [exact L'|]. intros r [= <-]. destruct file as [b|]; [|discriminate]. destruct L as (s' & n & I' & ->).
    pose proof (proj1 (Forall_forall _ _) F s' I') as (_ & C & _). rewrite read_cut in R by assumption.
    destruct (_ <=? _); [|discriminate]. injection R as <-. exists s'. split; [apply in_or_app; left; exact I'|reflexivity].
  - cbv zeta. destruct (s_write s); cbn [fst snd]; (split; [|intros r E; try discriminate E; injection E as <-; exists s; auto]); try exact L';
      cbn [left_by]; exists s; [exists n|exists n|exists (List.length (save_root l (s_key s) (s_cert s)))]; rewrite ?firstn_all; auto.
Qed.
Lemma starts_from l ss past file j r : lib_ok l -> Forall (proper l) past -> Forall (proper l) ss -> left_by l past file ->
  nth_error (snd (starts l file ss)) j = Some (Some r) ->
  exists s, In s (past ++ firstn (S j) ss) /\ r = (s_key s, s_cert s).
Proof.
  intros K. revert past file j. induction ss as [|s ss IH]; intros past file j F1 F2 L H; [destruct j; discriminate|].
  cbn [starts] in H. destruct (new_left l past file s K F1 L) as [L' N]. destruct (cm_new l file s) as [file' r0]. cbn [fst snd] in *.
  destruct (starts l file' ss) as [file'' rs] eqn:E. cbn [snd] in H. inversion F2 as [|? ? P F2']; subst.
  destruct j as [|j].
  - cbn in H. injection H as ->. destruct (N r eq_refl) as (s' & I' & ->). exists s'. split; [exact I'|reflexivity].
  - cbn [nth_error] in H. destruct (IH (past ++ [s]) file' j) as (s' & I' & Q).
    + apply Forall_app. split; [exact F1|]. constructor; [exact P|constructor].
    + exact F2'.
    + exact L'.
    + rewrite E. exact H.
    + exists s'. split; [|exact Q]. rewrite <- app_assoc in I'. exact I'.
Qed.
Lemma starts_kept l ss file b r : file = Some b -> read_root l b = Some r -> starts l file ss = (file, map (fun _ => Some r) ss).
Proof.
  intros -> R. induction ss as [|s ss IH]; [reflexivity|]. cbn [starts]. unfold cm_new. rewrite R, IH. reflexivity.
Qed.
Lemma starts_written l ss file i j s r : lib_ok l -> Forall (proper l) ss ->
  nth_error ss i = Some s -> s_write s = Written -> nth_error (snd (starts l file ss)) i = Some (Some r) ->
  i <= j < List.length ss -> nth_error (snd (starts l file ss)) j = Some (Some r).
Proof.
  intros K. revert file i j. induction ss as [|s0 ss IH]; intros file i j F N W R H; [destruct i; discriminate|].
  inversion F as [|? ? P F']; subst. cbn [starts] in *. destruct (cm_new l file s0) as [file' r0] eqn:C.
  destruct (starts l file' ss) as [file'' rs] eqn:E. cbn [snd] in *. destruct i as [|i].
  - cbn in N, R. injection N as ->. injection R as ->. destruct j as [|j]; [reflexivity|]. cbn [nth_error].
    assert (X : exists b, file' = Some b /\ read_root l b = Some r).
    { unfold cm_new in C. destruct (match file with Some b => read_root l b | None => None end) as [kc|] eqn:Q.
      - injection C as <- <-. destruct file as [b|]; [|discriminate]. exists b. auto.
      - rewrite W in C. cbv zeta in C. injection C as <- <-. eexists. split; [reflexivity|]. apply read_saved; [exact K|apply P]. }
    destruct X as (b & X & Y). rewrite (starts_kept l ss file' b r X Y) in E. injection E as _ <-.
    rewrite nth_error_map. cbn [List.length] in H. destruct (nth_error ss j) eqn:Z; [reflexivity|]. apply nth_error_None in Z. lia.
  - destruct j as [|j]; [lia|]. cbn [nth_error List.length] in *. specialize (IH file' i j F' N W). rewrite E in IH. cbn [snd] in IH.
    apply IH; [exact R|lia].
Qed.

(** ** What is read was there *)
Lemma trim_right_parts s : exists w, s = trim_right s ++ w /\ Forall white w.
Proof.
  induction s as [|c s (w & E & F)]; [exists []; split; [reflexivity|constructor]|]. cbn [trim_right].
  destruct (trim_right s) as [|d t].
  - destruct (blank c) eqn:B.
    + exists (c :: s). split; [reflexivity|]. constructor; [|rewrite E; exact F].
      unfold blank in B. apply orb_prop in B as [B|B]; apply Ascii.eqb_eq in B; unfold white; auto.
    + exists w. rewrite E at 1. split; [reflexivity|exact F].
  - exists w. rewrite E at 1. split; [reflexivity|exact F].
Qed.
Lemma get_line_parts s line next : get_line s = (line, next) ->
  exists w, s = line ++ w ++ next /\ Forall white w /\ ~ In newline line /\ ((next = [] /\ ~ In newline w) \/ exists v, w = v ++ [newline]).
Proof.
  unfold get_line. destruct (cut_spec newline s) as [(a & b & -> & N & ->)|[N ->]]; cbn [andb].
  - intros [= <- <-]. set (a' := if Ascii.eqb (last a " "%char) "013" then removelast a else a).
    assert (A : exists w, a = a' ++ w /\ Forall white w).
    { unfold a'. destruct (Ascii.eqb (last a " "%char) "013") eqn:E; [|exists []; rewrite app_nil_r; split; [reflexivity|constructor]].
      apply Ascii.eqb_eq in E. exists ["013"%char]. split; [|constructor; [unfold white; auto|constructor]].
      rewrite <- E. apply app_removelast_last. intros ->. discriminate E. }
    destruct A as (w & A & W). destruct (trim_right_parts a') as (v & B & V).
    exists (v ++ w ++ [newline]). split; [rewrite A at 1; rewrite B at 1; rewrite <- !app_assoc; reflexivity|].
    split; [apply Forall_app; split; [exact V|]; apply Forall_app; split; [exact W|constructor; [unfold white; auto|constructor]]|].
    split; [|right; exists (v ++ w); rewrite <- app_assoc; reflexivity].
    intro X. apply N. rewrite A. apply in_or_app. left. apply trim_right_in. exact X.
  - intros [= <- <-]. destruct (trim_right_parts s) as (v & B & V). exists v. rewrite app_nil_r. split; [exact B|]. split; [exact V|].
    split; [intro X; apply N, trim_right_in, X|left; split; [reflexivity|]]. intro X. apply N. rewrite B. apply in_or_app. right. exact X.
Qed.
Lemma headers_nonempty' f n r m r' : headers f n r = Some (m, r') -> r' <> [].
Proof.
  revert n r. induction f as [|f IH]; intros n r; destruct r as [|c r]; cbn [headers]; try discriminate;
    destruct (get_line (c :: r)) as [line next]; destruct (has_char ":" line); try discriminate; try (intros [= <- <-]; discriminate). apply IH.
Qed.
Lemma headers_parts f n r m r' : headers f n r = Some (m, r') -> exists h, r = h ++ r' /\ (h = [] \/ exists q, h = q ++ [newline]).
Proof.
  revert n r. induction f as [|f IH]; intros n r; destruct r as [|c r]; cbn [headers]; try discriminate;
    destruct (get_line (c :: r)) as [line next] eqn:G; destruct (has_char ":" line); try discriminate;
    try (intros [= <- <-]; exists []; auto).
  intro H. pose proof (headers_nonempty' _ _ _ _ _ H) as NE. apply IH in H as (h & -> & Q). apply get_line_parts in G as (w & -> & _ & _ & W).
  exists (line ++ w ++ h). split; [rewrite <- !app_assoc; reflexivity|]. right. destruct Q as [->|[q ->]].
  - destruct W as [[X _]|[v ->]]; [destruct r'; [contradiction|discriminate X]|]. exists (line ++ v). rewrite app_nil_r, <- app_assoc. reflexivity.
  - exists (line ++ w ++ q). rewrite <- !app_assoc. reflexivity.
Qed.
Lemma headers_nonempty f n r m r' : headers f n r = Some (m, r') -> r <> [].
Proof. destruct f, r; cbn [headers]; congruence. Qed.
Lemma app_inj_len {A} (a b c d : list A) : List.length a = List.length c -> a ++ b = c ++ d -> a = c /\ b = d.
Proof.
  revert c. induction a as [|x a IH]; intros [|y c] L E; cbn in *; try discriminate; [auto|]. injection E as -> E. injection L as L.
  destruct (IH c L E) as [-> ->]. auto.
Qed.
Lemma snd_line q tail : ~ In newline q -> snd (get_line (q ++ tail)) = snd (get_line tail).
Proof.
  rewrite !get_line_snd. induction q as [|x q IH]; intro N; [reflexivity|]. cbn [app cut].
  replace (Ascii.eqb x newline) with false by (symmetry; apply Ascii.eqb_neq; intros ->; apply N; left; reflexivity).
  rewrite <- IH by (intro Z; apply N; right; exact Z). destruct (cut newline (q ++ tail)) as [[? ?] ?]. reflexivity.
Qed.
Lemma begin_parts s r : (if has_prefix s begin_mark then Some (skipn (List.length begin_mark) s)
         else option_map snd (cut_sub (newline :: begin_mark) s)) = Some r ->
  exists pre, s = pre ++ begin_mark ++ r /\ (pre = [] \/ exists p, pre = p ++ [newline]).
Proof.
  destruct (has_prefix s begin_mark) eqn:HP.
  - intro E. assert (E' : r = skipn (List.length begin_mark) s) by congruence. apply has_prefix_spec in HP as [t ->].
    rewrite skipn_len in E'. subst t. exists []. auto.
  - destruct (cut_sub (newline :: begin_mark) s) as [[a b]|] eqn:C; [|discriminate]. intro E. assert (b = r) by (cbn in E; congruence). subst b.
    apply cut_sub_some in C. exists (a ++ [newline]). split; [|eauto]. rewrite C, <- app_assoc. reflexivity.
Qed.
Lemma round_some s ty b r : round s = inl (Some (ty, b, r)) -> has_block s ty b r.
Proof.
  unfold round. destruct (if has_prefix s begin_mark then _ else _) as [r0|] eqn:B; [|discriminate].
  apply begin_parts in B as (pre & -> & PR). destruct (get_line r0) as [tl r1] eqn:G.
  destruct (has_suffix tl dashes) eqn:SF; [|discriminate]. cbn [negb]. apply has_suffix_spec in SF as [ty' ->]. rewrite firstn_type.
  destruct (headers _ _ _) as [[n r2]|] eqn:H; [|discriminate]. pose proof (headers_nonempty _ _ _ _ _ H) as NE. apply headers_parts in H as (h & -> & _).
  destruct (if (n =? 0) && has_prefix r2 end_mark then _ else _) as [[bd tr]|] eqn:F; [|discriminate]. cbv zeta.
  destruct (Nat.ltb_spec (List.length tr) (List.length ty' + List.length dashes)) as [|L]; [discriminate|].
  destruct (has_prefix _ ty') eqn:P1; [|discriminate]. destruct (has_suffix _ dashes) eqn:P2; [|discriminate]. cbn [negb orb].
  destruct (str_eqb _ []) eqn:P3; [|discriminate]. cbn [negb].
  destruct (unbase64 _) as [bytes|] eqn:U; [|discriminate]. intros [= -> -> <-].
  apply get_line_parts in G as (w1 & -> & W1 & NL & W1').
  assert (E : exists sep, r2 = bd ++ sep ++ end_mark ++ tr /\ (sep = [newline] \/ sep = [] /\ bd = [])).
  { destruct ((n =? 0) && has_prefix r2 end_mark) eqn:X.
    - apply andb_prop in X as [_ X]. assert (tr = skipn (List.length end_mark) r2 /\ bd = []) as [-> ->] by (split; congruence).
      apply has_prefix_spec in X as [t ->]. rewrite skipn_len. exists []. split; [reflexivity|right; auto].
    - apply cut_sub_some in F. exists [newline]. rewrite F. split; [reflexivity|left; reflexivity]. }
  destruct E as (sep & -> & SEP).
  assert (T : tr = ty ++ dashes ++ skipn (List.length ty + List.length dashes) tr).
  { rewrite <- (firstn_skipn (List.length ty + List.length dashes) tr) at 1.
    apply has_prefix_spec in P1 as [u P1]. apply has_suffix_spec in P2 as [v P2].
    assert (Q : List.length (firstn (List.length ty + List.length dashes) tr) = List.length ty + List.length dashes) by (apply firstn_length_le; lia).
    rewrite P1 in P2, Q |- *. rewrite app_length in Q.
    assert (ty = v /\ u = dashes) as [_ ->].
    { apply app_inj_len; [|exact P2]. apply (f_equal (@List.length ascii)) in P2. rewrite !app_length in P2. lia. }
    rewrite <- app_assoc. reflexivity. }
  set (tail := skipn (List.length ty + List.length dashes) tr) in *.
  assert (S1 : snd (get_line tr) = snd (get_line tail)).
  { rewrite T, app_assoc. apply snd_line. exact NL. }
  destruct (get_line tail) as [line rest] eqn:GT. cbn [fst snd] in *. apply str_eqb_spec in P3 as ->.
  apply get_line_parts in GT as (w2 & GT & W2 & _ & W2'). cbn [app] in GT.
  exists pre, w1, h, bd, sep, w2. rewrite S1. split.
  { rewrite T, GT. change (lit "-----BEGIN ") with begin_mark. change (lit "-----END ") with end_mark. change (lit "-----") with dashes. rewrite <- !app_assoc. reflexivity. }
  split; [exact PR|]. split; [exact SEP|]. split; [exact W1|]. split.
  { destruct W1' as [[X _]|[v ->]]; [contradiction|]. apply in_or_app. right. left. reflexivity. }
  split; [exact W2|]. split; [destruct W2' as [[X _]|X]; auto|]. split; [|exact U].
  intro X. apply NL. apply in_or_app. left. exact X.
Qed.
Lemma round_goes_on s r : round s = inr (Some r) -> exists p, s = p ++ r /\ (r = [] \/ exists q, p = q ++ [newline]).
Proof.
  unfold round. destruct (if has_prefix s begin_mark then _ else _) as [r0|] eqn:B; [|discriminate].
  apply begin_parts in B as (pre & -> & _). destruct (get_line r0) as [tl r1] eqn:G. apply get_line_parts in G as (w & -> & _ & _ & W).
  assert (R1 : exists p, pre ++ begin_mark ++ tl ++ w ++ r1 = p ++ r1 /\ (r1 = [] \/ exists q, p = q ++ [newline])).
  { exists (pre ++ begin_mark ++ tl ++ w). split; [rewrite <- !app_assoc; reflexivity|]. destruct W as [[X _]|[v ->]]; [auto|]. right.
    exists (pre ++ begin_mark ++ tl ++ v). rewrite <- !app_assoc. reflexivity. }
  destruct (has_suffix tl dashes); cbn [negb]; [|intros [= <-]; exact R1].
  destruct (headers _ _ _) as [[n r2]|] eqn:H; [|discriminate]. pose proof (headers_nonempty _ _ _ _ _ H) as NE. apply headers_parts in H as (h & -> & Q).
  assert (R2 : exists p, pre ++ begin_mark ++ tl ++ w ++ h ++ r2 = p ++ r2 /\ (r2 = [] \/ exists q, p = q ++ [newline])).
  { destruct R1 as (p & E & P). rewrite E. exists (p ++ h). split; [apply app_assoc|]. right. destruct P as [P|[q ->]]; [contradiction|].
    destruct Q as [->|[q' ->]]; [exists q; apply app_nil_r|]. exists ((q ++ [newline]) ++ q'). apply app_assoc. }
  destruct (if (n =? 0) && has_prefix r2 end_mark then _ else _) as [[bd tr]|]; [|intros [= <-]; exact R2]. cbv zeta.
  destruct (List.length tr <? _); [intros [= <-]; exact R2|]. destruct (negb _ || negb _); [intros [= <-]; exact R2|].
  destruct (negb _); [intros [= <-]; exact R2|]. destruct (unbase64 _); [discriminate|intros [= <-]; exact R2].
Qed.
Lemma scan_sound f s ty b r : pem_scan f s = Some (ty, b, r) -> has_block s ty b r.
Proof.
  revert s. induction f as [|f IH]; intro s; [discriminate|]. rewrite scan_round. destruct (round s) as [o|[r'|]] eqn:R; [| |discriminate].
  - intros ->. apply round_some. exact R.
  - intro H. apply IH in H as (pre & w1 & hs & body & sep & w2 & E & PR & REST).
    apply round_goes_on in R as (p & -> & P). exists (p ++ pre), w1, hs, body, sep, w2. split; [rewrite E, <- !app_assoc; reflexivity|]. split; [|exact REST].
    right. destruct PR as [->|[q ->]]; [|exists (p ++ q); rewrite app_assoc; reflexivity].
    destruct P as [->|[q ->]]; [discriminate E|]. exists q. apply app_nil_r.
Qed.

(** ** Certificates for names *)
Lemma get_certs_first qs certs i name serial now j s t :
  first_request qs i name serial now -> assoc name certs = None ->
  i <= j -> nth_error qs j = Some (name, s, t) ->
  nth_error (get_certs certs qs) j = Some (serial, (now + 3600)%Z).
Proof.
  assert (K : forall qs certs c j s t, assoc name certs = Some c -> nth_error qs j = Some (name, s, t) -> nth_error (get_certs certs qs) j = Some c).
  { clear. induction qs as [|[[n s0] t0] qs IH]; intros certs c j s t A H; [destruct j; discriminate|]. cbn [get_certs]. unfold get_cert.
    destruct (assoc n certs) as [c0|] eqn:B.
    - destruct j as [|j]; [cbn in *; congruence|]. cbn [nth_error] in *. eapply IH; eauto.
    - destruct j as [|j]; [cbn in *; congruence|]. cbn [nth_error] in *. eapply IH; [|exact H].
      rewrite assoc_set_neq; [exact A|]. congruence. }
  intros [F1 F2]. revert certs i j F1 F2. induction qs as [|[[n s0] t0] qs IH]; intros certs i j F1 F2 A L H; [destruct i; discriminate|].
  cbn [get_certs]. unfold get_cert. destruct i as [|i].
  - cbn in F1. injection F1 as -> -> ->. rewrite A. destruct j as [|j]; [reflexivity|]. cbn [nth_error] in *. eapply K; [|exact H]. apply assoc_set_eq.
  - destruct j as [|j]; [lia|]. cbn [nth_error] in *. assert (N : n <> name) by (apply (F2 0 n s0 t0); [lia|reflexivity]).
    destruct (assoc n certs) as [c0|] eqn:B.
    + cbn [nth_error]. apply (IH certs i j F1); auto; [|lia]. intros j' n' s' t' X. apply (F2 (S j')). lia.
    + cbn [nth_error]. apply (IH _ i j F1); auto; [| |lia].
      * intros j' n' s' t' X. apply (F2 (S j')). lia.
      * rewrite assoc_set_neq by congruence. exact A.
Qed.

(** ** Entries of the cache *)
Lemma contains_spec s p : contains s p = true <-> exists a b, s = a ++ p ++ b.
Proof.
  unfold contains. destruct (cut_sub p s) as [[a b]|] eqn:E.
  - apply cut_sub_some in E. split; [eauto|reflexivity].
  - split; [discriminate|]. intros (a & b & ->). exfalso. revert E. induction a as [|c a IH]; cbn [app].
    + destruct (p ++ b) as [|x r] eqn:X; cbn [cut_sub]; rewrite <- X, has_prefix_app; discriminate.
    + cbn [cut_sub]. destruct (has_prefix _ p); [discriminate|]. destruct (cut_sub p (a ++ p ++ b)) as [[? ?]|]; [discriminate|auto].
Qed.
Definition entry_file (ty der : str) (chain : list str) : list (str * str) := (ty, der) :: map (fun c => (lit "CERTIFICATE", c)) chain.
Lemma entry_is_file ty der chain : cache_put ty der chain = file_of (entry_file ty der chain).
Proof. unfold cache_put, file_of, entry_file. cbn [map List.concat fst snd]. rewrite map_map. reflexivity. Qed.
Lemma entry_plain ty der chain : plain_type ty -> Forall (fun b => plain_type (fst b)) (entry_file ty der chain).
Proof.
  intro P. constructor; [exact P|]. apply Forall_forall. intros x X. apply in_map_iff in X as (c & <- & _). apply plain_by. reflexivity.
Qed.
Lemma entry_certs parse chain key certs : entry_loop parse (map (fun c => (lit "CERTIFICATE", c)) chain) key certs = Some (key, certs ++ chain).
Proof.
  revert certs. induction chain as [|c chain IH]; intro certs; [cbn; rewrite app_nil_r; reflexivity|]. cbn [map entry_loop].
  change (contains (lit "CERTIFICATE") (lit "PRIVATE KEY")) with false. change (str_eqb (lit "CERTIFICATE") (lit "CERTIFICATE")) with true.
  cbv iota. rewrite IH, <- app_assoc. reflexivity.
Qed.
Lemma not_certificate ty : contains ty (lit "PRIVATE KEY") = true -> str_eqb ty (lit "CERTIFICATE") = false.
Proof. intro H. destruct (str_eqb ty (lit "CERTIFICATE")) eqn:E; [|reflexivity]. apply str_eqb_spec in E. subst ty. discriminate H. Qed.
Lemma entry_read parse parse_cert ty der chain : key_type ty ->
  acme_entry parse parse_cert (cache_put ty der chain) =
  match parse der, chain with
  | Some k, c :: _ => match parse_cert c with Some leaf => Some (k, chain, leaf) | None => None end
  | _, _ => None
  end.
Proof.
  intros [P C]. apply contains_spec in C. unfold acme_entry. rewrite entry_is_file.
  pose proof (file_blocks _ [] (entry_plain ty der chain P)) as H. rewrite app_nil_r, all_blocks_nil, app_nil_r in H. rewrite H.
  unfold entry_file. cbn [entry_loop]. rewrite C. destruct (parse der) as [k|]; [|reflexivity].
  rewrite (not_certificate ty C), entry_certs. cbn [app]. destruct chain; reflexivity.
Qed.
Lemma entry_cut parse parse_cert ty der chain n k certs leaf : key_type ty ->
  acme_entry parse parse_cert (firstn n (cache_put ty der chain)) = Some (k, certs, leaf) ->
  parse der = Some k /\ certs <> [] /\ (exists m, certs = firstn m chain) /\ exists c cs, chain = c :: cs /\ parse_cert c = Some leaf.
Proof.
  intros [P C]. apply contains_spec in C. unfold acme_entry. rewrite entry_is_file, cut_blocks by (apply entry_plain; exact P).
  generalize (complete n (entry_file ty der chain)). intros [|m]; unfold entry_file; cbn [firstn entry_loop]; [discriminate|]. rewrite C.
  destruct (parse der) as [k'|]; [|discriminate]. rewrite (not_certificate ty C), firstn_map, entry_certs. cbn [app].
  destruct (firstn m chain) as [|c cs] eqn:F; [discriminate|]. destruct (parse_cert c) as [lf|] eqn:L; [|discriminate]. intros [= <- <- <-].
  split; [reflexivity|]. split; [discriminate|]. split; [exists m; auto|]. destruct chain as [|c' chain]; [destruct m; discriminate|].
  destruct m as [|m]; [discriminate|]. cbn in F. injection F as -> _. exists c, chain. auto.
Qed.
