From Verif Require Import Base PathModel PathSpec PathProofs TokenModel HttpModel HttpSpec HttpProofs.
From Coq Require Import Permutation.
Open Scope Z_scope.

(** * Cookies *)
Lemma trim_left_id s : match s with c :: _ => is_space c = false | [] => True end -> trim_left s = s.
Proof. destruct s as [|c s]; [reflexivity|]. cbn [trim_left]. intros ->. reflexivity. Qed.
Lemma trim_id s : match s with c :: _ => is_space c = false | [] => True end ->
  match rev s with c :: _ => is_space c = false | [] => True end -> trim s = s.
Proof. intros H1 H2. unfold trim. rewrite (trim_left_id s H1), (trim_left_id _ H2). apply rev_involutive. Qed.
Lemma trim_space s : trim (" "%char :: s) = trim s.
Proof. reflexivity. Qed.

Lemma trim_left_suffix s : exists p, s = p ++ trim_left s /\ forallb is_space p = true.
Proof.
  induction s as [|c s IH]; [exists []; auto|]. cbn [trim_left]. destruct (is_space c) eqn:E; [|exists []; auto].
  destruct IH as (p & H1 & H2). exists (c :: p). split; [cbn; congruence|]. cbn. rewrite E. exact H2.
Qed.
Lemma trim_In s c : In c (trim s) -> In c s.
Proof.
  unfold trim. intro H. apply in_rev in H. destruct (trim_left_suffix (rev (trim_left s))) as (p & E & _).
  assert (In c (rev (trim_left s))) by (rewrite E; apply in_or_app; auto). apply in_rev in H0.
  destruct (trim_left_suffix s) as (q & E2 & _). rewrite E2. apply in_or_app. auto.
Qed.

Definition valid_cookie (c : cookie) : Prop := is_token (ck_name c) = true /\ forallb cookie_char (ck_value c) = true.

Lemma parse_value_valid v v' q : parse_value v = Some (v', q) -> forallb cookie_char v' = true.
Proof.
  unfold parse_value. destruct (match strip_quotes v with Some r => (r, true) | None => (v, false) end) as [w b].
  destruct (forallb cookie_char w) eqn:E; [|discriminate]. intro H. injection H as <- _. exact E.
Qed.
Lemma parse_part_valid p : Forall valid_cookie (parse_part p).
Proof.
  unfold parse_part. cbv zeta. destruct (str_eqb (trim p) []); [constructor|]. destruct (cut "=" (trim p)) as [[name val] b].
  destruct (is_token (trim name)) eqn:E; [|constructor]. destruct (parse_value val) as [[v q]|] eqn:E2; [|constructor].
  constructor; [|constructor]. split; [exact E|]. apply parse_value_valid in E2. exact E2.
Qed.
Lemma Forall_concat {A : Type} (P : A -> Prop) ls : Forall (Forall P) ls -> Forall P (List.concat ls).
Proof. induction 1; cbn; [constructor|]. apply Forall_app. auto. Qed.
Lemma cookies_valid h : Forall valid_cookie (cookies h).
Proof.
  unfold cookies. apply Forall_concat. apply Forall_forall. intros l Hl. apply in_map_iff in Hl. destruct Hl as (line & <- & _).
  unfold parse_line. apply Forall_concat. apply Forall_forall. intros l Hl. apply in_map_iff in Hl. destruct Hl as (p & <- & _).
  apply parse_part_valid.
Qed.

Lemma token_char_not c : token_char c = true -> is_space c = false /\ c <> semicolon /\ c <> "="%char /\ c <> dquote.
Proof.
  intro H. destruct c as [b0 b1 b2 b3 b4 b5 b6 b7].
  destruct b0, b1, b2, b3, b4, b5, b6, b7; try (vm_compute in H; discriminate H); (split; [reflexivity|]; repeat split; discriminate).
Qed.
Lemma cookie_char_not c : cookie_char c = true -> c <> semicolon /\ c <> dquote /\ (is_space c = true -> c = " "%char).
Proof.
  intro H. destruct c as [b0 b1 b2 b3 b4 b5 b6 b7].
  destruct b0, b1, b2, b3, b4, b5, b6, b7; try (vm_compute in H; discriminate H); (split; [discriminate|]; split; [discriminate|]; intro E; first [reflexivity|vm_compute in E; discriminate E]).
Qed.

Lemma token_no c s : is_token s = true -> (c = semicolon \/ c = "="%char) -> ~ In c s.
Proof.
  unfold is_token. intros H Hc Hin. apply andb_prop in H. destruct H as [_ H]. rewrite forallb_forall in H. specialize (H c Hin).
  apply token_char_not in H. destruct H as (_ & H1 & H2 & _). destruct Hc; contradiction.
Qed.

Lemma is_token_cons s : is_token s = true -> exists c r, s = c :: r /\ is_space c = false.
Proof.
  unfold is_token. intro H. apply andb_prop in H. destruct H as [H1 H2]. destruct s as [|c r]; [discriminate H1|].
  exists c, r. split; [reflexivity|]. cbn in H2. apply andb_prop in H2. destruct H2 as [H2 _]. apply token_char_not in H2. tauto.
Qed.
Lemma is_token_trim s : is_token s = true -> trim s = s.
Proof.
  intro H. apply trim_id.
  - destruct (is_token_cons s H) as (c & r & -> & Hc). exact Hc.
  - unfold is_token in H. apply andb_prop in H. destruct H as [_ H]. destruct (rev s) as [|c r] eqn:E; [exact I|].
    rewrite forallb_forall in H. specialize (H c). destruct (token_char_not c) as [A _]; [|exact A]. apply H. apply in_rev. rewrite E. left. reflexivity.
Qed.

Lemma cut_at c a b : ~ In c a -> cut c (a ++ c :: b) = (a, b, true).
Proof.
  induction a as [|x a IH]; intro H; cbn [app cut].
  - rewrite Ascii.eqb_refl. reflexivity.
  - destruct (Ascii.eqb x c) eqn:E; [apply Ascii.eqb_eq in E; exfalso; apply H; left; exact E|].
    rewrite IH by (intro Hin; apply H; right; exact Hin). reflexivity.
Qed.

Definition written_value (c : cookie) : str :=
  match ck_value c with
  | [] => []
  | v => if has_char " " v || has_char comma v || ck_quoted c then [dquote] ++ v ++ [dquote] else v
  end.
Lemma write_cookie_eq c : write_cookie c = ck_name c ++ "="%char :: written_value c.
Proof. reflexivity. Qed.

Lemma strip_quotes_quoted v : v <> [] -> strip_quotes (dquote :: v ++ [dquote]) = Some v.
Proof.
  intro H. unfold strip_quotes. destruct v as [|x v]; [congruence|]. cbn [app].
  replace (has_suffix (dquote :: x :: v ++ [dquote]) [dquote]) with true.
  - rewrite Ascii.eqb_refl. cbn [andb]. change (x :: v ++ [dquote]) with ((x :: v) ++ [dquote]). rewrite removelast_last. reflexivity.
  - symmetry. apply has_suffix_spec. exists (dquote :: x :: v). reflexivity.
Qed.
Lemma strip_quotes_none v : (forall c, In c v -> c <> dquote) -> strip_quotes v = None.
Proof.
  intro H. unfold strip_quotes. destruct v as [|c [|d v]]; try reflexivity.
  destruct (Ascii.eqb c dquote) eqn:E; [|reflexivity]. apply Ascii.eqb_eq in E. exfalso. exact (H c (or_introl eq_refl) E).
Qed.

Lemma parse_written c : valid_cookie c -> exists q, parse_value (written_value c) = Some (ck_value c, q).
Proof.
  intros [_ Hv]. unfold written_value. destruct (ck_value c) as [|x v] eqn:E; [exists false; reflexivity|].
  destruct (_ || _).
  - exists true. unfold parse_value. assert (Q := strip_quotes_quoted (x :: v)). cbn [app] in Q |- *. rewrite Q by discriminate. cbn [List.length]. rewrite Hv. reflexivity.
  - exists false. unfold parse_value. rewrite strip_quotes_none.
    + rewrite Hv. reflexivity.
    + intros d Hd. rewrite forallb_forall in Hv. specialize (Hv d Hd). apply cookie_char_not in Hv. tauto.
Qed.

Lemma written_value_chars c : valid_cookie c -> ~ In semicolon (written_value c) /\
  match rev (written_value c) with x :: _ => is_space x = false | [] => True end.
Proof.
  intros [_ Hv]. rewrite forallb_forall in Hv. unfold written_value. destruct (ck_value c) as [|x v] eqn:E; [split; [intros []|exact I]|].
  destruct (has_char " " (x :: v) || has_char comma (x :: v) || ck_quoted c) eqn:Eq.
  - split.
    + intro H. cbn [app] in H. destruct H as [H|H]; [discriminate H|].
      change (In semicolon ((x :: v) ++ [dquote])) in H. apply in_app_iff in H. destruct H as [H|[H|[]]]; [|discriminate H].
      apply Hv in H. apply cookie_char_not in H. tauto.
    + rewrite app_assoc, rev_app_distr. reflexivity.
  - split.
    + intro H. apply Hv in H. apply cookie_char_not in H. tauto.
    + destruct (rev (x :: v)) as [|y r] eqn:Er; [exact I|].
      assert (Hy : In y (x :: v)) by (apply in_rev; rewrite Er; left; reflexivity).
      destruct (is_space y) eqn:Es; [|reflexivity]. exfalso.
      assert (Hc := cookie_char_not y (Hv y Hy)). destruct Hc as (_ & _ & Hc). specialize (Hc Es). subst y.
      apply orb_false_elim in Eq. destruct Eq as [Eq _]. apply orb_false_elim in Eq. destruct Eq as [Eq _].
      apply has_char_false in Eq. contradiction.
Qed.

Lemma write_cookie_ok c : valid_cookie c ->
  ~ In semicolon (write_cookie c) /\ write_cookie c <> [] /\ pairs (parse_part (write_cookie c)) = pairs [c].
Proof.
  intro H. assert (Hn := proj1 H). rewrite write_cookie_eq. destruct (written_value_chars c H) as [W1 W2].
  assert (E : trim (ck_name c ++ "="%char :: written_value c) = ck_name c ++ "="%char :: written_value c).
  { apply trim_id.
    - destruct (is_token_cons _ Hn) as (x & r & -> & Hx). exact Hx.
    - rewrite rev_app_distr. cbn [rev]. destruct (rev (written_value c)) as [|y r]; [reflexivity|]. exact W2. }
  split; [|split].
  - intro Hin. apply in_app_iff in Hin. destruct Hin as [Hin|[Hin|Hin]]; [|discriminate Hin|contradiction].
    exact (token_no semicolon _ Hn (or_introl eq_refl) Hin).
  - destruct (ck_name c); discriminate.
  - unfold parse_part. cbv zeta. rewrite E. 
    replace (str_eqb (ck_name c ++ "="%char :: written_value c) []) with false by (symmetry; apply str_eqb_neq; destruct (ck_name c); discriminate).
    rewrite cut_at by (apply token_no; auto). rewrite is_token_trim, Hn by exact Hn.
    destruct (parse_written c H) as [q ->]. reflexivity.
Qed.

Fixpoint cookie_line (cs : list cookie) : str :=
  match cs with
  | [] => []
  | [c] => write_cookie c
  | c :: r => write_cookie c ++ lit "; " ++ cookie_line r
  end.

Lemma parse_part_space p : parse_part (" "%char :: p) = parse_part p.
Proof. unfold parse_part. rewrite trim_space. reflexivity. Qed.

Lemma pairs_app a b : pairs (a ++ b) = pairs a ++ pairs b.
Proof. apply map_app. Qed.

Lemma parse_line_space l : parse_line (" "%char :: l) = parse_line l.
Proof.
  unfold parse_line. cbn [split_on]. change (Ascii.eqb " " semicolon) with false. cbv iota.
  destruct (split_on semicolon l) as [|p ps] eqn:E; [exfalso; exact (split_on_nonempty _ _ E)|].
  cbn [map List.concat]. rewrite parse_part_space. reflexivity.
Qed.

Lemma parse_cookie_line cs : Forall valid_cookie cs -> pairs (parse_line (cookie_line cs)) = pairs cs.
Proof.
  induction cs as [|c cs IH]; intro H; [reflexivity|]. inversion H; subst.
  destruct (write_cookie_ok c H2) as (W1 & W2 & W3). destruct cs as [|d cs].
  - cbn [cookie_line]. unfold parse_line. rewrite split_on_no_char by exact W1. cbn [map List.concat]. rewrite app_nil_r. exact W3.
  - change (cookie_line (c :: d :: cs)) with (write_cookie c ++ semicolon :: " "%char :: cookie_line (d :: cs)).
    unfold parse_line. rewrite split_on_app by exact W1. cbn [map List.concat]. fold (parse_line (" "%char :: cookie_line (d :: cs))).
    rewrite pairs_app, W3, parse_line_space, IH by exact H3. reflexivity.
Qed.

Definition keep_cookie (c : cookie) : bool := negb (str_eqb (ck_name c) auth_cookie || str_eqb (ck_name c) sid_cookie).

Lemma cookie_line_snoc cs c : cs <> [] -> cookie_line (cs ++ [c]) = cookie_line cs ++ lit "; " ++ write_cookie c.
Proof.
  induction cs as [|a cs IH]; intro H; [congruence|]. destruct cs as [|b cs]; [reflexivity|].
  change ((a :: b :: cs) ++ [c]) with (a :: (b :: cs) ++ [c]).
  change (cookie_line (a :: (b :: cs) ++ [c])) with (write_cookie a ++ lit "; " ++ cookie_line ((b :: cs) ++ [c])).
  rewrite IH by discriminate. change (cookie_line (a :: b :: cs)) with (write_cookie a ++ lit "; " ++ cookie_line (b :: cs)).
  rewrite <- !app_assoc. reflexivity.
Qed.
Lemma cookie_line_ne cs : Forall valid_cookie cs -> cs <> [] -> cookie_line cs <> [].
Proof.
  destruct cs as [|c cs]; [congruence|]. intros H _. inversion H; subst. destruct (write_cookie_ok c H2) as (_ & W & _).
  destruct cs; cbn [cookie_line]; [exact W|]. intro E. apply app_eq_nil in E. tauto.
Qed.

(** The Cookie header while cookies are being added. *)
Definition cookie_state (h0 h : headers) (cs : list cookie) : Prop :=
  h_values (lit "cookie") h = match cs with [] => [] | _ => [cookie_line cs] end /\
  forall n, same_name (lit "cookie") n = false -> h_values n h = h_values n h0.

Lemma add_cookie_state h0 h cs c : Forall valid_cookie cs -> cookie_state h0 h cs -> cookie_state h0 (add_cookie h c) (cs ++ [c]).
Proof.
  intros Hv [H1 H2]. unfold add_cookie. cbv zeta. split.
  - rewrite h_values_set, same_name_refl. unfold h_get. rewrite H1. destruct cs as [|a cs]; [reflexivity|].
    replace (str_eqb (cookie_line (a :: cs)) []) with false by (symmetry; apply str_eqb_neq; apply cookie_line_ne; [exact Hv|discriminate]).
    rewrite <- cookie_line_snoc by discriminate. reflexivity.
  - intros n Hn. rewrite h_values_set, Hn. apply H2. exact Hn.
Qed.

Lemma filter_fold_state h0 h cs todo : Forall valid_cookie cs -> Forall valid_cookie todo -> cookie_state h0 h cs ->
  cookie_state h0 (fold_left (fun h c => if str_eqb (ck_name c) auth_cookie || str_eqb (ck_name c) sid_cookie then h else add_cookie h c) todo h)
    (cs ++ filter keep_cookie todo).
Proof.
  revert h cs. induction todo as [|c todo IH]; intros h cs Hc Ht H; [rewrite app_nil_r; exact H|].
  inversion Ht; subst. cbn [fold_left filter]. unfold keep_cookie at 1. destruct (_ || _) eqn:E; cbn [negb].
  - apply IH; auto.
  - replace (cs ++ c :: filter keep_cookie todo) with ((cs ++ [c]) ++ filter keep_cookie todo) by (rewrite <- app_assoc; reflexivity).
    apply IH; auto. { apply Forall_app. auto. } apply add_cookie_state; auto.
Qed.

Lemma filter_auth_cookie_spec h :
  pairs (cookies (filter_auth_cookie h)) = pairs (filter keep_cookie (cookies h)) /\
  forall n, same_name (lit "cookie") n = false -> h_values n (filter_auth_cookie h) = h_values n h.
Proof.
  assert (Hv := cookies_valid h).
  assert (S : cookie_state h (filter_auth_cookie h) ([] ++ filter keep_cookie (cookies h))).
  { apply filter_fold_state; auto. split; [rewrite h_values_del, same_name_refl; reflexivity|].
    intros n Hn. rewrite h_values_del, Hn. reflexivity. }
  cbn [app] in S. destruct S as [S1 S2]. split; [|exact S2].
  assert (Hf : Forall valid_cookie (filter keep_cookie (cookies h))).
  { apply Forall_forall. intros c Hc. apply filter_In in Hc. rewrite Forall_forall in Hv. apply Hv. tauto. }
  unfold cookies at 1. rewrite S1. destruct (filter keep_cookie (cookies h)) as [|c cs]; [reflexivity|].
  cbn [map List.concat]. rewrite app_nil_r. apply parse_cookie_line. exact Hf.
Qed.

(** * From the client's request to the forwarded one *)
Lemma reverse_forward ev be cn r f : reverse_proxy ev be cn r = Forward f ->
  exists r1 c r2, authenticate ev be r = Some (r1, c) /\ enforce ev be r1 c = inr r2 /\ forward ev be cn r2 c = Forward f.
Proof.
  unfold reverse_proxy. destruct (authenticate ev be r) as [[r1 c]|] eqn:Ea; [|discriminate].
  destruct (local_and_authorize ev be r1 c) as [res|r2] eqn:El.
  - intros ->. apply local_inl_kind in El. destruct El.
  - intro H. apply local_inr in El. destruct El as [El _]. eauto 10.
Qed.

(** Headers other than the user id and cookies reach the forwarding step unchanged. *)
Lemma enforce_headers ev be r c r' n : enforce ev be r c = inr r' -> same_name (lit "cookie") n = false ->
  h_values n (rq_headers r') = h_values n (rq_headers r).
Proof.
  intros H Hn. apply enforce_pass in H. destruct H as (_ & _ & _ & _ & H). destruct (be_sso be) as [s|]; [|subst; reflexivity].
  destruct H as [[_ ->]|(_ & -> & _)]; [reflexivity|]. apply filter_auth_cookie_spec. exact Hn.
Qed.

Lemma pre_forward ev be r r1 c r2 n : authenticate ev be r = Some (r1, c) -> enforce ev be r1 c = inr r2 ->
  same_name (lit "cookie") n = false -> same_name user_header n = false ->
  h_values n (rq_headers r2) = h_values n (rq_headers r).
Proof.
  intros Ha He H1 H2. rewrite (enforce_headers _ _ _ _ _ _ He H1). apply authenticate_spec in Ha. apply Ha. exact H2.
Qed.

Lemma h_get_ext n h h' : h_values n h = h_values n h' -> h_get n h = h_get n h'.
Proof. unfold h_get. intros ->. reflexivity. Qed.

(** Everything about the headers of a forwarded request. *)
Lemma forwarded_values ev be cn r f n : reverse_proxy ev be cn r = Forward f ->
  rules_leave be (lit "connection") -> rules_leave be n ->
  same_name (lit "te") n = false -> same_name (lit "upgrade") n = false -> same_name (lit "connection") n = false -> same_name xff n = false ->
  same_name (lit "host") n = false ->
  exists r1 c r2, authenticate ev be r = Some (r1, c) /\ enforce ev be r1 c = inr r2 /\
  h_values n (fw_headers f) =
    if conn_names (rq_headers r) n || is_hop n then []
    else if same_name xfcc n then match cn_cert cn, be_xfcc be with Some v, _ :: _ => [v] | _, _ => [] end
    else if same_name via n then [join_hops (hops (h_get via (rq_headers r)) ++ [rq_proto r ++ lit " " ++ cn_local cn])]
    else h_values n (rq_headers r2).
Proof.
  intros H Rc Rn H1 H2 H3 H4 H5. apply reverse_forward in H. destruct H as (r1 & c & r2 & Ha & He & Hf). exists r1, c, r2. split; [exact Ha|]. split; [exact He|].
  apply forward_spec in Hf. cbv zeta in Hf. destruct Hf as (_ & _ & extra & h1 & Hr & _ & Eh1 & Efw & _).
  rewrite Efw, outgoing_values, director_values, H4 by assumption.
  assert (X1 := rules_leave_for be _ _ n Rn Hr). assert (X2 := rules_leave_for be _ _ _ Rc Hr).
  assert (C : forall m, conn_names (fst (fold_left (apply_header ev c) extra (h1, rq_host r2))) m = conn_names (rq_headers r) m).
  { intro m. unfold conn_names. rewrite (connection_options_ext _ (rq_headers r)); [reflexivity|].
    rewrite apply_headers_values by exact X2. rewrite Eh1, !h_values_set. cbn [same_name].
    change (same_name via (lit "connection")) with false. change (same_name (lit "host") (lit "connection")) with false. cbv iota.
    apply (pre_forward _ _ _ _ _ _ _ Ha He); reflexivity. }
  rewrite C, apply_headers_values by exact X1. rewrite Eh1, !h_values_set, H5.
  destruct (conn_names _ _ || is_hop n); [reflexivity|]. destruct (same_name xfcc n); [reflexivity|]. destruct (same_name via n); [|reflexivity].
  rewrite (h_get_ext via (rq_headers r2) (rq_headers r)) by (apply (pre_forward _ _ _ _ _ _ _ Ha He); reflexivity).
  assert (Ep : rq_proto r2 = rq_proto r).
  { apply authenticate_spec in Ha. apply enforce_pass in He. intuition congruence. }
  rewrite Ep. reflexivity.
Qed.

(** * Host names *)
Lemma cut_last_spec c s : match cut_last c s with
  | Some (a, b) => s = a ++ c :: b /\ ~ In c b
  | None => ~ In c s
  end.
Proof.
  induction s as [|x s IH]; cbn [cut_last]; [intros []|]. destruct (cut_last c s) as [[a b]|].
  - destruct IH as [-> IH]. auto.
  - destruct (Ascii.eqb x c) eqn:E; [apply Ascii.eqb_eq in E; subst; auto|]. apply Ascii.eqb_neq in E. intros [H|H]; auto.
Qed.

Lemma unbracket h s : (match h with c :: rest => if Ascii.eqb c "[" && has_suffix h (lit "]") then removelast rest else h | [] => [] end) = s ->
  h = s \/ h = "["%char :: s ++ ["]"%char].
Proof.
  destruct h as [|c rest]; [auto|]. destruct (Ascii.eqb c "[" && has_suffix (c :: rest) (lit "]")) eqn:E; [|auto].
  intros <-. right. apply andb_prop in E. destruct E as [E1 E2]. apply Ascii.eqb_eq in E1. subst c.
  apply has_suffix_spec in E2. destruct E2 as [t E2]. destruct t as [|d t]; cbn [app] in E2.
  - discriminate E2.
  - injection E2 as _ E2. rewrite E2. change (lit "]") with ["]"%char]. rewrite removelast_last. reflexivity.
Qed.

Lemma url_hostname_spec host : names_host host (url_hostname host).
Proof.
  unfold url_hostname. assert (S := cut_last_spec colon host). destruct (cut_last colon host) as [[a b]|].
  - destruct S as [S1 S2]. destruct (forallb is_digit b) eqn:E.
    + exists a, b. split; [apply unbracket; reflexivity|]. right. split; [exact S1|]. rewrite forallb_forall in E. exact E.
    + exists host, []. split; [apply unbracket; reflexivity|]. auto.
  - exists host, []. split; [apply unbracket; reflexivity|]. auto.
Qed.


Lemma cut_last_at c a b : ~ In c b -> cut_last c (a ++ c :: b) = Some (a, b).
Proof.
  intro H. assert (N : cut_last c b = None).
  { assert (S := cut_last_spec c b). destruct (cut_last c b) as [[x y]|]; [|reflexivity]. destruct S as [S _]. exfalso. apply H. rewrite S. apply in_or_app. right. left. reflexivity. }
  induction a as [|x a IH]; cbn [app cut_last].
  - rewrite N, Ascii.eqb_refl. reflexivity.
  - rewrite IH. reflexivity.
Qed.
Lemma cut_last_none c s : ~ In c s -> cut_last c s = None.
Proof.
  intro H. assert (S := cut_last_spec c s). destruct (cut_last c s) as [[x y]|]; [|reflexivity]. destruct S as [S _]. exfalso. apply H. rewrite S. apply in_or_app. right. left. reflexivity.
Qed.

Lemma url_hostname_complete host s : plain_name s -> names_host host s -> url_hostname host = s.
Proof.
  intros (P0 & P1 & P2 & P3) (h & port & Hh & Hhost).
  assert (Hc : ~ In colon h).
  { destruct Hh as [->| ->]; [exact P1|]. intros [H|H]; [discriminate|]. apply in_app_iff in H. destruct H as [H|[H|[]]]; [contradiction|discriminate]. }
  assert (E : (match cut_last colon host with Some (before, port) => if forallb is_digit port then before else host | None => host end) = h).
  { destruct Hhost as [->|[-> Hp]].
    - rewrite cut_last_none by exact Hc. reflexivity.
    - rewrite cut_last_at.
      + replace (forallb is_digit port) with true by (symmetry; apply forallb_forall; exact Hp). reflexivity.
      + intro Hin. apply Hp in Hin. discriminate Hin. }
  unfold url_hostname. rewrite E. destruct Hh as [->| ->].
  - destruct s as [|c s]; [congruence|]. destruct (Ascii.eqb c "[") eqn:Ec; [|reflexivity]. apply Ascii.eqb_eq in Ec. exfalso. apply P2. left. exact Ec.
  - replace (has_suffix ("["%char :: s ++ ["]"%char]) (lit "]")) with true by (symmetry; apply has_suffix_spec; exists ("["%char :: s); reflexivity).
    rewrite Ascii.eqb_refl. cbn [andb]. apply removelast_last.
Qed.

(** * Via *)
Lemma join_hops_snoc l x : l <> [] -> join_hops (l ++ [x]) = join_hops l ++ comma :: " "%char :: x.
Proof.
  induction l as [|a l IH]; intro H; [congruence|]. destruct l as [|b l]; [reflexivity|].
  change ((a :: b :: l) ++ [x]) with (a :: (b :: l) ++ [x]).
  change (join_hops (a :: (b :: l) ++ [x])) with (a ++ lit ", " ++ join_hops ((b :: l) ++ [x])).
  rewrite IH by discriminate. change (join_hops (a :: b :: l)) with (a ++ lit ", " ++ join_hops (b :: l)).
  rewrite <- !app_assoc. reflexivity.
Qed.


Lemma hops_contain hs pm v : ~ In comma pm -> (forall r, pm <> " "%char :: r) -> pm <> [] ->
  via_kept (join_hops (hs ++ [pm])) v -> In pm (hops v).
Proof.
  intros Hc Hs Hne Hk.
  assert (D : drop_spaces (" "%char :: pm) = pm).
  { cbn. destruct pm as [|c r]; [congruence|]. cbn [drop_spaces]. destruct (Ascii.eqb c " ") eqn:E; [|reflexivity]. apply Ascii.eqb_eq in E. exfalso. apply (Hs r). congruence. }
  assert (Nsp : ~ In comma (" "%char :: pm)) by (intros [H|H]; [discriminate|contradiction]).
  assert (G : forall v0, v0 <> [] -> (exists p rest, split_on comma v0 = p :: rest /\ (p = pm \/ In (" "%char :: pm) rest)) -> In pm (hops v0)).
  { intros v0 Hv0 (p & rest & E & H). unfold hops. destruct v0 as [|c0 v0]; [congruence|]. rewrite E. destruct H as [->|H]; [left; reflexivity|].
    right. rewrite <- D. apply in_map. exact H. }
  destruct hs as [|a hs].
  - cbn [app join_hops] in Hk. destruct Hk as [->|[x ->]]; apply G.
    + exact Hne.
    + exists pm, []. rewrite split_on_no_char by exact Hc. auto.
    + destruct pm; [congruence|discriminate].
    + exists pm, (split_on comma x). rewrite split_on_app by exact Hc. auto.
  - assert (J : join_hops ((a :: hs) ++ [pm]) = join_hops (a :: hs) ++ comma :: " "%char :: pm) by (apply join_hops_snoc; discriminate).
    rewrite J in Hk. destruct (split_on comma (join_hops (a :: hs))) as [|p rest] eqn:E; [exfalso; exact (split_on_nonempty _ _ E)|].
    destruct Hk as [->|[x ->]]; apply G.
    + intro X. apply app_eq_nil in X. destruct X; discriminate.
    + exists p, (rest ++ [" "%char :: pm]). rewrite split_on_app2, E, split_on_no_char by exact Nsp. split; [reflexivity|]. right. apply in_or_app. right. left. reflexivity.
    + intro X. apply app_eq_nil in X. destruct X as [X _]. apply app_eq_nil in X. destruct X; discriminate.
    + exists p, (rest ++ (" "%char :: pm) :: split_on comma x). rewrite <- app_assoc. cbn [app]. rewrite split_on_app2, E.
      change (" "%char :: pm ++ comma :: x) with ((" "%char :: pm) ++ comma :: x). rewrite split_on_app by exact Nsp.
      split; [reflexivity|]. right. apply in_or_app. right. left. reflexivity.
Qed.

Lemma hop_name_own proto me : ~ In " "%char proto -> hop_name (proto ++ lit " " ++ me) = me.
Proof. intro H. unfold hop_name. change (lit " " ++ me) with (" "%char :: me). rewrite cut_at by exact H. reflexivity. Qed.


Lemma via_cut ev be cn r f ev' be' cn' r' f' :
  via_ok r cn -> rules_leave be via -> rules_leave be (lit "connection") ->
  reverse_proxy ev be cn r = Forward f -> ~ connection_names (rq_headers r) via ->
  via_kept (h_get via (fw_headers f)) (h_get via (rq_headers r')) ->
  cn_local cn' = cn_local cn -> reverse_proxy ev' be' cn' r' <> Forward f'.
Proof.
  intros (V1 & V2 & V3 & V4) Rv Rc Hf Hn Hk El Hf'.
  destruct (forwarded_values _ _ _ _ _ via Hf Rc Rv) as (r1 & c & r2 & _ & _ & E); try reflexivity.
  replace (conn_names (rq_headers r) via) with false in E.
  2:{ symmetry. destruct (conn_names (rq_headers r) via) eqn:X; [|reflexivity]. apply conn_names_spec in X. contradiction. }
  change (is_hop via) with false in E. change (same_name xfcc via) with false in E. rewrite same_name_refl in E. cbn [orb] in E.
  unfold h_get at 1 in Hk. rewrite E in Hk.
  apply hops_contain in Hk.
  - apply reverse_forward in Hf'. destruct Hf' as (r1' & c' & r2' & Ha' & He' & Hf').
    apply forward_spec in Hf'. cbv zeta in Hf'. destruct Hf' as (_ & _ & extra' & h1' & _ & Hloop & _).
    rewrite (h_get_ext via (rq_headers r2') (rq_headers r')) in Hloop by (apply (pre_forward _ _ _ _ _ _ _ Ha' He'); reflexivity).
    apply (Hloop _ Hk). rewrite El. apply hop_name_own. exact V2.
  - intro X. apply in_app_iff in X. destruct X as [X|X]; [contradiction|]. change (lit " " ++ cn_local cn) with (" "%char :: cn_local cn) in X.
    destruct X as [X|X]; [discriminate|contradiction].
  - intros r0 X. destruct (rq_proto r) as [|c0 p]; [congruence|]. injection X as -> _. apply V2. left. reflexivity.
  - destruct (rq_proto r); discriminate.
Qed.

(** A forwarded request does not ask to drop the Via header. *)
Lemma forwarded_connection ev be cn r f : reverse_proxy ev be cn r = Forward f ->
  h_values (lit "connection") (fw_headers f) = [] \/ h_values (lit "connection") (fw_headers f) = [lit "Upgrade"].
Proof.
  intro H. apply reverse_forward in H. destruct H as (r1 & c & r2 & _ & _ & Hf).
  apply forward_spec in Hf. cbv zeta in Hf. destruct Hf as (_ & _ & extra & h1 & _ & _ & _ & -> & _).
  unfold outgoing. cbv zeta. rewrite h_values_set. change (same_name xff (lit "connection")) with false. cbv iota.
  destruct (str_eqb (upgrade_type _) []).
  - left. destruct (contains_token _ _); rewrite ?h_values_set; change (same_name (lit "te") (lit "connection")) with false; cbv iota;
    rewrite strip_values; change (is_hop (lit "connection")) with true; rewrite orb_true_r; reflexivity.
  - right. rewrite !h_values_set. reflexivity.
Qed.

Lemma connection_names_upgrade h : h_values (lit "connection") h = [] \/ h_values (lit "connection") h = [lit "Upgrade"] -> ~ connection_names h via.
Proof.
  intros H (o & Ho & Hs). unfold connection_options in Ho. destruct H as [H|H]; rewrite H in Ho; cbn in Ho; [destruct Ho|].
  destruct Ho as [<-|[]]. vm_compute in Hs. discriminate.
Qed.

(** * Local endpoints *)
Lemma find_split {A : Type} (f : A -> bool) l x : find f l = Some x ->
  exists l1 l2, l = l1 ++ x :: l2 /\ f x = true /\ forall y, In y l1 -> f y = false.
Proof.
  induction l as [|a l IH]; cbn [find]; [discriminate|]. destruct (f a) eqn:E.
  - intro H. injection H as <-. exists [], l. repeat split; auto. intros y [].
  - intro H. destruct (IH H) as (l1 & l2 & -> & H1 & H2). exists (a :: l1), l2. repeat split; auto. intros y [<-|Hy]; auto.
Qed.

Lemma sorted_app l1 x l2 : sorted (l1 ++ x :: l2) -> Forall (fun b => handler_less b x = false) l2.
Proof. induction l1 as [|a l1 IH]; cbn [app sorted]; intros [H1 H2]; auto. Qed.


Lemma matches_host host path h : handler_matches host path h = true -> lh_host h = [] \/ lh_host h = host.
Proof. unfold handler_matches. intro H. apply andb_prop in H. destruct H as [H _]. apply orb_prop in H. rewrite !str_eqb_spec in H. exact H. Qed.
Lemma matches_path host path h : handler_matches host path h = true ->
  path = lh_path h \/ (lh_prefix h = true /\ exists t, path = lh_path h ++ slash :: t).
Proof.
  unfold handler_matches. intro H. apply andb_prop in H. destruct H as [_ H]. apply orb_prop in H. destruct H as [H|H].
  - apply str_eqb_spec in H. auto.
  - apply andb_prop in H. destruct H as [H1 H2]. apply has_prefix_spec in H2. destruct H2 as [t H2]. rewrite <- app_assoc in H2. right. eauto.
Qed.

Lemma selected_specific host path hs h : sorted hs -> find (handler_matches host path) hs = Some h ->
  In h hs /\ handler_matches host path h = true /\
  forall h', In h' hs -> handler_matches host path h' = true -> more_specific h h'.
Proof.
  intros Hs Hf. apply find_split in Hf. destruct Hf as (l1 & l2 & -> & Hm & Hn).
  split; [apply in_or_app; right; left; reflexivity|]. split; [exact Hm|]. intros h' Hin Hm'.
  apply in_app_iff in Hin. destruct Hin as [Hin|[<-|Hin]].
  - rewrite (Hn _ Hin) in Hm'. discriminate.
  - left. split; [reflexivity|lia].
  - apply sorted_app in Hs. rewrite Forall_forall in Hs. specialize (Hs _ Hin). unfold handler_less in Hs.
    apply matches_host in Hm, Hm'. destruct (str_eqb (lh_host h') (lh_host h)) eqn:E.
    + apply str_eqb_spec in E. left. split; [exact E|]. apply Nat.ltb_ge in Hs. exact Hs.
    + apply str_eqb_neq in E. right. destruct Hm as [Hm|Hm], Hm' as [Hm'|Hm']; try congruence.
      * exfalso. cbv zeta in Hs. rewrite Hm in Hs. cbn [List.length] in Hs. 
        destruct (lh_host h') as [|x xs]; [congruence|]. cbn in Hs. discriminate.
      * split; congruence.
Qed.

Lemma equal_length_prefixes {A : Type} (a b s t : list A) : a ++ s = b ++ t -> List.length a = List.length b -> a = b.
Proof.
  revert b. induction a as [|x a IH]; intros [|y b] E L; try discriminate; [reflexivity|].
  cbn in E, L. injection E as -> E. f_equal. apply IH; auto.
Qed.

Lemma selection_order_independent host path l1 l2 : sorted l1 -> sorted l2 -> Permutation l1 l2 ->
  NoDup (map (fun h => (lh_host h, lh_path h)) l1) ->
  find (handler_matches host path) l1 = find (handler_matches host path) l2.
Proof.
  intros S1 S2 P N. destruct (find (handler_matches host path) l1) as [h1|] eqn:F1.
  - destruct (find (handler_matches host path) l2) as [h2|] eqn:F2.
    + destruct (selected_specific _ _ _ _ S1 F1) as (I1 & M1 & B1). destruct (selected_specific _ _ _ _ S2 F2) as (I2 & M2 & B2).
      assert (I2' : In h2 l1) by (apply Permutation_in with l2; [apply Permutation_sym; exact P|exact I2]).
      assert (I1' : In h1 l2) by (apply Permutation_in with l1; [exact P|exact I1]).
      assert (A := B1 _ I2' M2). assert (B := B2 _ I1' M1).
      assert (lh_host h1 = lh_host h2 /\ List.length (lh_path h1) = List.length (lh_path h2)) as [E1 E2].
      { destruct A as [[A1 A2]|[A1 A2]], B as [[B1' B2']|[B1' B2']]; try congruence. split; [congruence|lia]. }
      assert (E3 : lh_path h1 = lh_path h2).
      { apply matches_path in M1, M2.
        assert (X1 : exists t, path = lh_path h1 ++ t) by (destruct M1 as [->|(_ & t & ->)]; [exists []; rewrite app_nil_r; reflexivity|eauto]).
        assert (X2 : exists t, path = lh_path h2 ++ t) by (destruct M2 as [->|(_ & t & ->)]; [exists []; rewrite app_nil_r; reflexivity|eauto]).
        destruct X1 as [t1 X1], X2 as [t2 X2]. apply (equal_length_prefixes _ _ t1 t2); congruence. }
      f_equal. clear - N I1 I2' E1 E3. induction l1 as [|a l IH]; [destruct I1|]. cbn [map] in N. inversion N; subst.
      destruct I1 as [<-|I1], I2' as [<-|I2']; auto.
      * exfalso. apply H1. apply in_map_iff. exists h2. split; [congruence|exact I2'].
      * exfalso. apply H1. apply in_map_iff. exists h1. split; [congruence|exact I1].
    + exfalso. apply find_split in F1. destruct F1 as (a & b & E & M & _).
      assert (In h1 l2) by (apply Permutation_in with l1; [exact P|rewrite E; apply in_or_app; right; left; reflexivity]).
      rewrite (find_none _ _ F2 _ H) in M. discriminate.
  - destruct (find (handler_matches host path) l2) as [h2|] eqn:F2; [|reflexivity].
    exfalso. apply find_split in F2. destruct F2 as (a & b & E & M & _).
    assert (In h2 l1) by (apply Permutation_in with l2; [apply Permutation_sym; exact P|rewrite E; apply in_or_app; right; left; reflexivity]).
    rewrite (find_none _ _ F1 _ H) in M. discriminate.
Qed.

(** The list can always be sorted. *)
Lemma str_ltb_irrefl a : str_ltb a a = false.
Proof. induction a as [|x a IH]; [reflexivity|]. cbn [str_ltb]. rewrite N.ltb_irrefl. exact IH. Qed.
Lemma N_of_ascii_inj x y : N_of_ascii x = N_of_ascii y -> x = y.
Proof. intro H. rewrite <- (ascii_N_embedding x), <- (ascii_N_embedding y), H. reflexivity. Qed.
Lemma str_ltb_trans a b c : str_ltb a b = true -> str_ltb b c = true -> str_ltb a c = true.
Proof.
  revert b c. induction a as [|x a IH]; intros [|y b] [|z c]; cbn [str_ltb]; try discriminate; try reflexivity.
  destruct (N.ltb_spec (N_of_ascii x) (N_of_ascii y)); destruct (N.ltb_spec (N_of_ascii y) (N_of_ascii x)); try lia; try discriminate;
  destruct (N.ltb_spec (N_of_ascii y) (N_of_ascii z)); destruct (N.ltb_spec (N_of_ascii z) (N_of_ascii y)); try lia; try discriminate;
  destruct (N.ltb_spec (N_of_ascii x) (N_of_ascii z)); try reflexivity; try lia;
  destruct (N.ltb_spec (N_of_ascii z) (N_of_ascii x)); try lia. apply IH.
Qed.
Lemma str_ltb_total a b : str_ltb a b = false -> str_ltb b a = false -> a = b.
Proof.
  revert b. induction a as [|x a IH]; intros [|y b]; cbn [str_ltb]; try discriminate; try reflexivity.
  destruct (N.ltb_spec (N_of_ascii x) (N_of_ascii y)); destruct (N.ltb_spec (N_of_ascii y) (N_of_ascii x)); try lia; try discriminate.
  intros H1 H2. f_equal; [apply N_of_ascii_inj; lia|]. apply IH; auto.
Qed.
Lemma handler_less_asym a b : handler_less a b = true -> handler_less b a = false.
Proof.
  unfold handler_less. rewrite (str_eqb_sym (lh_host b)). destruct (str_eqb (lh_host a) (lh_host b)) eqn:E.
  - intro H. apply Nat.ltb_lt in H. apply Nat.ltb_ge. lia.
  - cbv zeta. rewrite (Nat.eqb_sym (List.length (lh_host b))). destruct (Nat.eqb _ _); cbn [negb].
    + intro H. destruct (str_ltb (lh_host b) (lh_host a)) eqn:E2; [|reflexivity].
      assert (X := str_ltb_irrefl (lh_host a)). rewrite (str_ltb_trans _ _ _ H E2) in X. discriminate.
    + intro H. apply Nat.ltb_lt in H. apply Nat.ltb_ge. lia.
Qed.
(** The order as a comparison of hosts by length and bytes, then of path lengths. *)
Lemma handler_less_spec a b : handler_less a b = true <->
  (lh_host a = lh_host b /\ (List.length (lh_path b) < List.length (lh_path a))%nat) \/
  ((List.length (lh_host b) < List.length (lh_host a))%nat) \/
  (List.length (lh_host a) = List.length (lh_host b) /\ str_ltb (lh_host a) (lh_host b) = true).
Proof.
  unfold handler_less. destruct (str_eqb (lh_host a) (lh_host b)) eqn:E.
  - apply str_eqb_spec in E. rewrite Nat.ltb_lt, E, str_ltb_irrefl. intuition (try lia; try discriminate).
  - apply str_eqb_neq in E. cbv zeta. destruct (Nat.eqb_spec (List.length (lh_host a)) (List.length (lh_host b))); cbn [negb].
    + intuition (try congruence; try lia).
    + rewrite Nat.ltb_lt. intuition (try congruence; try lia).
Qed.
Lemma handler_le_trans a b c : handler_less b a = false -> handler_less c b = false -> handler_less c a = false.
Proof.
  intros H1 H2. destruct (handler_less c a) eqn:E; [|reflexivity]. exfalso.
  assert (N1 : ~ handler_less b a = true) by congruence. assert (N2 : ~ handler_less c b = true) by congruence.
  rewrite handler_less_spec in N1, N2, E.
  destruct (str_ltb (lh_host b) (lh_host a)) eqn:L1, (str_ltb (lh_host c) (lh_host b)) eqn:L2.
  all: destruct (Nat.lt_total (List.length (lh_host a)) (List.length (lh_host b))) as [C1|[C1|C1]];
       destruct (Nat.lt_total (List.length (lh_host b)) (List.length (lh_host c))) as [C2|[C2|C2]];
       try (apply N1; intuition lia); try (apply N2; intuition lia).
  all: try (destruct E as [[E1 E2]|[E|[E1 E2]]]; [rewrite E1 in *|..]; lia).
  destruct E as [[E1 E2]|[E|[E1 E2]]]; [|lia|].
  - rewrite <- E1 in *. assert (lh_host c = lh_host b) by (apply str_ltb_total; assumption).
    destruct (Nat.lt_ge_cases (List.length (lh_path a)) (List.length (lh_path b))); [apply N1; left; split; [congruence|lia]|].
    apply N2. left. split; [congruence|lia].
  - destruct (str_ltb (lh_host a) (lh_host b)) eqn:L3.
    + rewrite (str_ltb_trans _ _ _ E2 L3) in L2. discriminate.
    + rewrite (str_ltb_total _ _ L3 L1) in E2. congruence.
Qed.

Fixpoint insert_handler (h : local_handler) (l : list local_handler) : list local_handler :=
  match l with
  | [] => [h]
  | a :: r => if handler_less a h then a :: insert_handler h r else h :: l
  end.
Lemma insert_perm h l : Permutation (h :: l) (insert_handler h l).
Proof.
  induction l as [|a l IH]; [apply Permutation_refl|]. cbn [insert_handler]. destruct (handler_less a h); [|apply Permutation_refl].
  apply perm_trans with (a :: h :: l); [apply perm_swap|]. apply perm_skip. exact IH.
Qed.
Lemma insert_sorted h l : sorted l -> sorted (insert_handler h l).
Proof.
  induction l as [|a l IH]; [intros _; cbn; auto|]. intros [H1 H2]. cbn [insert_handler]. destruct (handler_less a h) eqn:E.
  - split; [|auto]. apply Forall_forall. intros b Hb. apply Permutation_in with (l' := h :: l) in Hb; [|apply Permutation_sym, insert_perm].
    destruct Hb as [<-|Hb]; [apply handler_less_asym; exact E|]. rewrite Forall_forall in H1. auto.
  - split; [|split; assumption]. constructor; [exact E|]. apply Forall_forall. intros b Hb. rewrite Forall_forall in H1.
    apply handler_le_trans with a; auto.
Qed.
Lemma sorting_exists l : exists l', Permutation l l' /\ sorted l'.
Proof.
  induction l as [|a l (l' & P & S)]; [exists []; split; [constructor|exact I]|].
  exists (insert_handler a l'). split; [|apply insert_sorted; exact S]. apply perm_trans with (a :: l'); [apply perm_skip; exact P|apply insert_perm].
Qed.
