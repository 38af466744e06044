From Coq Require Import Lia.
From Verif Require Import Base PathModel PathSpec PathProofs XfccModel OcspGetModel HttpModel LogModel LogSpec.

Lemma ol_app : forall a b, one_line (a ++ b) <-> one_line a /\ one_line b.
Proof.
  unfold one_line. intros a b. split.
  - intros H. split; intros X; apply H; apply in_or_app; tauto.
  - intros [A B] X. apply in_app_or in X. tauto.
Qed.

Lemma ol_nil : one_line [].
Proof. intros []. Qed.

Lemma ol_cons : forall c s, one_line (c :: s) <-> c <> nl /\ one_line s.
Proof. unfold one_line. cbn [In]. intros c s. tauto. Qed.

Lemma ol_join : forall c l, c <> nl -> Forall one_line l -> one_line (join c l).
Proof.
  intros c l Hc H. induction H as [|x l Hx Hl IH]; [apply ol_nil|].
  destruct l as [|y l]; [exact Hx|]. rewrite join_cons by discriminate.
  apply ol_app. split; [exact Hx|]. apply ol_cons. split; assumption.
Qed.

Ltac ol_lit := match goal with |- one_line ?s =>
  let b := eval vm_compute in (has_char nl s) in
  match b with false => unfold one_line; apply (proj1 (has_char_false nl s)); vm_compute; reflexivity end end.

(** ** Files *)

Lemma file_lines : forall l, Forall (fun x => one_line (fst x) /\ one_line (snd x)) l ->
  lines_of (log_file l) = map (fun x => fst x ++ snd x) l ++ [[]].
Proof.
  unfold lines_of. intros l H. induction H as [|[st e] l [H1 H2] Hl IH]; [reflexivity|].
  cbn [fst snd] in *. unfold log_file in *. cbn [map List.concat fst snd]. unfold output at 1.
  replace (has_suffix e [nl]) with false.
  - rewrite <- !app_assoc. cbn [app]. rewrite app_assoc. rewrite split_on_app.
    + rewrite IH. reflexivity.
    + intros X. apply in_app_or in X. destruct X; [apply H1|apply H2]; assumption.
  - symmetry. destruct (has_suffix e [nl]) eqn:E; [|reflexivity]. apply has_suffix_spec in E.
    destruct E as [t ->]. destruct H2. apply in_or_app. right. left. reflexivity.
Qed.

Lemma split_on_app_any : forall c a b, split_on c (a ++ c :: b) = split_on c a ++ split_on c b.
Proof. exact split_on_app2. Qed.

(** Any text between newlines is a line. *)
Lemma line_of : forall a L b, one_line L -> In L (lines_of (a ++ nl :: L ++ nl :: b)).
Proof.
  intros a L b H. unfold lines_of. rewrite split_on_app_any. rewrite split_on_app by exact H.
  apply in_or_app. right. left. reflexivity.
Qed.

Lemma line_of_output : forall st a L b, one_line L -> In L (lines_of (output st (a ++ nl :: L ++ nl :: b))).
Proof.
  intros st a L b H. unfold output.
  set (e := if has_suffix (a ++ nl :: L ++ nl :: b) [nl] then [] else [nl]).
  replace (st ++ (a ++ nl :: L ++ nl :: b) ++ e) with ((st ++ a) ++ nl :: L ++ nl :: (b ++ e)).
  - apply line_of. exact H.
  - rewrite <- !app_assoc. cbn [app]. rewrite <- !app_assoc. reflexivity.
Qed.

(** ** Descriptions *)

Lemma hexd_ol : forall u n, (n < 16)%N -> XfccModel.hex_digit u n <> nl.
Proof.
  intros u n H. assert (E : In n (map N.of_nat (seq 0 16))).
  { apply in_map_iff. exists (N.to_nat n). split; [apply N2Nat.id|]. apply in_seq. lia. }
  cbn in E. repeat (destruct E as [<-|E]; [destruct u; discriminate|]). destruct E.
Qed.

Lemma byte_parts : forall c, (N_of_ascii c / 16 < 16 /\ N_of_ascii c mod 16 < 16)%N.
Proof.
  intros c. pose proof (N_ascii_bounded c). split; [apply N.div_lt_upper_bound; lia|apply N.mod_lt; lia].
Qed.

Lemma hex_ol : forall s, one_line (hex s).
Proof.
  induction s as [|c s IH]; [apply ol_nil|]. unfold hex in *. cbn [map List.concat].
  destruct (byte_parts c) as [A B]. apply ol_app. split; [|exact IH].
  apply ol_cons. split; [apply hexd_ol; exact A|]. apply ol_cons. split; [apply hexd_ol; exact B|apply ol_nil].
Qed.

Lemma escape_value_ol : forall v f, one_line v -> one_line (escape_value f v).
Proof.
  induction v as [|c v IH]; intros f H; [apply ol_nil|]. apply ol_cons in H. destruct H as [Hc Hv].
  cbn [escape_value]. apply ol_app. split; [|apply IH; exact Hv].
  unfold escape_rune. destruct (_ || _); (repeat (apply ol_cons; split; [first [exact Hc|discriminate]|])); apply ol_nil.
Qed.

Lemma subject_ol : forall l, Forall (Forall attribute_one_line) l -> one_line (name_string l).
Proof.
  intros l H. unfold name_string. apply ol_join; [discriminate|]. apply Forall_forall. intros s Hs.
  apply in_map_iff in Hs. destruct Hs as [r [<- Hr]]. apply in_rev in Hr.
  rewrite Forall_forall in H. specialize (H r Hr). unfold rdn_string. apply ol_join; [discriminate|].
  apply Forall_forall. intros x Hx. apply in_map_iff in Hx. destruct Hx as [a [<- Ha]].
  rewrite Forall_forall in H. specialize (H a Ha). destruct a as [n v|oid der]; cbn [attribute_one_line attribute_string] in *.
  - apply ol_app. split; [tauto|]. apply ol_cons. split; [discriminate|]. apply escape_value_ol. tauto.
  - apply ol_app. split; [tauto|]. apply ol_cons. split; [discriminate|]. apply ol_cons. split; [discriminate|apply hex_ol].
Qed.

Lemma map_pre_ol : forall p l, one_line p -> Forall one_line l -> Forall one_line (map (app p) l).
Proof.
  intros p l Hp H. induction H as [|x l Hx Hl IH]; cbn [map]; constructor; [apply ol_app; split; assumption|exact IH].
Qed.

Lemma summary_ol : forall c, names_one_line c -> one_line (cert_summary c).
Proof.
  intros c [A [B [C D]]]. unfold cert_summary. apply ol_join; [discriminate|].
  apply Forall_app. split; [|apply Forall_app; split; [|apply Forall_app; split]].
  - pose proof (subject_ol _ A) as S. destruct (name_string (n_subject c)) as [|x s]; constructor; [|constructor].
    apply ol_app. split; [ol_lit|exact S].
  - apply map_pre_ol; [ol_lit|exact B].
  - apply map_pre_ol; [ol_lit|exact C].
  - apply map_pre_ol; [ol_lit|exact D].
Qed.

Lemma arrow_ol : one_line arrow.
Proof. unfold arrow. ol_lit. Qed.

Lemma identities_ol : forall d, ordinary d -> Forall one_line (identities d).
Proof.
  intros d [A [B _]]. unfold identities. apply Forall_app. split.
  - destruct (d_cert d) as [c|]; [|constructor]. pose proof (summary_ol c (A c eq_refl)) as S.
    destruct (cert_summary c); constructor; [exact S|constructor].
  - destruct (d_user d) as [u|]; constructor; [apply B; reflexivity|constructor].
Qed.

Lemma desc_ol : forall d, ordinary d -> one_line (conn_desc d).
Proof.
  intros d O. pose proof (identities_ol d O) as I. destruct O as [_ [_ [R [V [N [M [P [U Int]]]]]]]].
  unfold conn_desc. apply ol_app. split.
  - unfold who. destruct (identities d) as [|x l]; [ol_lit|].
    apply ol_app. split; [ol_lit|]. apply ol_app. split; [apply ol_join; [discriminate|exact I]|ol_lit].
  - unfold where_. apply ol_app. split; [exact R|]. apply ol_app. split.
    + destruct (d_via d) as [a|]; [apply ol_app; split; [exact arrow_ol|apply V; reflexivity]|apply ol_nil].
    + destruct (d_name d) as [|c n] eqn:E; [apply ol_nil|].
      apply ol_app. split; [exact arrow_ol|]. apply ol_app. split; [exact N|]. apply ol_app. split; [ol_lit|].
      apply ol_app. split; [exact M|]. apply ol_app. split.
      { destruct (d_proto d) as [|x p]; [apply ol_nil|]. apply ol_app. split; [ol_lit|exact P]. }
      apply ol_app. split.
      { destruct (d_upgrade d) as [|x p]; [apply ol_nil|]. apply ol_app. split; [ol_lit|exact U]. }
      destruct (d_internal d) as [[l r]|]; [|apply ol_nil]. destruct (Int l r eq_refl) as [I1 I2].
      apply ol_app. split; [ol_lit|]. apply ol_app. split; [exact I1|]. apply ol_app. split; [exact arrow_ol|exact I2].
Qed.

(** ** Targets *)

Lemma ctl_nl : ctl nl = true.
Proof. reflexivity. Qed.

Lemma no_ctl_ol : forall s, existsb ctl s = false -> one_line s.
Proof.
  intros s H X. assert (existsb ctl s = true); [|congruence].
  apply existsb_exists. exists nl. split; [exact X|reflexivity].
Qed.

Lemma escape_ol : forall p, one_line (escape_path p).
Proof.
  induction p as [|c p IH]; [apply ol_nil|]. rewrite escape_cons. apply ol_app. split; [|exact IH].
  unfold escape_char. destruct (keep c) eqn:K.
  - apply ol_cons. split; [intros ->; discriminate|apply ol_nil].
  - destruct (byte_parts c) as [A B].
    assert (Hd : forall n, (n < 16)%N -> PathModel.hex_digit n <> nl).
    { intros n H. assert (E : In n (map N.of_nat (seq 0 16))).
      { apply in_map_iff. exists (N.to_nat n). split; [apply N2Nat.id|]. apply in_seq. lia. }
      cbn in E. repeat (destruct E as [<-|E]; [discriminate|]). destruct E. }
    apply ol_cons. split; [discriminate|]. apply ol_cons. split; [apply Hd; exact A|].
    apply ol_cons. split; [apply Hd; exact B|apply ol_nil].
Qed.

Lemma valid_ol : forall raw, valid_encoded raw = true -> one_line raw.
Proof.
  intros raw H X. unfold valid_encoded in H. rewrite forallb_forall in H. specialize (H nl X). discriminate.
Qed.

Lemma target_ol : forall s t, parse_target s = Some t ->
  one_line s /\ one_line (escaped_path t) /\ (forall q, t_query t = Some q -> one_line q).
Proof.
  intros s t H. unfold parse_target in H.
  destruct (existsb ctl s) eqn:C; cbn [orb] in H; [discriminate|].
  destruct (negb (has_prefix s [slash])); [discriminate|].
  pose proof (no_ctl_ol s C) as Os. pose proof (cut_spec question s) as Cs.
  destruct (cut question s) as [[raw q] found]. destruct (unescape raw) as [p|]; [|discriminate]. injection H as <-.
  split; [exact Os|]. split.
  - unfold escaped_path. cbn [t_raw t_path]. destruct (valid_encoded raw) eqn:V; [apply valid_ol; exact V|apply escape_ol].
  - cbn [t_query]. intros q' E. destruct found; [|discriminate]. injection E as <-.
    destruct Cs as [(a & b & Cs & _ & E)|[_ E]]; [|discriminate]. injection E as _ ->. rewrite Cs in Os. apply ol_app in Os. destruct Os as [_ Os]. apply ol_cons in Os. tauto.
Qed.

Lemma url_ol : forall s t o, parse_target s = Some t -> one_line o -> one_line (url_string o t).
Proof.
  intros s t o H Ho. destruct (target_ol s t H) as [_ [A B]]. unfold url_string.
  apply ol_app. split; [exact Ho|]. apply ol_app. split; [exact A|].
  destruct (t_query t) as [q|]; [|apply ol_nil]. apply ol_cons. split; [discriminate|apply B; reflexivity].
Qed.

(** ** Quoting *)

Lemma quote_char_ol : forall c, one_line (quote_char c).
Proof.
  intros c. unfold one_line. apply has_char_false.
  destruct c as [b0 b1 b2 b3 b4 b5 b6 b7]; destruct b0, b1, b2, b3, b4, b5, b6, b7; vm_compute; reflexivity.
Qed.

Lemma quote_body_ol : forall wide, printable wide -> forall s run, one_line (quote_body wide run s).
Proof.
  intros wide W. induction s as [|c s IH]; intros run; cbn [quote_body].
  - destruct run; [apply ol_nil|apply W].
  - destruct (high c); [apply IH|]. apply ol_app. split; [destruct run; [apply ol_nil|apply W]|].
    apply ol_app. split; [apply quote_char_ol|apply IH].
Qed.

Lemma quoted_ol : forall wide s, printable wide -> one_line (quoted wide s).
Proof.
  intros wide s W. unfold quoted. apply ol_cons. split; [discriminate|]. apply ol_app.
  split; [apply quote_body_ol; exact W|ol_lit].
Qed.

(** ** Entries *)

Lemma req_entry_ol : forall wide d m u st ua, printable wide -> ordinary d -> one_line m -> one_line st ->
  (one_line (req_entry wide d m u st ua) <-> one_line u).
Proof.
  intros wide d m u st ua W O M St. unfold req_entry. rewrite !ol_app.
  pose proof (desc_ol d O). pose proof arrow_ol. pose proof (quoted_ol wide (user_agent ua) W).
  assert (one_line (lit "REQ ")) by ol_lit. assert (one_line (lit " ")) by ol_lit.
  assert (one_line (lit "status:")) by ol_lit. assert (one_line (lit " (")) by ol_lit. assert (one_line (lit ")")) by ol_lit.
  tauto.
Qed.

Lemma prx_entry_ol : forall wide d m u st ua, printable wide -> ordinary d -> one_line m -> one_line st ->
  (one_line (prx_entry wide d m u st ua) <-> one_line u).
Proof.
  intros wide d m u st ua W O M St. unfold prx_entry. rewrite !ol_app.
  pose proof (desc_ol d O). pose proof arrow_ol. pose proof (quoted_ol wide (user_agent ua) W).
  assert (one_line (lit "PRX ")) by ol_lit. assert (one_line (lit " ")) by ol_lit.
  assert (one_line (lit "status:")) by ol_lit. assert (one_line (lit " (")) by ol_lit. assert (one_line (lit ")")) by ol_lit.
  tauto.
Qed.

Lemma endpoint_entry_ol : forall wide d m u nt ua, printable wide -> ordinary d -> one_line m -> one_line nt ->
  (one_line (endpoint_entry wide d m u nt ua) <-> one_line u).
Proof.
  intros wide d m u nt ua W O M St. unfold endpoint_entry. rewrite !ol_app.
  pose proof (desc_ol d O). pose proof arrow_ol. pose proof (quoted_ol wide (user_agent ua) W).
  assert (one_line (lit "REQ ")) by ol_lit. assert (one_line (lit " ")) by ol_lit.
  assert (one_line (lit " (")) by ol_lit. assert (one_line (lit ")")) by ol_lit.
  tauto.
Qed.

Lemma moved_status_ol : forall m, one_line (moved_status m).
Proof. intros m. unfold moved_status. destruct (_ || _); ol_lit. Qed.

Lemma single : forall s, Forall one_line [s] <-> one_line s.
Proof. intros s. split; [intros H; inversion H; assumption|intros H; constructor; [exact H|constructor]]. Qed.

(** ** Requests that write lines *)

Lemma hex_same : forall c, hex_val c = hex_value c.
Proof. intros [b0 b1 b2 b3 b4 b5 b6 b7]; destruct b0, b1, b2, b3, b4, b5, b6, b7; reflexivity. Qed.

Lemma unescape_decode : forall s n, (List.length s <= n)%nat -> unescape s = percent_decode s.
Proof.
  intros s n. revert s. induction n as [|n IH]; intros s H.
  - destruct s; [reflexivity|cbn in H; lia].
  - destruct s as [|c s]; [reflexivity|]. cbn [unescape percent_decode List.length] in *.
    destruct (Ascii.eqb c "%").
    + destruct s as [|a [|b s]]; try reflexivity. rewrite IH by (cbn in H; lia).
      rewrite !hex_same. reflexivity.
    + rewrite IH by lia. destruct (percent_decode s); reflexivity.
Qed.

Lemma escape_no_ctl : forall p, existsb ctl (escape_path p) = false.
Proof.
  induction p as [|c p IH]; [reflexivity|]. rewrite escape_cons, existsb_app, IH, orb_false_r.
  destruct c as [b0 b1 b2 b3 b4 b5 b6 b7]; destruct b0, b1, b2, b3, b4, b5, b6, b7; vm_compute; reflexivity.
Qed.

Lemma parse_escaped : forall p, parse_target (escape_path (slash :: p)) =
  Some {| t_path := slash :: p; t_raw := escape_path (slash :: p); t_query := None |}.
Proof.
  intros p. unfold parse_target. rewrite escape_no_ctl. rewrite escape_cons at 1.
  change (escape_char slash) with [slash]. cbn [app has_prefix]. rewrite Ascii.eqb_refl. cbn [andb negb orb].
  rewrite cut_none by apply escape_no_question.
  rewrite (unescape_decode _ (List.length (escape_path (slash :: p)))) by lia. rewrite escape_decode. reflexivity.
Qed.

(** ** Paths that lead back *)

(** Up as often as there are elements. *)
Definition ups (n : nat) : str := List.concat (repeat (lit "/..") n).

Lemma ups_split : forall n q, split_on slash (ups n ++ slash :: q) = [] :: repeat (lit "..") n ++ split_on slash q
  \/ n = 0%nat.
Proof.
  intros [|n] q; [right; reflexivity|left].
  assert (G : forall m, split_on slash (lit ".." ++ ups m ++ slash :: q) = repeat (lit "..") (S m) ++ split_on slash q).
  { induction m as [|m IH].
    - change (ups 0) with (@nil ascii). cbn [app repeat]. change (lit ".." ++ slash :: q) with (lit ".." ++ (slash :: q)).
      rewrite split_on_app by (cbn; intuition discriminate). reflexivity.
    - change (ups (S m)) with (slash :: lit ".." ++ ups m). cbn [app] in *.
      change (lit ".." ++ slash :: (lit ".." ++ ups m) ++ slash :: q) with (lit ".." ++ slash :: ((lit ".." ++ ups m) ++ slash :: q)).
      rewrite split_on_app by (cbn; intuition discriminate). rewrite <- app_assoc. rewrite IH. reflexivity. }
  change (ups (S n)) with (slash :: lit ".." ++ ups n). cbn [app].
  change (slash :: (lit ".." ++ ups n) ++ slash :: q) with ([] ++ slash :: ((lit ".." ++ ups n) ++ slash :: q)).
  rewrite split_on_app by (intros []). rewrite <- app_assoc, G. reflexivity.
Qed.

Lemma fold_ups : forall st, ~ In (lit "..") st ->
  fold_left (resolve true) (repeat (lit "..") (List.length st)) st = [].
Proof.
  induction st as [|e st IH]; intros H; [reflexivity|]. cbn [List.length repeat fold_left].
  replace (resolve true (e :: st) (lit "..")) with st.
  - apply IH. intros X. apply H. right. exact X.
  - unfold resolve. change (str_eqb (lit "..") []) with false. change (str_eqb (lit "..") (lit ".")) with false.
    change (str_eqb (lit "..") (lit "..")) with true. cbn [orb].
    replace (str_eqb e (lit "..")) with false; [reflexivity|]. symmetry. apply str_eqb_neq.
    intros ->. apply H. left. reflexivity.
Qed.

(** Every text can be put before a path without changing what the path means. *)
Lemma lead_back : forall x q, exists n, pathClean ((slash :: x) ++ ups n ++ slash :: q) = pathClean (slash :: q).
Proof.
  intros x q. set (st := fold_left (resolve true) (split_on slash (slash :: x)) []).
  exists (List.length st). rewrite !pathClean_spec.
  assert (Nd : ~ In (lit "..") st) by (apply fold_no_dd; intros []).
  assert (E : elements true ((slash :: x) ++ ups (List.length st) ++ slash :: q) = elements true (slash :: q)).
  { unfold elements. f_equal. destruct (ups_split (List.length st) q) as [U|U].
    - assert (Hs : ups (List.length st) ++ slash :: q = slash :: tl (ups (List.length st) ++ slash :: q)).
      { destruct (List.length st); reflexivity. }
      rewrite Hs. rewrite split_on_app2. rewrite fold_left_app. fold st.
      rewrite Hs in U. change (slash :: tl (ups (List.length st) ++ slash :: q)) with ([] ++ slash :: tl (ups (List.length st) ++ slash :: q)) in U.
      rewrite split_on_app in U by (intros []). injection U as U. rewrite U. rewrite fold_left_app, fold_ups by exact Nd.
      change (slash :: q) with ([] ++ slash :: q) at 1. rewrite split_on_app by (intros []). reflexivity.
    - rewrite U. change (ups 0) with (@nil ascii). cbn [app].
      change (slash :: x ++ slash :: q) with ((slash :: x) ++ slash :: q). rewrite split_on_app2, fold_left_app. fold st.
      assert (st = []) as -> by (destruct st; [reflexivity|discriminate]).
      change (slash :: q) with ([] ++ slash :: q) at 1. rewrite split_on_app by (intros []). reflexivity. }
  unfold clean_request_path. rewrite E.
  replace (has_suffix ((slash :: x) ++ ups (List.length st) ++ slash :: q) [slash]) with (has_suffix (slash :: q) [slash]); [reflexivity|].
  assert (Sx : forall a, has_suffix (a ++ slash :: q) [slash] = has_suffix (slash :: q) [slash]).
  { induction a as [|c a IH]; [reflexivity|]. cbn [app]. rewrite has_suffix_cons; [exact IH|]. destruct a; discriminate. }
  rewrite app_assoc. symmetry. apply Sx.
Qed.

(** Without headers nobody is logged in. *)
Lemma nobody : forall ev be m p h x, authenticate ev be {| rq_method := m; rq_proto := p; rq_host := h; rq_path := x; rq_headers := [] |} =
  Some ({| rq_method := m; rq_proto := p; rq_host := h; rq_path := x; rq_headers := [] |}, None).
Proof.
  intros ev be m p h x. unfold authenticate. cbn [rq_headers]. change (h_del user_header []) with (@nil (str * str)).
  destruct (be_sso be) as [s|]; [|reflexivity]. reflexivity.
Qed.

(** ** What can be told from an entry *)

Lemma body_ascii : forall wide s, in_ascii s -> quote_body wide [] s = List.concat (map quote_char s).
Proof.
  intros wide s H. induction H as [|c s Hc Hs IH]; [reflexivity|]. cbn [quote_body map List.concat].
  rewrite Hc, IH. reflexivity.
Qed.

(** Reading a quoted character. *)
Definition unq (l : str) : option (ascii * str) :=
  match l with
  | [] => None
  | a :: r =>
      if Ascii.eqb a backslash then
        match r with
        | [] => None
        | b :: r1 =>
            if Ascii.eqb b dquote then Some (dquote, r1)
            else if Ascii.eqb b backslash then Some (backslash, r1)
            else if Ascii.eqb b "a" then Some (ascii_of_N 7, r1)
            else if Ascii.eqb b "b" then Some (ascii_of_N 8, r1)
            else if Ascii.eqb b "t" then Some (ascii_of_N 9, r1)
            else if Ascii.eqb b "n" then Some (ascii_of_N 10, r1)
            else if Ascii.eqb b "v" then Some (ascii_of_N 11, r1)
            else if Ascii.eqb b "f" then Some (ascii_of_N 12, r1)
            else if Ascii.eqb b "r" then Some (ascii_of_N 13, r1)
            else match r1 with
                 | x :: y :: r2 => match hex_val x, hex_val y with
                                   | Some u, Some v => Some (ascii_of_N (16 * u + v), r2)
                                   | _, _ => None
                                   end
                 | _ => None
                 end
        end
      else Some (a, r)
  end.

Lemma unq_char : forall c r, unq (quote_char c ++ r) = Some (c, r).
Proof.
  intros c r. destruct c as [b0 b1 b2 b3 b4 b5 b6 b7]; destruct b0, b1, b2, b3, b4, b5, b6, b7; reflexivity.
Qed.

Definition body (s : str) : str := List.concat (map quote_char s).

Lemma quote_char_nonnil : forall c, quote_char c <> [].
Proof.
  intros c H. pose proof (unq_char c []) as U. rewrite H in U. discriminate.
Qed.

Lemma body_inj : forall a b, body a = body b -> a = b.
Proof.
  unfold body. induction a as [|x a IH]; intros [|y b] H; cbn [map List.concat] in H.
  - reflexivity.
  - symmetry in H. apply app_eq_nil in H. destruct (quote_char_nonnil y (proj1 H)).
  - apply app_eq_nil in H. destruct (quote_char_nonnil x (proj1 H)).
  - pose proof (f_equal unq H) as U. rewrite !unq_char in U. injection U as <- U. f_equal. apply IH. exact U.
Qed.

(** Every quote is behind a backslash. *)
Fixpoint esc (prev : ascii) (l : str) : Prop :=
  match l with [] => True | c :: r => (c = dquote -> prev = backslash) /\ esc c r end.

Lemma esc_char : forall c prev l, (forall p, esc p l) -> esc prev (quote_char c ++ l).
Proof.
  intros c prev l H. destruct c as [b0 b1 b2 b3 b4 b5 b6 b7];
    destruct b0, b1, b2, b3, b4, b5, b6, b7; cbn -[esc]; cbn [esc];
    repeat (split; [first [discriminate|reflexivity]|]); apply H.
Qed.

Lemma esc_body : forall s prev, esc prev (body s).
Proof.
  unfold body. induction s as [|c s IH]; intros prev; [exact I|]. cbn [map List.concat]. apply esc_char. exact IH.
Qed.

Lemma esc_mid : forall x prev c y, esc prev (x ++ c :: dquote :: y) -> c = backslash.
Proof.
  induction x as [|a x IH]; intros prev c y H; cbn [app esc] in H.
  - destruct H as [_ [H _]]. apply H. reflexivity.
  - destruct H as [_ H]. apply (IH a c y H).
Qed.

(** What is before and what is in the quotes at the end of an entry. *)
Lemma quoted_end : forall r1 r2 a b, r1 ++ "("%char :: dquote :: body a = r2 ++ "("%char :: dquote :: body b ->
  r1 = r2 /\ a = b.
Proof.
  assert (G : forall r2 b x y, "("%char :: dquote :: y = r2 ++ "("%char :: dquote :: body b ->
    forall a, y = body a -> (x : str) = x -> r2 = [] /\ a = b).
  { intros r2 b x y H a E _. destruct r2 as [|c [|c' r2]]; cbn [app] in H.
    - injection H as H. split; [reflexivity|]. apply body_inj. rewrite <- E. exact H.
    - injection H as _ H. discriminate.
    - injection H as _ <- H. exfalso. rewrite E in H.
      pose proof (esc_body a dquote) as Es. rewrite H in Es. apply esc_mid in Es. discriminate. }
  induction r1 as [|c r1 IH]; intros r2 a b H.
  - cbn [app] in H. destruct (G r2 b [] (body a) H a eq_refl eq_refl) as [-> ->]. split; reflexivity.
  - destruct r2 as [|c' r2].
    + cbn [app] in H. symmetry in H.
      destruct (G (c :: r1) a [] (body b) H b eq_refl eq_refl) as [X _]. discriminate.
    + cbn [app] in H. injection H as <- H. destruct (IH r2 a b H) as [-> ->]. split; reflexivity.
Qed.

Lemma ua_ascii : forall ua, in_ascii ua -> in_ascii (user_agent ua).
Proof.
  intros ua H. unfold user_agent. destruct (200 <? List.length ua)%nat; [|exact H].
  apply Forall_app. split; [|repeat constructor].
  apply Forall_forall. intros c Hc. unfold in_ascii in H. rewrite Forall_forall in H. apply H.
  rewrite <- (firstn_skipn 197 ua). apply in_or_app. left. exact Hc.
Qed.

Lemma app_same_tail : forall (a b x y : str), a ++ x = b ++ y -> List.length x = List.length y -> a = b /\ x = y.
Proof.
  induction a as [|c a IH]; intros [|c' b] x y H L; cbn [app] in H.
  - split; [reflexivity|exact H].
  - subst x. cbn [List.length] in L. rewrite app_length in L. lia.
  - subst y. cbn [List.length] in L. rewrite app_length in L. lia.
  - injection H as <- H. destruct (IH b x y H L) as [-> ->]. split; reflexivity.
Qed.

Lemma entry_end : forall wide d1 m1 u1 st1 ua1 d2 m2 u2 st2 ua2,
  three st1 -> three st2 -> in_ascii ua1 -> in_ascii ua2 ->
  req_entry wide d1 m1 u1 st1 ua1 = req_entry wide d2 m2 u2 st2 ua2 ->
  st1 = st2 /\ user_agent ua1 = user_agent ua2.
Proof.
  intros wide d1 m1 u1 st1 ua1 d2 m2 u2 st2 ua2 T1 T2 A1 A2 H. unfold req_entry, quoted in H.
  rewrite !body_ascii in H by (apply ua_ascii; assumption). fold (body (user_agent ua1)) (body (user_agent ua2)) in H.
  set (p1 := lit "REQ " ++ conn_desc d1 ++ arrow ++ m1 ++ lit " " ++ u1 ++ arrow ++ lit "status:").
  set (p2 := lit "REQ " ++ conn_desc d2 ++ arrow ++ m2 ++ lit " " ++ u2 ++ arrow ++ lit "status:").
  assert (E : (((p1 ++ st1) ++ lit " ") ++ "("%char :: dquote :: body (user_agent ua1)) ++ [dquote; ")"%char] =
              (((p2 ++ st2) ++ lit " ") ++ "("%char :: dquote :: body (user_agent ua2)) ++ [dquote; ")"%char]).
  { unfold p1, p2. change (lit " (") with (lit " " ++ ["("%char]) in H. change (lit ")") with [")"%char] in H.
    rewrite <- !app_assoc in *. cbn [app] in *. rewrite <- !app_assoc in *. cbn [app] in *. exact H. }
  apply app_same_tail in E; [|reflexivity]. destruct E as [E _]. apply quoted_end in E. destruct E as [E ->].
  split; [|reflexivity]. destruct (app_same_tail (p1 ++ st1) (p2 ++ st2) (lit " ") (lit " ") E eq_refl) as [E1 _].
  assert (L : List.length st1 = List.length st2) by (unfold three in *; congruence).
  destruct (app_same_tail p1 p2 st1 st2 E1 L) as [_ E2]. exact E2.
Qed.

(** ** Identities *)

Lemma cut_unique : forall (c : ascii) (a b x y : str), ~ In c a -> ~ In c b -> a ++ c :: x = b ++ c :: y -> a = b /\ x = y.
Proof.
  intros c. induction a as [|z a IH]; intros [|z' b] x y Ha Hb H; cbn [app] in H.
  - injection H as H. split; [reflexivity|exact H].
  - injection H as -> _. destruct Hb. left. reflexivity.
  - injection H as <- _. destruct Ha. left. reflexivity.
  - injection H as <- H. destruct (IH b x y) as [-> ->]; [| |exact H|split; reflexivity];
      intros X; [apply Ha|apply Hb]; right; exact X.
Qed.

Lemma in_join : forall c (x : ascii) l, In x (join c l) -> x = c \/ exists s, In s l /\ In x s.
Proof.
  intros c x l. induction l as [|s l IH]; [intros []|]. destruct l as [|s' l].
  - intros H. right. exists s. split; [left; reflexivity|exact H].
  - rewrite join_cons by discriminate. intros H. apply in_app_or in H. destruct H as [H|[H|H]].
    + right. exists s. split; [left; reflexivity|exact H].
    + left. symmetry. exact H.
    + destruct (IH H) as [E|[s0 [A B]]]; [left; exact E|right]. exists s0. split; [right; exact A|exact B].
Qed.

Lemma who_spec : forall d, exists t, who d = "["%char :: t ++ "]"%char :: lit " " /\
  t = match identities d with [] => lit "-" | l => join "|" l end.
Proof.
  intros d. unfold who. destruct (identities d) as [|x l].
  - exists (lit "-"). split; reflexivity.
  - exists (join "|" (x :: l)). split; [|reflexivity]. cbn [app lit]. reflexivity.
Qed.

Lemma who_inj : forall d1 d2 x y, Forall distinct_name (identities d1) -> Forall distinct_name (identities d2) ->
  who d1 ++ x = who d2 ++ y -> identities d1 = identities d2.
Proof.
  intros d1 d2 x y N1 N2 H.
  destruct (who_spec d1) as [t1 [W1 E1]]. destruct (who_spec d2) as [t2 [W2 E2]].
  rewrite W1, W2 in H. cbn [app] in H. injection H as H. rewrite <- !app_assoc in H. cbn [app] in H.
  assert (Nb : forall d t, Forall distinct_name (identities d) -> t = match identities d with [] => lit "-" | l => join "|" l end ->
    ~ In "]"%char t).
  { intros d t N E X. subst t. destruct (identities d) as [|s l]; [cbn in X; intuition discriminate|].
    apply in_join in X. destruct X as [X|[s0 [A B]]]; [discriminate|].
    rewrite Forall_forall in N. destruct (N s0 A) as [_ [_ [_ Q]]]. apply Q. exact B. }
  destruct (cut_unique _ _ _ _ _ (Nb d1 t1 N1 E1) (Nb d2 t2 N2 E2) H) as [T _]. subst t1 t2.
  assert (Sp : forall l, l <> [] -> Forall distinct_name l -> split_on "|" (join "|" l) = l).
  { intros l Hl N. apply split_join; [exact Hl|]. eapply Forall_impl; [|exact N]. intros s [_ [_ [Q _]]]. exact Q. }
  assert (Nd : forall l, l <> [] -> Forall distinct_name l -> join "|" l <> lit "-").
  { intros l Hl N E. pose proof (Sp l Hl N) as S. rewrite E in S. change (split_on "|" (lit "-")) with [lit "-"] in S.
    subst l. inversion N as [|? ? [_ [Q _]] _]. apply Q. reflexivity. }
  destruct (identities d1) as [|s1 l1] eqn:I1; destruct (identities d2) as [|s2 l2] eqn:I2.
  - reflexivity.
  - symmetry in T. apply Nd in T; [destruct T|discriminate|exact N2].
  - apply Nd in T; [destruct T|discriminate|exact N1].
  - pose proof (f_equal (split_on "|") T) as S. rewrite !Sp in S by (try discriminate; assumption). exact S.
Qed.

(** ** The URL *)
Lemma url_true : forall origin sent t, parse_target sent = Some t ->
  (valid_encoded (t_raw t) = true -> url_string origin t = origin ++ sent) /\
  percent_decode (escaped_path t) = Some (t_path t).
Proof.
  intros origin sent t H. unfold parse_target in H.
  destruct (existsb ctl sent || negb (has_prefix sent [slash])); [discriminate|].
  pose proof (cut_spec question sent) as Cs. destruct (cut question sent) as [[raw q] found].
  destruct (unescape raw) as [p|] eqn:E; [|discriminate]. injection H as <-. split.
  - cbn [t_raw]. intros V. unfold url_string, escaped_path. cbn [t_raw t_query t_path]. rewrite V. f_equal.
    destruct Cs as [(a & b & Cs & _ & X)|[_ X]]; injection X as -> -> ->; [symmetry; exact Cs|apply app_nil_r].
  - unfold escaped_path. cbn [t_raw t_path]. destruct (valid_encoded raw); [|apply escape_decode].
    rewrite <- (unescape_decode raw (List.length raw)) by lia. exact E.
Qed.

Lemma ctl_control : forall c, control c -> ctl c = true.
Proof.
  intros c [H| ->]; [|reflexivity]. unfold ctl. apply orb_true_intro. left. apply N.ltb_lt. lia.
Qed.

Lemma existsb_in_false : forall (f : ascii -> bool) s c, existsb f s = false -> In c s -> f c = false.
Proof.
  intros f s c H I. destruct (f c) eqn:E; [|reflexivity]. rewrite <- H. symmetry. apply existsb_exists. eauto.
Qed.

Lemma url_no_control : forall sent t c, parse_target sent = Some t -> In c (url_string [] t) -> ~ control c.
Proof.
  intros sent t c H I X. apply ctl_control in X. unfold parse_target in H.
  destruct (existsb ctl sent) eqn:C; [discriminate|]. cbn [orb] in H. destruct (negb _); [discriminate|].
  pose proof (cut_spec question sent) as Cs. destruct (cut question sent) as [[raw q] found].
  destruct (unescape raw) as [p|] eqn:E; [|discriminate]. injection H as <-.
  assert (Is : forall d, In d sent -> ctl d = false) by (intros d; apply existsb_in_false; exact C).
  unfold url_string, escaped_path in I. cbn [app t_raw t_path t_query] in I. apply in_app_iff in I.
  destruct Cs as [(a & b & Cs & _ & Y)|[_ Y]]; injection Y as -> -> ->; destruct I as [I|I].
  - destruct (valid_encoded a).
    + rewrite Is in X; [discriminate|]. rewrite Cs. apply in_app_iff. now left.
    + rewrite (existsb_in_false _ _ _ (escape_no_ctl p) I) in X. discriminate.
  - rewrite Is in X; [discriminate|]. rewrite Cs. apply in_app_iff. now right.
  - destruct (valid_encoded sent); [rewrite Is in X by exact I; discriminate|].
    rewrite (existsb_in_false _ _ _ (escape_no_ctl p) I) in X. discriminate.
  - destruct I.
Qed.
