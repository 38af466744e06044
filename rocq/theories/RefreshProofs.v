(** Lemmas about RefreshModel.v *)
From Verif Require Import Base PathModel PathSpec PathProofs TokenModel HttpModel RefreshModel RefreshSpec.
From Verif Require OcspGetModel.
From Coq Require Import Lia.
Notation unescape := OcspGetModel.unescape.

(** ** Decoding *)
Lemma hex_val_value c : OcspGetModel.hex_val c = hex_value c.
Proof. destruct c as [[] [] [] [] [] [] [] []]; reflexivity. Qed.
Lemma unescape_decode_n n : forall s, (List.length s <= n)%nat -> unescape s = percent_decode s.
Proof.
  induction n as [|n IH]; intros [|c s] H; try reflexivity; [cbn in H; lia|]. cbn [OcspGetModel.unescape percent_decode].
  cbn [List.length] in H. destruct (Ascii.eqb c "%").
  - destruct s as [|a [|b s]]; try reflexivity. cbn [List.length] in H. rewrite !hex_val_value, IH by lia. reflexivity.
  - rewrite IH by lia. destruct (percent_decode s); reflexivity.
Qed.
Lemma unescape_decode s : unescape s = percent_decode s.
Proof. eapply unescape_decode_n. reflexivity. Qed.
Lemma unescape_app_n n : forall a b p, (List.length a <= n)%nat -> unescape (a ++ slash :: b) = Some p ->
  exists x y, unescape a = Some x /\ unescape b = Some y /\ p = x ++ slash :: y.
Proof.
  induction n as [|n IH]; intros [|c a] b p L H; try (cbn in L; lia).
  - cbn [app OcspGetModel.unescape] in H. change (Ascii.eqb slash "%") with false in H. cbv iota in H.
    destruct (unescape b) as [y|]; [|discriminate]. injection H as <-. exists [], y. auto.
  - cbn [app OcspGetModel.unescape] in H. change (Ascii.eqb slash "%") with false in H. cbv iota in H.
    destruct (unescape b) as [y|]; [|discriminate]. injection H as <-. exists [], y. auto.
  - cbn [List.length] in L. cbn [app OcspGetModel.unescape] in H |- *. destruct (Ascii.eqb c "%").
    + destruct a as [|d [|e a]]; cbn [app] in H.
      * destruct b as [|b0 b]; [discriminate|]. change (OcspGetModel.hex_val slash) with (@None N) in H. discriminate.
      * change (OcspGetModel.hex_val slash) with (@None N) in H. destruct (OcspGetModel.hex_val d); discriminate.
      * destruct (OcspGetModel.hex_val d) as [u|]; [|discriminate]. destruct (OcspGetModel.hex_val e) as [v|]; [|discriminate].
        destruct (unescape (a ++ slash :: b)) as [t|] eqn:E; [|discriminate]. injection H as <-.
        cbn [List.length] in L. destruct (IH a b t ltac:(lia) E) as (x & y & -> & -> & ->). eexists. eexists. split; [reflexivity|]. split; reflexivity.
    + destruct (unescape (a ++ slash :: b)) as [t|] eqn:E; [|discriminate]. injection H as <-.
      destruct (IH a b t ltac:(lia) E) as (x & y & -> & -> & ->). eexists. eexists. split; [reflexivity|]. split; reflexivity.
Qed.
Lemma unescape_app a b p : unescape (a ++ slash :: b) = Some p -> exists x y, unescape a = Some x /\ unescape b = Some y /\ p = x ++ slash :: y.
Proof. apply (unescape_app_n (List.length a)). reflexivity. Qed.
Lemma unescape_slash b p : unescape (slash :: b) = Some p -> exists y, unescape b = Some y /\ p = slash :: y.
Proof. intro H. destruct (unescape_app [] b p H) as (x & y & E & F & ->). injection E as <-. eauto. Qed.

(** The elements of the written path and of the path. *)
Lemma unescape_join es : forall p, es <> [] -> unescape (join slash es) = Some p ->
  exists ds, Forall2 (fun e d => unescape e = Some d) es ds /\ split_on slash p = List.concat (map (split_on slash) ds).
Proof.
  induction es as [|e es IH]; intros p N H; [contradiction|]. destruct es as [|e' es].
  - cbn in H. exists [p]. split; [constructor; [exact H|constructor]|]. cbn. rewrite app_nil_r. reflexivity.
  - rewrite join_cons in H by discriminate. apply unescape_app in H as (x & y & X & Y & ->).
    destruct (IH y ltac:(discriminate) Y) as (ds & F & S). exists (x :: ds). split; [constructor; assumption|].
    rewrite split_on_app2, S. reflexivity.
Qed.

(** ** Cleaning *)
Lemma clean_render es tail : Forall plain es -> (tail = true -> es <> []) ->
  let s := slash :: join slash es ++ (if tail : bool then [slash] else []) in
  (if has_suffix s [slash] && negb (has_suffix (path_clean s) [slash]) then path_clean s ++ [slash] else path_clean s) = s.
Proof.
  intros H1 H2. cbv zeta. rewrite path_clean_rooted. assert (G := elements_render es tail H1). rewrite elements_slash in G. rewrite G.
  destruct tail.
  - replace (has_suffix (slash :: join slash es ++ [slash]) [slash]) with true by (symmetry; apply has_suffix_spec; exists (slash :: join slash es); reflexivity).
    rewrite has_suffix_cons, suffix_join; auto. apply join_good_nonnil; [auto|]. eapply Forall_impl; [|exact H1]. unfold plain, good. tauto.
  - rewrite app_nil_r. destruct es as [|e es]; [reflexivity|].
    assert (Hj : join slash (e :: es) <> []).
    { apply join_good_nonnil; [discriminate|]. eapply Forall_impl; [|exact H1]. unfold plain, good. tauto. }
    rewrite (has_suffix_cons slash _ Hj), suffix_join by (auto; discriminate). reflexivity.
Qed.
(** A tidy path, element by element. *)
Definition odd (e : str) : Prop := e = [] \/ e = lit "." \/ e = lit "..".
Lemma last_only (A : list str) B es tail : Forall plain es -> A ++ [] :: B = es ++ (if tail : bool then [[]] else []) -> B = [] /\ A = es /\ tail = true.
Proof.
  revert es. induction A as [|a A IH]; intros es F H.
  - destruct es as [|e es]; cbn [app] in H.
    + destruct tail; [injection H as ->; auto|discriminate].
    + injection H as <- _. apply Forall_cons_iff in F as [(X & _) _]. contradiction.
  - destruct es as [|e es]; cbn [app] in H.
    + destruct tail; [|discriminate]. injection H as <- H. destruct A; discriminate.
    + injection H as <- H. apply Forall_cons_iff in F as [_ F]. destruct (IH es F H) as (X & -> & Y). auto.
Qed.
Lemma unescape_odd e d : odd e -> unescape e = Some d -> d = e.
Proof. intros [->|[->| ->]] H; cbn in H; injection H as <-; reflexivity. Qed.
Lemma odd_dec e : odd e \/ ~ odd e.
Proof.
  unfold odd. destruct (str_eq_dec e []) as [->|A]; [auto|]. destruct (str_eq_dec e (lit ".")) as [->|B]; [auto|].
  destruct (str_eq_dec e (lit "..")) as [->|C]; [auto|]. right. tauto.
Qed.
Lemma split_rooted_tidy r es tail : Forall plain es -> (tail = true -> es <> []) -> slash :: r = slash :: join slash es ++ (if tail : bool then [slash] else []) ->
  split_on slash r = match es with [] => [[]] | _ => es ++ (if tail then [[]] else []) end.
Proof.
  intros F T H. injection H as ->. destruct es as [|e es].
  - destruct tail; [exfalso; apply T; reflexivity|reflexivity].
  - assert (J : forall l, l <> [] -> Forall plain l -> split_on slash (join slash l) = l).
    { intros l N Fl. induction l as [|x l IH]; [contradiction|]. apply Forall_cons_iff in Fl as [(_ & _ & _ & X) Fl]. destruct l as [|y l].
      - cbn. clear -X. induction x as [|c x IH]; [reflexivity|]. cbn. destruct (Ascii.eqb c slash) eqn:E; [apply Ascii.eqb_eq in E; exfalso; apply X; left; exact E|].
        rewrite IH by (intro I; apply X; right; exact I). reflexivity.
      - rewrite join_cons, split_on_app2, IH by (discriminate || exact Fl). replace (split_on slash x) with [x]; [reflexivity|].
        clear -X. induction x as [|c x IH]; [reflexivity|]. cbn. destruct (Ascii.eqb c slash) eqn:E; [apply Ascii.eqb_eq in E; exfalso; apply X; left; exact E|].
        rewrite <- IH by (intro I; apply X; right; exact I). reflexivity. }
    destruct tail; [|rewrite !app_nil_r; apply J; [discriminate|exact F]].
    change [slash] with (slash :: []). rewrite split_on_app2, J by (discriminate || exact F). reflexivity.
Qed.
Lemma map_concat_in {A B} (f : A -> list B) l x : In x l -> forall y, In y (f x) -> In y (List.concat (map f l)).
Proof. intros I y J. apply in_concat. exists (f x). split; [apply in_map; exact I|exact J]. Qed.
Lemma split_odd e : odd e -> split_on slash e = [e].
Proof. intros [->|[->| ->]]; reflexivity. Qed.
(** What is written for a tidy path is tidy. *)
Lemma raw_tidy raw p : has_prefix raw [slash] = true -> unescape raw = Some p -> tidy p ->
  exists es tail, Forall plain es /\ (tail = true -> es <> []) /\ raw = slash :: join slash es ++ (if tail : bool then [slash] else []).
Proof.
  intros P U T. apply has_prefix_slash in P as (r & ->). apply unescape_slash in U as (q & U & ->).
  unfold tidy in T. destruct (crp_cases (slash :: q)) as (es & tail & F & N & E). rewrite T in E.
  assert (S := split_rooted_tidy q es tail F N E). clear E T.
  rewrite <- (join_split slash r) in U. set (rs := split_on slash r) in *.
  assert (Nr : rs <> []) by apply split_on_nonempty.
  assert (Sl : Forall (fun e => ~ In slash e) rs) by apply split_on_no_sep.
  destruct (unescape_join rs q Nr U) as (ds & F2 & C). rewrite S in C.
  replace r with (join slash rs) by apply join_split. clearbody rs. clear U S.
  (* all but the last are plain *)
  destruct (exists_last Nr) as (init & lst & ->). apply Forall2_app_inv_l in F2 as (d1 & d2 & F1 & Fl & ->).
  inversion Fl as [|x y l l' Ul Fn E1 E2]; subst. inversion Fn; subst. clear Fn Fl.
  rewrite map_app, concat_app in C. cbn [map List.concat] in C. rewrite app_nil_r in C.
  assert (NB : split_on slash y <> []) by apply split_on_nonempty.
  assert (Pl : forall e, In e init -> ~ odd e).
  { intros e I O. apply in_split in I as (i1 & i2 & ->). apply Forall2_app_inv_l in F1 as (c1 & c2 & G1 & G2 & ->).
    inversion G2 as [|a b k k' Ub G3 E1 E2]; subst. apply (unescape_odd _ _ O) in Ub as ->.
    rewrite map_app, concat_app in C. cbn [map List.concat] in C. rewrite (split_odd e O) in C.
    assert (IO : In e (match es with [] => [[]] | _ :: _ => es ++ (if tail then [[]] else []) end)) by (rewrite C; rewrite !in_app_iff; cbn; tauto).
    destruct es as [|x0 es].
    - destruct IO as [<-|[]]. apply (f_equal (@List.length str)) in C. rewrite !app_length in C. cbn [List.length app] in C.
      destruct (split_on slash y); [contradiction|]. cbn [List.length] in C. lia.
    - destruct O as [->|O].
      + rewrite <- !app_assoc in C. cbn [app] in C. symmetry in C. apply (last_only _ _ (x0 :: es) tail F) in C as (X & _). apply app_eq_nil in X as [_ X]. contradiction.
      + apply in_app_iff in IO as [IO|IO].
        * rewrite Forall_forall in F. apply F in IO as (_ & A & B & _). destruct O as [->| ->]; contradiction.
        * destruct tail; [destruct IO as [<-|[]]; destruct O; discriminate|destruct IO]. }
  assert (Pi : Forall plain init).
  { apply Forall_forall. intros e I. assert (O := Pl e I). apply Forall_app in Sl as [Sl _]. rewrite Forall_forall in Sl. specialize (Sl e I).
    unfold odd in O. unfold plain. tauto. }
  destruct (odd_dec lst) as [O|O].
  - (* the last one is empty *)
    assert (lst = []) as ->.
    { apply (unescape_odd _ _ O) in Ul as ->. rewrite (split_odd lst O) in C.
      assert (IO : In lst (match es with [] => [[]] | _ :: _ => es ++ (if tail then [[]] else []) end)) by (rewrite C; rewrite !in_app_iff; cbn; tauto).
      destruct es as [|x0 es]; [destruct IO as [<-|[]]; reflexivity|]. destruct O as [->|O]; [reflexivity|].
      apply in_app_iff in IO as [IO|IO].
      - rewrite Forall_forall in F. apply F in IO as (_ & A & B & _). destruct O as [->| ->]; contradiction.
      - destruct tail; [destruct IO as [<-|[]]; reflexivity|destruct IO]. }
    exists init, (match init with [] => false | _ => true end). split; [exact Pi|]. destruct init as [|i0 init]; [split; [discriminate|reflexivity]|].
    split; [discriminate|]. f_equal. clear. revert i0. induction init as [|i1 init IH]; intro i0; [reflexivity|].
    change ((i0 :: i1 :: init) ++ [[]]) with (i0 :: ((i1 :: init) ++ [[]])). rewrite join_cons by (destruct init; discriminate). rewrite IH.
    rewrite (join_cons slash i0 (i1 :: init)) by discriminate. rewrite <- app_assoc. reflexivity.
  - exists (init ++ [lst]), false. split; [|split; [discriminate|rewrite app_nil_r; reflexivity]].
    apply Forall_app. split; [exact Pi|]. constructor; [|constructor]. apply Forall_app in Sl as [_ Sl]. apply Forall_cons_iff in Sl as [Sl _].
    unfold odd in O. unfold plain. tauto.
Qed.
Lemma escape_tidy p : has_prefix p [slash] = true -> tidy p -> exists es tail, Forall plain es /\ (tail = true -> es <> []) /\ escape_path p = slash :: join slash es ++ (if tail : bool then [slash] else []).
Proof.
  intros P T. apply (raw_tidy (escape_path p) p); [|rewrite unescape_decode; apply escape_decode|exact T].
  apply has_prefix_slash in P as (q & ->). reflexivity.
Qed.

(** ** The URL *)
Lemma valid_question c : valid_char c = true -> c <> question /\ c <> backslash /\ c <> "#"%char /\ (N_of_ascii c < 128)%N.
Proof. destruct c as [[] [] [] [] [] [] [] []]; vm_compute; intro H; try discriminate H; repeat split; discriminate. Qed.
Lemma escape_valid p c : In c (escape_path p) -> valid_char c = true.
Proof.
  unfold escape_path. intro H. apply in_concat in H as (l & I & J). apply in_map_iff in I as (x & <- & _).
  match type of J with In c ?l => assert (A : forallb valid_char l = true) by (clear; destruct x as [[] [] [] [] [] [] [] []]; reflexivity) end.
  rewrite forallb_forall in A. apply A. exact J.
Qed.
Lemma escaped_valid u c : In c (escaped_path u) -> valid_char c = true.
Proof.
  unfold escaped_path. destruct (_ && _ && _) eqn:E; [|apply escape_valid].
  apply andb_true_iff in E as [E _]. apply andb_true_iff in E as [_ E]. rewrite forallb_forall in E. apply E.
Qed.
Lemma escaped_decodes u : unescape (escaped_path u) = Some (u_path u).
Proof.
  unfold escaped_path. destruct (_ && _ && _) eqn:E.
  - apply andb_true_iff in E as [_ E]. destruct (unescape (u_raw u)); [|discriminate]. apply str_eqb_spec in E as ->. reflexivity.
  - rewrite unescape_decode. apply escape_decode.
Qed.
Lemma parse_rooted t u : parse_target t = Some u -> has_prefix (u_path u) [slash] = true /\ has_prefix (escaped_path u) [slash] = true.
Proof.
  unfold parse_target. destruct (has_prefix t [slash]) eqn:P; [|discriminate]. cbn [negb orb]. destruct (existsb ctl t); [discriminate|].
  apply has_prefix_slash in P as (t' & ->). cbn [cut]. change (Ascii.eqb slash question) with false. cbv iota.
  destruct (cut question t') as [[p q] f]. cbv iota. destruct (unescape (slash :: p)) as [d|] eqn:U; [|discriminate].
  pose proof (unescape_slash _ _ U) as (y & _ & ->). intro H. injection H as <-. split; [reflexivity|].
  unfold escaped_path. cbn [u_raw u_path]. match goal with |- context [if ?b then [] else slash :: p] => destruct b end; [reflexivity|].
  match goal with |- has_prefix (if ?x then _ else _) _ = true => destruct x end; reflexivity.
Qed.
Lemma hex_escape_ascii s : ascii_only s -> hex_escape s = s.
Proof.
  unfold hex_escape. induction s as [|c s IH]; intro A; [reflexivity|]. cbn [map List.concat]. rewrite IH by (intros x I; apply A; right; exact I).
  assert (L := A c (or_introl eq_refl)). apply N.ltb_lt in L. cbv zeta. rewrite L. reflexivity.
Qed.
Lemma hex_escape_app a b : hex_escape (a ++ b) = hex_escape a ++ hex_escape b.
Proof. unfold hex_escape. rewrite map_app, concat_app. reflexivity. Qed.
Lemma escaped_ascii u : ascii_only (escaped_path u).
Proof. intros c I. apply escaped_valid in I. apply valid_question in I. tauto. Qed.
Lemma no_question u : ~ In question (escaped_path u).
Proof. intro I. apply escaped_valid in I. apply valid_question in I. tauto. Qed.
Lemma cut_url u : cut question (url_string u) = (escaped_path u, u_query u, u_force u || negb (str_eqb (u_query u) [])) \/
  (cut question (url_string u) = (escaped_path u, [], false) /\ u_query u = [] /\ u_force u = false).
Proof.
  unfold url_string. destruct (u_force u || negb (str_eqb (u_query u) [])) eqn:E.
  - left. rewrite cut_no_char by apply no_question. reflexivity.
  - right. rewrite app_nil_r, cut_none by apply no_question. apply orb_false_iff in E as [E1 E2]. apply negb_false_iff, str_eqb_spec in E2. auto.
Qed.

(** The cleaned form. *)
Definition cleaned (s : str) : str :=
  let p1 := path_clean s in if has_suffix s [slash] && negb (has_suffix p1 [slash]) then p1 ++ [slash] else p1.
Lemma location_form parsed u : redirect_location parsed (url_string u) =
  (if parsed && str_eqb (host_of_ref (url_string u)) [] then cleaned (escaped_path u) else escaped_path u) ++
  hex_escape (if u_force u || negb (str_eqb (u_query u) []) then question :: u_query u else []) \/
  (parsed && str_eqb (host_of_ref (url_string u)) [] = true /\ redirect_location parsed (url_string u) =
   hex_escape (cleaned (escaped_path u)) ++ hex_escape (if u_force u || negb (str_eqb (u_query u) []) then question :: u_query u else [])).
Proof.
  unfold redirect_location. destruct (parsed && _) eqn:E.
  - right. split; [reflexivity|]. destruct (cut_url u) as [C|(C & Q & F)]; rewrite C; cbv iota zeta.
    + rewrite hex_escape_app. reflexivity.
    + rewrite Q, F. cbn [str_eqb negb orb]. rewrite hex_escape_app. reflexivity.
  - left. unfold url_string. rewrite hex_escape_app, (hex_escape_ascii (escaped_path u)) by apply escaped_ascii. reflexivity.
Qed.
Lemma in_join c l : In c (join slash l) -> c = slash \/ exists e, In e l /\ In c e.
Proof.
  induction l as [|x l IH]; [intros []|]. destruct l as [|y l]; [cbn; eauto|]. rewrite join_cons by discriminate. rewrite in_app_iff. cbn [In].
  intros [H|[H|H]]; [right; exists x; cbn; auto|auto|]. destruct (IH H) as [->|(e & I & J)]; [auto|]. right. exists e. cbn. auto.
Qed.
Lemma in_elements e p : In e (elements true p) -> In e (split_on slash p).
Proof.
  unfold elements. rewrite <- in_rev. assert (G : forall l st, In e (fold_left (resolve true) l st) -> In e st \/ In e l).
  { induction l as [|x l IH]; intros st H; [auto|]. cbn [fold_left] in H. apply IH in H as [H|H]; [|cbn; auto].
    unfold resolve in H. destruct (_ || _); [auto|]. destruct (str_eqb x _).
    - destruct st as [|t r]; [destruct H|]. destruct (str_eqb t _); [destruct H as [<-|H]; cbn; auto|]. cbn; auto.
    - destruct H as [<-|H]; cbn; auto. }
  intro H. apply G in H as [[]|H]. exact H.
Qed.
Lemma in_split_on e p c : In e (split_on slash p) -> In c e -> In c p.
Proof.
  intros I J. rewrite <- (join_split slash p). revert I. generalize (split_on slash p). intros l I. induction l as [|x l IH]; [destruct I|].
  destruct l as [|y l]; [destruct I as [->|[]]; exact J|]. rewrite join_cons by discriminate. rewrite in_app_iff. destruct I as [->|I]; [auto|]. right. right. apply IH. exact I.
Qed.
(** A cleaned path has only characters of the path, and never starts with two slashes. *)
Lemma cleaned_shape r : (forall c, In c (slash :: r) -> valid_char c = true) -> exists s, cleaned (slash :: r) = slash :: s /\ (forall c, In c s -> valid_char c = true) /\ (forall x, s <> slash :: x).
Proof.
  intro V. unfold cleaned. cbv zeta. rewrite path_clean_rooted. assert (P := elements_plain r).
  assert (Ch : forall c, In c (join slash (elements true r)) -> valid_char c = true).
  { intros c I. apply in_join in I as [->|(e & I & J)]; [reflexivity|]. apply V. right. apply (in_split_on e r); [apply in_elements; exact I|exact J]. }
  assert (Hd : forall x, join slash (elements true r) <> slash :: x).
  { intros x H. destruct (elements true r) as [|e es]; [discriminate|]. apply Forall_cons_iff in P as [(A & _ & _ & B) _].
    destruct e as [|c e]; [contradiction|]. assert (c = slash) by (destruct es; [cbn in H|rewrite join_cons in H by discriminate]; injection H; auto).
    apply B. left. assumption. }
  destruct (has_suffix (slash :: r) [slash] && negb (has_suffix (slash :: join slash (elements true r)) [slash])) eqn:E.
  - exists (join slash (elements true r) ++ [slash]). split; [reflexivity|]. split.
    + intros c I. apply in_app_iff in I as [I|[<-|[]]]; [auto|reflexivity].
    + intros x H. destruct (join slash (elements true r)) as [|c s] eqn:J.
      * apply andb_true_iff in E as [_ E]. discriminate E.
      * cbn [app] in H. injection H as -> _. apply (Hd s). reflexivity.
  - exists (join slash (elements true r)). auto.
Qed.
Lemma cleaned_tidy es tail : Forall plain es -> (tail = true -> es <> []) ->
  cleaned (slash :: join slash es ++ (if tail : bool then [slash] else [])) = slash :: join slash es ++ (if tail then [slash] else []).
Proof. apply clean_render. Qed.

Lemma query_start u : exists x, hex_escape (if u_force u || negb (str_eqb (u_query u) []) then question :: u_query u else []) = x /\ (x = [] \/ exists y, x = question :: y).
Proof.
  eexists. split; [reflexivity|]. destruct (_ || _); [|left; reflexivity]. right. exists (hex_escape (u_query u)).
  change (question :: u_query u) with ([question] ++ u_query u). rewrite hex_escape_app. reflexivity.
Qed.
Lemma no_host_next host s x : (forall c, In c s -> valid_char c = true) -> (forall y, s <> slash :: y) -> x = [] \/ (exists y, x = question :: y) -> next_host host (slash :: s ++ x) = host.
Proof.
  intros V N X. unfold next_host. destruct s as [|c s]; cbn [app].
  - destruct X as [->|(y & ->)]; reflexivity.
  - assert (any_slash c = false); [|rewrite H, andb_false_r; reflexivity]. unfold any_slash. apply orb_false_iff. split; apply Ascii.eqb_neq.
    + intros ->. apply (N s). reflexivity.
    + specialize (V c (or_introl eq_refl)). apply valid_question in V. tauto.
Qed.
Lemma same_host parsed u host : has_prefix (escaped_path u) [slash] = true -> has_prefix (u_path u) (lit "//") = false ->
  next_host host (redirect_location parsed (url_string u)) = host.
Proof.
  intros P N. destruct (query_start u) as (x & Ex & Sx). apply has_prefix_slash in P as (r & P).
  assert (V := escaped_valid u). assert (D := escaped_decodes u). rewrite P in V, D.
  assert (Nr : forall y, r <> slash :: y).
  { intros y ->. apply unescape_slash in D as (d & D & E). apply unescape_slash in D as (d' & D & ->). rewrite E in N. discriminate N. }
  destruct (location_form parsed u) as [L|[_ L]]; rewrite L, Ex, P.
  - destruct (parsed && _).
    + destruct (cleaned_shape r V) as (s & -> & Vs & Ns). apply no_host_next; assumption.
    + apply no_host_next; [intros c I; apply V; right; exact I|exact Nr|exact Sx].
  - destruct (cleaned_shape r V) as (s & -> & Vs & Ns). rewrite hex_escape_ascii.
    + apply no_host_next; assumption.
    + intros c [<-|I]; [reflexivity|]. apply Vs in I. apply valid_question in I. tauto.
Qed.

Lemma same_page parsed u : has_prefix (escaped_path u) [slash] = true -> has_prefix (u_path u) [slash] = true -> tidy (u_path u) -> ascii_only (u_query u) ->
  page (redirect_location parsed (url_string u)) = Some (u_path u, u_query u).
Proof.
  intros P P2 T A.
  assert (C : cleaned (escaped_path u) = escaped_path u).
  { destruct (raw_tidy _ _ P (escaped_decodes u) T) as (es & tail & F & N & E). rewrite E. apply cleaned_tidy; assumption. }
  assert (L : redirect_location parsed (url_string u) = url_string u).
  { assert (Q : hex_escape (if u_force u || negb (str_eqb (u_query u) []) then question :: u_query u else []) = if u_force u || negb (str_eqb (u_query u) []) then question :: u_query u else []).
    { apply hex_escape_ascii. intros c I. destruct (_ || _); [|destruct I]. destruct I as [<-|I]; [reflexivity|]. apply A. exact I. }
    destruct (location_form parsed u) as [L|[_ L]]; rewrite L, Q, C; [destruct (_ && _); reflexivity|]. rewrite hex_escape_ascii by apply escaped_ascii. reflexivity. }
  rewrite L. unfold page. destruct (cut_url u) as [E|(E & -> & _)]; rewrite E; rewrite <- unescape_decode, escaped_decodes; reflexivity.
Qed.
