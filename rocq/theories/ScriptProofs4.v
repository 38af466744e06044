(** Lemmas about ScriptModel: the reader reads the texts of RFC 8259, and nothing else. *)
From Coq Require Import Lia ZArith.
From Verif Require Import Base XfccModel OcspGetModel PasskeyModel PasskeyHttpModel ScriptModel ScriptSpec ScriptProofs.
Open Scope list_scope.
Open Scope N_scope.

(** ** Characters *)

Lemma white_spec : forall c, white c = true <-> In (N_of_ascii c) [32; 9; 10; 13].
Proof.
  intro c. unfold white. rewrite !orb_true_iff, !N.eqb_eq. cbn [In]. intuition congruence.
Qed.
Lemma blank_skip : forall w s, blank w -> skip (w ++ s) = skip s.
Proof. intros w s B. induction B as [|c w H B IH]; [reflexivity|]. cbn. apply white_spec in H. rewrite H. exact IH. Qed.
Lemma skip_blank : forall s, exists w, s = w ++ skip s /\ blank w.
Proof.
  induction s as [|c s (w & E & B)]; [exists []; split; [reflexivity|constructor]|]. cbn. destruct (white c) eqn:H.
  - exists (c :: w). split; [cbn; congruence|]. constructor; [apply white_spec; exact H|exact B].
  - exists []. split; [reflexivity|constructor].
Qed.
Lemma skip_head : forall s c r, skip s = c :: r -> white c = false.
Proof. induction s as [|d s IH]; intros c r H; [discriminate|]. cbn in H. destruct (white d) eqn:W; [eauto|]. injection H as -> ->. exact W. Qed.
Lemma skip_skip : forall s, skip (skip s) = skip s.
Proof. induction s as [|c s IH]; [reflexivity|]. cbn. destruct (white c) eqn:W; [exact IH|]. cbn. rewrite W. reflexivity. Qed.

Lemma hex_named_val : forall c n, hex_named c n -> hex_val c = Some (N.of_nat n).
Proof.
  intros c n [H|H]; do 16 (destruct n as [|n]; [injection H as <-; reflexivity|]); destruct n; discriminate H.
Qed.
Lemma hex_val_named : forall c n, hex_val c = Some n -> hex_named c (N.to_nat n).
Proof.
  intros [[] [] [] [] [] [] [] []] n H; cbn in H; try discriminate H; injection H as <-; (left; reflexivity) || (right; reflexivity).
Qed.
Lemma hex_val_small : forall c n, hex_val c = Some n -> n < 16.
Proof. intros [[] [] [] [] [] [] [] []] n H; cbn in H; try discriminate H; injection H as <-; lia. Qed.

Lemma hex4_code : forall a b c d n, hex4 a b c d = Some n <-> code [a; b; c; d] n.
Proof.
  intros a b c d n. unfold hex4. split.
  - destruct (hex_val a) as [w|] eqn:A; [|discriminate]. destruct (hex_val b) as [x|] eqn:B; [|discriminate].
    destruct (hex_val c) as [y|] eqn:C; [|discriminate]. destruct (hex_val d) as [z|] eqn:D; [|discriminate]. intro H. injection H as <-.
    exists a, b, c, d, (N.to_nat w), (N.to_nat x), (N.to_nat y), (N.to_nat z). split; [reflexivity|].
    repeat (split; [apply hex_val_named; assumption|]). rewrite !N2Nat.id. ring.
  - intros (a' & b' & c' & d' & w & x & y & z & E & A & B & C & D & ->). injection E as <- <- <- <-.
    rewrite (hex_named_val _ _ A), (hex_named_val _ _ B), (hex_named_val _ _ C), (hex_named_val _ _ D). f_equal. ring.
Qed.
Lemma hex4_small : forall a b c d n, hex4 a b c d = Some n -> n < 65536.
Proof.
  intros a b c d n. unfold hex4.
  destruct (hex_val a) as [w|] eqn:A; [|discriminate]. destruct (hex_val b) as [x|] eqn:B; [|discriminate].
  destruct (hex_val c) as [y|] eqn:C; [|discriminate]. destruct (hex_val d) as [z|] eqn:D; [|discriminate]. intro H. injection H as <-.
  apply hex_val_small in A, B, C, D. lia.
Qed.
Lemma code_four : forall s n, code s n -> exists a b c d, s = [a; b; c; d] /\ hex4 a b c d = Some n.
Proof. intros s n H. pose proof H as (a & b & c & d & _ & _ & _ & _ & -> & _). exists a, b, c, d. split; [reflexivity|]. apply hex4_code. exact H. Qed.

Lemma asc : forall n, n < 256 -> N_of_ascii (ascii_of_N n) = n.
Proof. exact N_ascii_embedding. Qed.
Lemma unasc : forall c n, N_of_ascii c = n -> c = ascii_of_N n.
Proof. intros c n <-. symmetry. apply ascii_N_embedding. Qed.

Ltac divs := repeat match goal with |- context [?a / ?b] => pose proof (N.div_mod a b ltac:(lia)); pose proof (N.mod_lt a b ltac:(lia)); generalize dependent (a / b); intros
                               | |- context [?a mod ?b] => pose proof (N.div_mod a b ltac:(lia)); pose proof (N.mod_lt a b ltac:(lia)); generalize dependent (a mod b); intros end.

Ltac Zify.zify_post_hook ::= Z.div_mod_to_equations.

Lemma utf8_ok : forall n, n < 1114112 -> utf8_text n (utf8 n).
Proof.
  intros n L. unfold utf8_text, utf8.
  destruct (n <? 128) eqn:A; [apply N.ltb_lt in A; cbn [map]; rewrite asc by lia; auto|]. apply N.ltb_ge in A.
  destruct (n <? 2048) eqn:B; [apply N.ltb_lt in B; cbn [map]; rewrite !asc by lia; lia|]. apply N.ltb_ge in B.
  destruct (n <? 65536) eqn:C; [apply N.ltb_lt in C; cbn [map]; rewrite !asc by lia; lia|]. apply N.ltb_ge in C.
  cbn [map]. rewrite !asc by lia. lia.
Qed.
Lemma utf8_only : forall n s, utf8_text n s -> s = utf8 n.
Proof.
  intros n s H. unfold utf8_text in H. destruct s as [|a [|b [|c [|d [|e s]]]]]; cbn [map] in H; try destruct H.
  - rename H into A, H0 into B. unfold utf8. apply N.ltb_lt in B. rewrite B. rewrite (unasc a n A). reflexivity.
  - destruct H0 as (B & E & L). unfold utf8. replace (n <? 128) with false by (symmetry; apply N.ltb_ge; lia).
    replace (n <? 2048) with true by (symmetry; apply N.ltb_lt; lia). repeat f_equal; apply unasc; lia.
  - destruct H0 as (B & C & E & L). unfold utf8. replace (n <? 128) with false by (symmetry; apply N.ltb_ge; lia).
    replace (n <? 2048) with false by (symmetry; apply N.ltb_ge; lia). replace (n <? 65536) with true by (symmetry; apply N.ltb_lt; lia).
    repeat f_equal; apply unasc; lia.
  - destruct H0 as (B & C & D & E & L). unfold utf8. replace (n <? 128) with false by (symmetry; apply N.ltb_ge; lia).
    replace (n <? 2048) with false by (symmetry; apply N.ltb_ge; lia). replace (n <? 65536) with false by (symmetry; apply N.ltb_ge; lia).
    repeat f_equal; apply unasc; lia.
Qed.

(** ** Strings *)

Lemma high_spec : forall n, high n = true <-> first_half n.
Proof. intro n. unfold high, first_half. rewrite andb_true_iff, N.leb_le, N.ltb_lt. tauto. Qed.
Lemma low_spec : forall n, low n = true <-> second_half n.
Proof. intro n. unfold low, second_half. rewrite andb_true_iff, N.leb_le, N.ltb_lt. tauto. Qed.

Lemma unescaped_spec : forall x y, unescaped x = Some y <-> In (x, y) short_names.
Proof.
  intros x y. split.
  - destruct x as [[] [] [] [] [] [] [] []]; intro H; cbn in H; try discriminate H; injection H as <-; cbn; tauto.
  - cbn. intros H. repeat (destruct H as [H|H]; [injection H as <- <-; reflexivity|]). destruct H.
Qed.

(** The reader, one character or escape at a time. *)
Lemma read_code : forall a b d e r n, hex4 a b d e = Some n -> read_string (u_escape [a; b; d; e] ++ r) =
  let one k := match read_string r with Some (t, rest) => Some (utf8 k ++ t, rest) | None => None end in
  if high n then
    match r with
    | x1 :: x2 :: x3 :: x4 :: x5 :: x6 :: r3 =>
        match pair n x1 x2 x3 x4 x5 x6 with
        | Some k => match read_string r3 with Some (t, rest) => Some (utf8 k ++ t, rest) | None => None end
        | None => one 65533
        end
    | _ => one 65533
    end
  else one (if low n then 65533 else n).
Proof. intros a b d e r n H. cbn [app u_escape read_string]. change (Ascii.eqb backslash dquote) with false. rewrite Ascii.eqb_refl. change (Ascii.eqb "u" "u") with true. cbv iota. rewrite H. reflexivity. Qed.

Lemma pair_spec : forall n x1 x2 x3 x4 x5 x6 k, pair n x1 x2 x3 x4 x5 x6 = Some k <->
  exists m, x1 = backslash /\ x2 = "u"%char /\ hex4 x3 x4 x5 x6 = Some m /\ second_half m /\ k = (n - 55296) * 1024 + (m - 56320) + 65536.
Proof.
  intros. unfold pair. split.
  - destruct (Ascii.eqb x1 backslash) eqn:A; [|discriminate]. destruct (Ascii.eqb x2 "u") eqn:B; [|discriminate]. cbn [andb].
    apply Ascii.eqb_eq in A, B. destruct (hex4 x3 x4 x5 x6) as [m|] eqn:H; [|discriminate]. destruct (low m) eqn:L; [|discriminate].
    intro E. injection E as <-. exists m. apply low_spec in L. auto.
  - intros (m & -> & -> & -> & L & ->). rewrite !Ascii.eqb_refl. cbn [andb]. apply low_spec in L. rewrite L. reflexivity.
Qed.

Lemma string_sound : forall n s v rest, (List.length s <= n)%nat -> read_string s = Some (v, rest) -> exists t, s = t ++ dquote :: rest /\ string_text t v.
Proof.
  induction n as [|n IH]; intros s v rest L H; [destruct s; [discriminate H|cbn in L; lia]|].
  destruct s as [|c r]; [discriminate|]. cbn [List.length] in L.
  destruct (Ascii.eqb c dquote) eqn:Q.
  { cbn [read_string] in H. rewrite Q in H. injection H as <- <-. apply Ascii.eqb_eq in Q. subst c. exists []. split; [reflexivity|constructor]. }
  destruct (Ascii.eqb c backslash) eqn:B.
  - apply Ascii.eqb_eq in B. subst c. destruct r as [|x r1]; [discriminate|].
    destruct (Ascii.eqb x "u") eqn:U.
    + apply Ascii.eqb_eq in U. subst x. destruct r1 as [|a [|b [|d [|e r2]]]]; try discriminate.
      destruct (hex4 a b d e) as [m|] eqn:X; [|cbn [read_string] in H; change (Ascii.eqb backslash dquote) with false in H; rewrite Ascii.eqb_refl in H; change (Ascii.eqb "u" "u") with true in H; cbv iota in H; rewrite X in H; discriminate H].
      change (backslash :: "u"%char :: a :: b :: d :: e :: r2) with (u_escape [a; b; d; e] ++ r2) in *.
      rewrite (read_code a b d e r2 m X) in H. cbv zeta in H.
      pose proof (hex4_small _ _ _ _ _ X) as Sm. apply hex4_code in X.
      assert (One : forall k, match read_string r2 with Some (t, rest) => Some (utf8 k ++ t, rest) | None => None end = Some (v, rest) ->
                exists t v', r2 = t ++ dquote :: rest /\ string_text t v' /\ v = utf8 k ++ v').
      { intros k E. destruct (read_string r2) as [[v' rest']|] eqn:R; [|discriminate]. injection E as <- <-.
        apply IH in R; [|cbn [List.length] in L; lia]. destruct R as (t & -> & T). exists t, v'. auto. }
      destruct (high m) eqn:Hi.
      * apply high_spec in Hi.
        assert (Half : ~ continues m r2 -> match read_string r2 with Some (t, rest) => Some (utf8 65533 ++ t, rest) | None => None end = Some (v, rest) ->
                exists t, u_escape [a; b; d; e] ++ r2 = t ++ dquote :: rest /\ string_text t v).
        { intros C E. destruct (One _ E) as (t & v' & -> & T & ->). exists (u_escape [a; b; d; e] ++ t). split; [rewrite <- app_assoc; reflexivity|].
          apply st_half with m; auto; [|apply utf8_ok; lia]. intros (F & s & k & r & -> & K). apply C. split; [exact F|]. exists s, k, (r ++ dquote :: rest). split; [rewrite <- app_assoc; reflexivity|exact K]. }
        assert (Short : (List.length r2 < 6)%nat -> ~ continues m r2).
        { intros S1 (_ & s & k & r & -> & K & _). apply code_four in K as (? & ? & ? & ? & -> & _). cbn in S1. lia. }
        destruct r2 as [|x1 [|x2 [|x3 [|x4 [|x5 [|x6 r3]]]]]]; try (apply Half; [apply Short; cbn; lia|exact H]).
        destruct (pair m x1 x2 x3 x4 x5 x6) as [k|] eqn:P.
        -- apply pair_spec in P as (m' & -> & -> & X' & Lo & ->). destruct (read_string r3) as [[v' rest']|] eqn:R; [|discriminate]. injection H as <- <-.
           apply IH in R; [|cbn [List.length] in L; lia]. destruct R as (t & -> & T). exists (u_escape [a; b; d; e] ++ u_escape [x3; x4; x5; x6] ++ t). split; [reflexivity|].
           apply hex4_code in X'. apply st_pair with m m'; auto. replace (65536 + (m - 55296) * 1024 + (m' - 56320)) with ((m - 55296) * 1024 + (m' - 56320) + 65536) by ring.
           apply utf8_ok. unfold first_half, second_half in *. lia.
        -- apply Half; [|exact H]. intros (F & s & k & r & E & K & Sec). apply code_four in K as (y3 & y4 & y5 & y6 & -> & K).
           cbn in E. injection E as -> -> -> -> -> -> ->. enough (pair m backslash "u" y3 y4 y5 y6 = Some ((m - 55296) * 1024 + (k - 56320) + 65536)) by congruence.
           apply pair_spec. exists k. auto.
      * destruct (One _ H) as (t & v' & -> & T & ->). exists (u_escape [a; b; d; e] ++ t). split; [rewrite <- app_assoc; reflexivity|].
        assert (F : ~ first_half m) by (intro F; apply high_spec in F; congruence).
        destruct (low m) eqn:Lo.
        -- apply low_spec in Lo. apply st_half with m; auto; [|apply utf8_ok; lia]. intros (F' & _). contradiction.
        -- apply st_code with m; auto; [intro Q2; apply low_spec in Q2; congruence|apply utf8_ok; lia].
    + cbn [read_string] in H. change (Ascii.eqb backslash dquote) with false in H. rewrite Ascii.eqb_refl, U in H. cbv iota in H.
      destruct (unescaped x) as [y|] eqn:E; [|discriminate]. destruct (read_string r1) as [[v' rest']|] eqn:R; [|discriminate]. injection H as <- <-.
      apply IH in R; [|cbn [List.length] in L; lia]. destruct R as (t & -> & T). exists (backslash :: x :: t). split; [reflexivity|].
      apply st_short; [apply unescaped_spec; exact E|exact T].
  - cbn [read_string] in H. rewrite Q, B in H. destruct (N_of_ascii c <? 32) eqn:C; [discriminate|].
    destruct (read_string r) as [[v' rest']|] eqn:R; [|discriminate]. injection H as <- <-.
    apply IH in R; [|lia]. destruct R as (t & -> & T). exists (c :: t). split; [reflexivity|].
    apply st_plain; [apply Ascii.eqb_neq; exact Q|apply Ascii.eqb_neq; exact B|apply N.ltb_ge; exact C|exact T].
Qed.

Lemma string_complete : forall t v, string_text t v -> forall rest, read_string (t ++ dquote :: rest) = Some (v, rest).
Proof.
  intros t v H. induction H as [|c t v Q B C H IH|x y t v E H IH|s n b t v X F G U H IH|s n s' m b t v X F X' G U H IH|s n b t v X F C U H IH]; intro rest.
  - reflexivity.
  - cbn [app read_string]. apply Ascii.eqb_neq in Q, B. apply N.ltb_ge in C. rewrite Q, B, C, IH. reflexivity.
  - cbn [app read_string]. change (Ascii.eqb backslash dquote) with false. rewrite Ascii.eqb_refl. cbv iota.
    apply unescaped_spec in E. replace (Ascii.eqb x "u") with false by (symmetry; apply Ascii.eqb_neq; intros ->; discriminate E).
    rewrite E, IH. reflexivity.
  - apply code_four in X as (a & b' & c & d & -> & X). rewrite <- app_assoc, (read_code _ _ _ _ _ n X). cbv zeta.
    replace (high n) with false by (symmetry; apply not_true_iff_false; rewrite high_spec; exact F).
    replace (low n) with false by (symmetry; apply not_true_iff_false; rewrite low_spec; exact G).
    rewrite IH. apply utf8_only in U. subst b. reflexivity.
  - apply code_four in X as (a & b' & c & d & -> & X). rewrite <- app_assoc, (read_code _ _ _ _ _ n X). cbv zeta.
    apply code_four in X' as (a2 & b2 & c2 & d2 & -> & X'). apply high_spec in F. rewrite F. cbn [app u_escape].
    replace (pair n backslash "u" a2 b2 c2 d2) with (Some ((n - 55296) * 1024 + (m - 56320) + 65536)) by (symmetry; apply pair_spec; exists m; auto).
    rewrite IH. apply utf8_only in U. subst b. replace (65536 + (n - 55296) * 1024 + (m - 56320)) with ((n - 55296) * 1024 + (m - 56320) + 65536) by ring. reflexivity.
  - apply code_four in X as (a & b' & c & d & -> & X). rewrite <- app_assoc, (read_code _ _ _ _ _ n X). cbv zeta.
    rewrite IH. apply utf8_only in U. subst b.
    destruct (high n) eqn:Hi.
    + apply high_spec in Hi.
      destruct (t ++ dquote :: rest) as [|x1 [|x2 [|x3 [|x4 [|x5 [|x6 r3]]]]]] eqn:E; try reflexivity.
      destruct (pair n x1 x2 x3 x4 x5 x6) as [k|] eqn:P; [exfalso|reflexivity]. apply pair_spec in P as (m & -> & -> & X' & G & _).
      apply C. split; [exact Hi|]. pose proof X' as X2. unfold hex4 in X2.
      destruct t as [|y1 t]; [discriminate E|]. cbn in E. injection E as -> E.
      destruct t as [|y2 t]; [discriminate E|]. cbn in E. injection E as -> E.
      destruct t as [|y3 t]; [cbn in E; injection E as <- _; discriminate X2|]. cbn in E. injection E as -> E.
      destruct t as [|y4 t]; [cbn in E; injection E as <- _; destruct (hex_val x3); discriminate X2|]. cbn in E. injection E as -> E.
      destruct t as [|y5 t]; [cbn in E; injection E as <- _; destruct (hex_val x3), (hex_val x4); discriminate X2|]. cbn in E. injection E as -> E.
      destruct t as [|y6 t]; [cbn in E; injection E as <- _; destruct (hex_val x3), (hex_val x4), (hex_val x5); discriminate X2|]. cbn in E. injection E as -> E.
      exists [x3; x4; x5; x6], m, t. split; [reflexivity|]. split; [apply hex4_code; exact X'|exact G].
    + destruct F as [F|F]; [apply high_spec in F; congruence|]. apply low_spec in F. rewrite F. reflexivity.
Qed.

(** ** Numbers *)

Lemma digit_spec : forall c, digit c = true <-> 48 <= N_of_ascii c <= 57.
Proof. intro c. unfold digit. rewrite andb_true_iff, !N.leb_le. tauto. Qed.
Lemma digits_spec : forall s, forallb digit s = true <-> digits s.
Proof. intro s. rewrite forallb_forall. unfold digits. rewrite Forall_forall. split; intros H c I; apply digit_spec, H, I. Qed.
Lemma drop_digits_spec : forall s, exists d, s = d ++ drop_digits s /\ digits d.
Proof.
  induction s as [|c s (d & E & D)]; [exists []; split; [reflexivity|constructor]|]. cbn. destruct (digit c) eqn:H.
  - exists (c :: d). split; [cbn; congruence|]. constructor; [apply digit_spec; exact H|exact D].
  - exists []. split; [reflexivity|constructor].
Qed.
Definition no_digit (s : str) : Prop := match s with c :: _ => digit c = false | [] => True end.
Lemma drop_digits_app : forall d s, digits d -> no_digit s -> drop_digits (d ++ s) = s.
Proof.
  intros d s D N. induction D as [|c d H D IH].
  - destruct s as [|c s]; [reflexivity|]. cbn in N |- *. rewrite N. reflexivity.
  - cbn. apply digit_spec in H. rewrite H. exact IH.
Qed.

Definition exp_text (s : str) : Prop := s = [] \/ exists e sg c r, s = e :: sg ++ c :: r /\ In e (lit "eE") /\ In sg [[]; lit "+"; lit "-"] /\ digits (c :: r).
Definition part_text (s : str) : Prop := s = [] \/ exists c r, s = "."%char :: c :: r /\ digits (c :: r).

Lemma exponent_spec : forall s, exponent s = true <-> exp_text s.
Proof.
  intro s. unfold exp_text. split.
  - destruct s as [|e r]; [left; reflexivity|]. intro H. right. cbn [exponent] in H. apply andb_true_iff in H as [E H].
    assert (Ie : In e (lit "eE")). { apply orb_true_iff in E as [E|E]; apply Ascii.eqb_eq in E; subst e; cbn; auto. }
    destruct r as [|x r]; [discriminate H|].
    destruct (Ascii.eqb x "+" || Ascii.eqb x "-") eqn:P.
    + destruct r as [|c r]; [discriminate|]. apply digits_spec in H. exists e, [x], c, r. split; [reflexivity|]. split; [exact Ie|]. split; [|exact H].
      apply orb_true_iff in P as [P|P]; apply Ascii.eqb_eq in P; subst x; cbn; auto.
    + apply digits_spec in H. exists e, [], x, r. split; [reflexivity|]. split; [exact Ie|]. split; [left; reflexivity|exact H].
  - intros [ -> | (e & sg & c & r & -> & Ie & Is & D)]; [reflexivity|]. cbn [exponent]. apply andb_true_iff. split.
    + cbn in Ie. destruct Ie as [<-|[<-|[]]]; reflexivity.
    + apply digits_spec in D. cbn in Is. destruct Is as [<-|[<-|[<-|[]]]]; cbn [app lit list_ascii_of_string].
      * replace (Ascii.eqb c "+" || Ascii.eqb c "-") with false; [exact D|]. cbn in D. apply andb_true_iff in D as [D _].
        destruct c as [[] [] [] [] [] [] [] []]; try discriminate D; reflexivity.
      * exact D.
      * exact D.
Qed.
Lemma exp_no_digit : forall s, exp_text s -> no_digit s.
Proof. intros s [ -> |(e & sg & c & r & -> & Ie & _)]; [exact I|]. cbn in Ie |- *. destruct Ie as [<-|[<-|[]]]; reflexivity. Qed.

Lemma fraction_spec : forall s, fraction s = true <-> exists p e, s = p ++ e /\ part_text p /\ exp_text e.
Proof.
  intro s. split.
  - destruct s as [|c r]; [exists [], []; repeat split; left; reflexivity|]. cbn [fraction]. destruct (Ascii.eqb c ".") eqn:C.
    + destruct r as [|d r]; [discriminate|]. intro H. apply andb_true_iff in H as [D H]. apply Ascii.eqb_eq in C. subst c.
      destruct (drop_digits_spec r) as (ds & E & Ds). exists ("."%char :: d :: ds), (drop_digits r). split; [cbn; congruence|].
      split; [|apply exponent_spec; exact H]. right. exists d, ds. split; [reflexivity|]. constructor; [apply digit_spec; exact D|exact Ds].
    + intro H. exists [], (c :: r). split; [reflexivity|]. split; [left; reflexivity|]. apply exponent_spec. exact H.
  - intros (p & e & -> & [ -> |(c & r & -> & D)] & E).
    + cbn [app]. pose proof (proj2 (exponent_spec e) E) as X. destruct e as [|c r]; [reflexivity|]. cbn [fraction].
      destruct (Ascii.eqb c ".") eqn:C; [|exact X]. apply Ascii.eqb_eq in C. subst c. cbn in X. discriminate X.
    + cbn [app fraction]. change (Ascii.eqb "." ".") with true. cbv iota. inversion D as [|? ? D1 D2]; subst. apply digit_spec in D1. rewrite D1. cbn [andb].
      rewrite drop_digits_app; [apply exponent_spec; exact E|exact D2|apply exp_no_digit; exact E].
Qed.
Lemma fraction_no_digit : forall p e, part_text p -> exp_text e -> no_digit (p ++ e).
Proof. intros p e [ -> |(c & r & -> & _)] E; [apply exp_no_digit; exact E|reflexivity]. Qed.

Lemma number_spec : forall s, number s = true <-> number_text s.
Proof.
  intro s. unfold number_text. split.
  - intro H. unfold number in H.
    assert (S : exists sign s', s = sign ++ s' /\ (sign = [] \/ sign = lit "-") /\ match s' with c :: r => if Ascii.eqb c "0" then fraction r else digit c && fraction (drop_digits r) | [] => false end = true).
    { destruct s as [|c r]; [discriminate|]. destruct (Ascii.eqb c "-") eqn:C.
      - apply Ascii.eqb_eq in C. subst c. exists (lit "-"), r. auto.
      - exists [], (c :: r). auto. }
    destruct S as (sign & s' & -> & Sg & K). destruct s' as [|c r]; [discriminate|].
    destruct (Ascii.eqb c "0") eqn:C.
    + apply Ascii.eqb_eq in C. subst c. apply fraction_spec in K as (p & e & -> & P & E). exists sign, (lit "0"), p, e. auto 10.
    + apply andb_true_iff in K as [D K]. apply fraction_spec in K as (p & e & K & P & E). destruct (drop_digits_spec r) as (ds & Er & Ds).
      exists sign, (c :: ds), p, e. split; [rewrite Er, K; reflexivity|]. split; [exact Sg|]. split; [|auto]. right. exists c, ds. split; [reflexivity|]. split; [|exact Ds].
      destruct c as [[] [] [] [] [] [] [] []]; try discriminate D; try discriminate C; cbn; lia.
  - intros (sign & whole & p & e & -> & Sg & W & P & E). unfold number.
    assert (K : match whole ++ p ++ e with c :: r => if Ascii.eqb c "0" then fraction r else digit c && fraction (drop_digits r) | [] => false end = true).
    { destruct W as [ -> |(c & r & -> & C & D)].
      - cbn. apply fraction_spec. exists p, e. auto.
      - cbn [app]. replace (Ascii.eqb c "0") with false by (symmetry; apply Ascii.eqb_neq; intros ->; cbn in C; lia).
        replace (digit c) with true by (symmetry; apply digit_spec; lia). cbn [andb]. rewrite drop_digits_app; [|exact D|apply fraction_no_digit; assumption].
        apply fraction_spec. exists p, e. auto. }
    destruct Sg as [ -> | -> ].
    + cbn [app]. destruct W as [ -> |(c & r & -> & C & D)]; [exact K|]. cbn [app] in *.
      replace (Ascii.eqb c "-") with false by (symmetry; apply Ascii.eqb_neq; intros ->; cbn in C; lia). exact K.
    + exact K.
Qed.

Lemma digits_num : forall s, digits s -> forallb num_char s = true.
Proof. intros s D. apply forallb_forall. intros c I. unfold num_char. unfold digits in D. rewrite Forall_forall in D. specialize (D c I). apply digit_spec in D. rewrite D. reflexivity. Qed.
Lemma number_chars : forall s, number_text s -> forallb num_char s = true.
Proof.
  intros s (sign & whole & p & e & -> & Sg & W & P & E). rewrite !forallb_app. repeat (apply andb_true_iff; split).
  - destruct Sg as [ -> | -> ]; reflexivity.
  - destruct W as [ -> |(c & r & -> & C & D)]; [reflexivity|]. apply digits_num. constructor; [lia|exact D].
  - destruct P as [ -> |(c & r & -> & D)]; [reflexivity|]. apply digits_num in D. exact D.
  - destruct E as [ -> |(x & sg & c & r & -> & Ie & Is & D)]; [reflexivity|]. apply digits_num in D. cbn [forallb]. rewrite forallb_app, D.
    cbn in Ie, Is. destruct Ie as [<-|[<-|[]]]; destruct Is as [<-|[<-|[<-|[]]]]; reflexivity.
Qed.

Lemma take_number_spec : forall s n rest, take_number s = (n, rest) -> s = n ++ rest.
Proof.
  induction s as [|c s IH]; intros n rest H; [injection H as <- <-; reflexivity|]. cbn in H. destruct (num_char c).
  - destruct (take_number s) as [a b]. injection H as <- <-. cbn. f_equal. apply IH. reflexivity.
  - injection H as <- <-. reflexivity.
Qed.

(** ** Values *)

Lemma prefix_skip : forall s p, has_prefix s p = true -> s = p ++ skipn (List.length p) s.
Proof. intros s p H. apply has_prefix_spec in H as [t ->]. rewrite skipn_app, skipn_all, Nat.sub_diag. reflexivity. Qed.

Lemma value_sound : forall f,
  (forall s v rest, read_value f s = Some (v, rest) -> exists w t, s = w ++ t ++ rest /\ blank w /\ value_text t v) /\
  (forall s l rest, read_elements f s = Some (l, rest) -> exists t, s = t ++ "]"%char :: rest /\ elements_text t l) /\
  (forall s l rest, read_members f s = Some (l, rest) -> exists t, s = t ++ "}"%char :: rest /\ members_text t l).
Proof.
  induction f as [|f (IV & IE & IM)]; [repeat split; discriminate|]. split; [|split].
  - intros s v rest H. cbn [read_value] in H. destruct (skip_blank s) as (w & Es & Bw). destruct (skip s) as [|c r] eqn:Sk; [discriminate|].
    exists w. enough (exists t, c :: r = t ++ rest /\ value_text t v) as (t & E & T) by (exists t; rewrite <- E; auto).
    destruct (Ascii.eqb c dquote) eqn:Q.
    { apply Ascii.eqb_eq in Q. subst c. destruct (read_string r) as [[t rest']|] eqn:R; [|discriminate]. injection H as <- <-.
      apply (string_sound (List.length r)) in R as (q & -> & T); [|lia]. exists (dquote :: q ++ [dquote]). split; [cbn; rewrite <- app_assoc; reflexivity|]. constructor. exact T. }
    destruct (Ascii.eqb c "[") eqn:A.
    { apply Ascii.eqb_eq in A. subst c. destruct (skip_blank r) as (w' & Er & Bw'). destruct (skip r) as [|x r'] eqn:Sr; [discriminate|].
      destruct (Ascii.eqb x "]") eqn:X.
      - apply Ascii.eqb_eq in X. subst x. injection H as <- <-. exists ("["%char :: w' ++ lit "]"). split; [cbn; rewrite <- app_assoc; cbn; congruence|]. constructor. exact Bw'.
      - destruct (read_elements f (x :: r')) as [[l rest']|] eqn:R; [|discriminate]. injection H as <- <-. apply IE in R as (t & E & T).
        exists ("["%char :: (w' ++ t) ++ lit "]"). split; [cbn; rewrite Er, E, <- !app_assoc; reflexivity|]. constructor.
        destruct T as [w0 t v w1 B1 V B2|w0 t v0 v t' l B1 V B2 T]; rewrite app_assoc; constructor; auto; apply Forall_app; auto. }
    destruct (Ascii.eqb c "{") eqn:O.
    { apply Ascii.eqb_eq in O. subst c. destruct (skip_blank r) as (w' & Er & Bw'). destruct (skip r) as [|x r'] eqn:Sr; [discriminate|].
      destruct (Ascii.eqb x "}") eqn:X.
      - apply Ascii.eqb_eq in X. subst x. injection H as <- <-. exists ("{"%char :: w' ++ lit "}"). split; [cbn; rewrite <- app_assoc; cbn; congruence|]. constructor. exact Bw'.
      - destruct (read_members f (x :: r')) as [[l rest']|] eqn:R; [|discriminate]. injection H as <- <-. apply IM in R as (t & E & T).
        exists ("{"%char :: (w' ++ t) ++ lit "}"). split; [cbn; rewrite Er, E, <- !app_assoc; reflexivity|]. constructor.
        assert (Mem : forall t k v, member_text t k v -> member_text (w' ++ t) k v).
        { intros t0 k v [w0 q k0 w1 w2 t1 v0 w3 B0 Tq B1 B2 V B3]. rewrite app_assoc. constructor; auto. apply Forall_app; auto. }
        destruct T as [k v t M|k v t t' l M T]; [constructor; auto|]. rewrite app_assoc. constructor; auto. }
    destruct (has_prefix (c :: r) (lit "null")) eqn:N; [injection H as <- <-; apply prefix_skip in N; exists (lit "null"); split; [exact N|constructor]|].
    destruct (has_prefix (c :: r) (lit "true")) eqn:T; [injection H as <- <-; apply prefix_skip in T; exists (lit "true"); split; [exact T|constructor]|].
    destruct (has_prefix (c :: r) (lit "false")) eqn:F; [injection H as <- <-; apply prefix_skip in F; exists (lit "false"); split; [exact F|constructor]|].
    destruct (take_number (c :: r)) as [n rest'] eqn:K. destruct (number n) eqn:Nn; [|discriminate]. injection H as <- <-.
    exists n. split; [apply take_number_spec; exact K|]. constructor. apply number_spec. exact Nn.
  - intros s l rest H. cbn [read_elements] in H. destruct (read_value f s) as [[v r1]|] eqn:R; [|discriminate]. apply IV in R as (w & t & -> & Bw & V).
    destruct (skip_blank r1) as (w' & Er & Bw'). destruct (skip r1) as [|c r] eqn:Sk; [discriminate|]. rewrite Er.
    destruct (Ascii.eqb c "]") eqn:C.
    + apply Ascii.eqb_eq in C. subst c. injection H as <- <-. exists (w ++ t ++ w'). split; [rewrite <- !app_assoc; reflexivity|]. constructor; auto.
    + destruct (Ascii.eqb c ",") eqn:D; [|discriminate]. apply Ascii.eqb_eq in D. subst c.
      destruct (read_elements f r) as [[l' rest']|] eqn:R; [|discriminate]. injection H as <- <-. apply IE in R as (t' & -> & T).
      exists (w ++ t ++ w' ++ ","%char :: t'). split; [rewrite <- !app_assoc; reflexivity|]. constructor; auto.
  - intros s l rest H. cbn [read_members] in H. destruct (skip_blank s) as (w & Es & Bw). destruct (skip s) as [|q r0] eqn:Sk; [discriminate|].
    destruct (Ascii.eqb q dquote) eqn:Q; [|discriminate]. apply Ascii.eqb_eq in Q. subst q. cbn [negb] in H.
    destruct (read_string r0) as [[k r1]|] eqn:R; [|discriminate]. apply (string_sound (List.length r0)) in R as (qt & -> & Tq); [|lia].
    destruct (skip_blank r1) as (w1 & E1 & B1). destruct (skip r1) as [|co r2] eqn:S1; [discriminate|].
    destruct (Ascii.eqb co ":") eqn:Co; [|discriminate]. apply Ascii.eqb_eq in Co. subst co. cbn [negb] in H.
    destruct (read_value f r2) as [[v r3]|] eqn:R; [|discriminate]. apply IV in R as (w2 & t & -> & B2 & V).
    destruct (skip_blank r3) as (w3 & E3 & B3). destruct (skip r3) as [|c r] eqn:S3; [discriminate|].
    assert (M : member_text (w ++ dquote :: qt ++ dquote :: w1 ++ ":"%char :: w2 ++ t ++ w3) k v) by (constructor; auto).
    assert (Eq : s = (w ++ dquote :: qt ++ dquote :: w1 ++ ":"%char :: w2 ++ t ++ w3) ++ c :: r).
    { rewrite Es, E1, E3. repeat (rewrite <- ?app_assoc; cbn [app]). reflexivity. }
    rewrite Eq. clear Es E1 E3 Eq.
    destruct (Ascii.eqb c "}") eqn:C.
    + apply Ascii.eqb_eq in C. subst c. injection H as <- <-. eexists. split; [reflexivity|]. constructor. exact M.
    + destruct (Ascii.eqb c ",") eqn:D; [|discriminate]. apply Ascii.eqb_eq in D. subst c.
      destruct (read_members f r) as [[l' rest']|] eqn:R; [|discriminate]. injection H as <- <-. apply IM in R as (t' & -> & T).
      match type of M with member_text ?x _ _ => set (y := x) in *; exists (y ++ ","%char :: t') end. split; [rewrite <- app_assoc; reflexivity|].
      apply mt_more; [exact M|exact T].
Qed.

Lemma value_head : forall t v, value_text t v -> exists c r, t = c :: r /\ white c = false /\ Ascii.eqb c "]" = false.
Proof.
  intros t v H. destruct H; try (eexists; eexists; split; [reflexivity|split; reflexivity]).
  apply number_spec in H. destruct (number_head n H) as (c & r & -> & A & B & C & D & E & _). exists c, r. auto.
Qed.
Lemma read_value_skip : forall f s, read_value f (skip s) = read_value f s.
Proof. intros [|f] s; [reflexivity|]. cbn [read_value]. rewrite skip_skip. reflexivity. Qed.
Lemma read_elements_skip : forall f s, read_elements f (skip s) = read_elements f s.
Proof. intros [|f] s; [reflexivity|]. cbn [read_elements]. rewrite read_value_skip. reflexivity. Qed.
Lemma read_members_skip : forall f s, read_members f (skip s) = read_members f s.
Proof. intros [|f] s; [reflexivity|]. cbn [read_members]. rewrite skip_skip. reflexivity. Qed.
Lemma blank_stops : forall w c r, blank w -> num_char c = false -> stops (w ++ c :: r).
Proof.
  intros w c r B C. destruct B as [|d w D B]; [exact C|]. cbn. apply white_spec in D.
  destruct d as [[] [] [] [] [] [] [] []]; try discriminate D; reflexivity.
Qed.
Lemma blank_end : forall w, blank w -> stops w.
Proof. intros w B. destruct B as [|d w D B]; [exact I|]. cbn. apply white_spec in D. destruct d as [[] [] [] [] [] [] [] []]; try discriminate D; reflexivity. Qed.

Scheme value_ind := Minimality for value_text Sort Prop
  with elements_ind := Minimality for elements_text Sort Prop
  with members_ind := Minimality for members_text Sort Prop
  with member_ind := Minimality for member_text Sort Prop.
Combined Scheme text_ind from value_ind, elements_ind, members_ind, member_ind.

Lemma value_complete :
  (forall t v, value_text t v -> forall f w rest, (List.length t <= f)%nat -> blank w -> stops rest -> read_value f (w ++ t ++ rest) = Some (v, rest)) /\
  (forall t l, elements_text t l -> (forall s, exists c r, skip (t ++ s) = c :: r /\ Ascii.eqb c "]" = false) /\
     forall f rest, (List.length t < f)%nat -> read_elements f (t ++ "]"%char :: rest) = Some (l, rest)) /\
  (forall t l, members_text t l -> (forall s, exists r, skip (t ++ s) = dquote :: r) /\
     forall f rest, (List.length t < f)%nat -> read_members f (t ++ "}"%char :: rest) = Some (l, rest)) /\
  (forall t k v, member_text t k v -> (forall s, exists r, skip (t ++ s) = dquote :: r) /\
     forall f c r, (List.length t <= f)%nat -> num_char c = false -> white c = false -> read_members (S f) (t ++ c :: r) =
       if Ascii.eqb c "}" then Some ([(k, v)], r) else if Ascii.eqb c "," then match read_members f r with Some (l, rest') => Some ((k, v) :: l, rest') | None => None end else None).
Proof.
  apply text_ind.
  - intros f w rest L B _. destruct f as [|f]; [cbn in L; lia|]. cbn [read_value]. rewrite blank_skip by exact B. reflexivity.
  - intros f w rest L B _. destruct f as [|f]; [cbn in L; lia|]. cbn [read_value]. rewrite blank_skip by exact B. reflexivity.
  - intros f w rest L B _. destruct f as [|f]; [cbn in L; lia|]. cbn [read_value]. rewrite blank_skip by exact B. reflexivity.
  - intros n N f w rest L B St. rewrite <- read_value_skip, blank_skip, read_value_skip by exact B.
    pose proof (number_chars n N) as Ch. apply number_spec in N.
    pose proof (take_number_app n rest Ch St) as T. destruct (number_head _ N) as (c & r & -> & A & B' & C & D & E & G & H & I').
    destruct f as [|f]; [cbn in L; lia|]. cbn [read_value app] in *. cbn [skip]. rewrite A, B', C, D.
    change (lit "null") with ("n"%char :: lit "ull"). change (lit "true") with ("t"%char :: lit "rue"). change (lit "false") with ("f"%char :: lit "alse").
    rewrite !prefix_no by assumption. rewrite T, N. reflexivity.
  - intros t s T f w rest L B _. destruct f as [|f]; [cbn in L; lia|]. cbn [read_value]. rewrite blank_skip by exact B. cbn [app skip].
    change (white dquote) with false. cbv iota. rewrite Ascii.eqb_refl. rewrite <- app_assoc. cbn [app]. rewrite string_complete with (v := s) by exact T. reflexivity.
  - intros w0 B0 f w rest L B _. destruct f as [|f]; [cbn in L; lia|]. cbn [read_value]. rewrite blank_skip by exact B. cbn [app skip].
    change (white "[") with false. cbv iota. change (Ascii.eqb "[" dquote) with false. change (Ascii.eqb "[" "[") with true. cbv iota.
    rewrite <- app_assoc, blank_skip by exact B0. reflexivity.
  - intros t l _ [Hd IH] f w rest L B _. destruct f as [|f]; [cbn in L; lia|]. cbn [read_value]. rewrite blank_skip by exact B. cbn [app skip].
    change (white "[") with false. cbv iota. change (Ascii.eqb "[" dquote) with false. change (Ascii.eqb "[" "[") with true. cbv iota.
    rewrite <- app_assoc. change (lit "]" ++ rest) with ("]"%char :: rest). destruct (Hd ("]"%char :: rest)) as (c & r & E & N).
    assert (K : read_elements f (skip (t ++ "]"%char :: rest)) = Some (l, rest)).
    { rewrite read_elements_skip. apply IH. cbn [List.length] in L. rewrite app_length in L. cbn in L. lia. }
    rewrite E in K |- *. rewrite N, K. reflexivity.
  - intros w0 B0 f w rest L B _. destruct f as [|f]; [cbn in L; lia|]. cbn [read_value]. rewrite blank_skip by exact B. cbn [app skip].
    change (white "{") with false. cbv iota. change (Ascii.eqb "{" dquote) with false. change (Ascii.eqb "{" "[") with false. change (Ascii.eqb "{" "{") with true. cbv iota.
    rewrite <- app_assoc, blank_skip by exact B0. reflexivity.
  - intros t l _ [Hd IH] f w rest L B _. destruct f as [|f]; [cbn in L; lia|]. cbn [read_value]. rewrite blank_skip by exact B. cbn [app skip].
    change (white "{") with false. cbv iota. change (Ascii.eqb "{" dquote) with false. change (Ascii.eqb "{" "[") with false. change (Ascii.eqb "{" "{") with true. cbv iota.
    rewrite <- app_assoc. change (lit "}" ++ rest) with ("}"%char :: rest). destruct (Hd ("}"%char :: rest)) as (r & E).
    assert (K : read_members f (skip (t ++ "}"%char :: rest)) = Some (l, rest)).
    { rewrite read_members_skip. apply IH. cbn [List.length] in L. rewrite app_length in L. cbn in L. lia. }
    rewrite E in K |- *. change (Ascii.eqb dquote "}") with false. cbv iota. rewrite K. reflexivity.
  - intros w t w' v Bw V IV Bw'. split.
    + intro s. destruct (value_head t v V) as (c & r & -> & W & N). exists c. eexists. rewrite <- app_assoc, blank_skip by exact Bw. cbn. rewrite W. split; [reflexivity|exact N].
    + intros f rest L. destruct f as [|f]; [lia|]. cbn [read_elements]. rewrite <- !app_assoc.
      rewrite IV; [|rewrite !app_length in L; lia|exact Bw|apply blank_stops; [exact Bw'|reflexivity]].
      rewrite blank_skip by exact Bw'. reflexivity.
  - intros w t w' v t' l Bw V IV Bw' T [_ IH]. split.
    + intro s. destruct (value_head t v V) as (c & r & -> & W & N). exists c. eexists. rewrite <- app_assoc, blank_skip by exact Bw. cbn. rewrite W. split; [reflexivity|exact N].
    + intros f rest L. destruct f as [|f]; [lia|]. cbn [read_elements]. rewrite <- !app_assoc. cbn [app]. rewrite !app_length in L. cbn [List.length] in L.
      destruct (value_head t v V) as (c & r & Et & _). assert (1 <= List.length t)%nat by (subst t; cbn; lia).
      rewrite IV; [|lia|exact Bw|apply blank_stops; [exact Bw'|reflexivity]].
      rewrite blank_skip by exact Bw'. cbn [skip]. change (white ",") with false. change (Ascii.eqb "," "]") with false. change (Ascii.eqb "," ",") with true. cbv iota.
      rewrite IH by lia. reflexivity.
  - intros k v t M [Hd IH]. split; [exact Hd|]. intros f rest L. destruct f as [|f]; [lia|]. rewrite IH; [reflexivity|lia|reflexivity|reflexivity].
  - intros k v t t' l M [Hd IH] T [_ IT]. split.
    + intro s. destruct (Hd (","%char :: t' ++ s)) as (r & E). exists r. rewrite <- app_assoc. exact E.
    + intros f rest L. rewrite app_length in L. cbn [List.length] in L. destruct f as [|f]; [lia|]. rewrite <- app_assoc. cbn [app].
      rewrite IH; [|lia|reflexivity|reflexivity]. change (Ascii.eqb "," "}") with false. change (Ascii.eqb "," ",") with true. cbv iota.
      rewrite IT; [reflexivity|]. assert (1 <= List.length t)%nat by (destruct M; rewrite app_length; cbn; lia). lia.
  - intros w q k w' w2 t v w3 Bw Tq Bw' B2 V IV B3. split.
    + intro s. eexists. rewrite <- app_assoc, blank_skip by exact Bw. reflexivity.
    + intros f c r L Nc Wc. cbn [read_members]. rewrite <- app_assoc, blank_skip by exact Bw. cbn [app skip]. change (white dquote) with false. cbv iota.
      rewrite Ascii.eqb_refl. cbn [negb]. rewrite <- app_assoc. cbn [app]. rewrite string_complete with (v := k) by exact Tq.
      rewrite <- app_assoc, blank_skip by exact Bw'. cbn [app skip]. change (white ":") with false. cbv iota. change (Ascii.eqb ":" ":") with true. cbn [negb].
      rewrite <- !app_assoc. rewrite IV; [|repeat (rewrite !app_length in L; cbn [List.length] in L); lia|exact B2|apply blank_stops; [exact B3|exact Nc]].
      rewrite blank_skip by exact B3. cbn [skip]. rewrite Wc. reflexivity.
Qed.

Lemma parse_spec : forall s v, parse_json s = Some v <-> json_text s v.
Proof.
  intros s v. unfold parse_json, json_text. split.
  - destruct (read_value (S (List.length s)) s) as [[v' rest]|] eqn:R; [|discriminate]. apply value_sound in R as (w & t & E & B & V).
    destruct (skip_blank rest) as (w' & Er & B'). destruct (skip rest); [|discriminate]. intro H. injection H as <-. rewrite app_nil_r in Er. subst rest.
    exists w, t, w'. auto.
  - intros (w & t & w' & -> & B & V & B'). rewrite (proj1 value_complete t v V); [|rewrite !app_length; lia|exact B|apply blank_end; exact B'].
    pose proof (blank_skip w' [] B') as K. rewrite app_nil_r in K. rewrite K. reflexivity.
Qed.
