From Verif Require Import Base PathModel PathSpec.

(** * path.Clean, byte by byte, does what the element-wise description says *)

Fixpoint rr (rooted : bool) (st : list str) : str :=
  match st with
  | [] => if rooted then [slash] else []
  | e :: st' => rev e ++ match st' with [] => if rooted then [slash] else [] | _ => slash :: rr rooted st' end
  end.

Definition good (e : str) : Prop := e <> [] /\ ~ In slash e /\ e <> [dot].
Definition dd_ok (rooted : bool) (st : list str) (dd : nat) : Prop :=
  if rooted then dd = 1 /\ ~ In [dot; dot] st
  else exists st1 k, st = st1 ++ repeat [dot; dot] k /\ ~ In [dot; dot] st1 /\
                     dd = List.length (rr false (repeat [dot; dot] k)).

Lemma back_a dd l r : ~ In slash l -> dd <= List.length r -> back dd (l ++ slash :: r) = r.
Proof.
  intros Hl Hd. induction l as [|b l IH]; cbn [app back].
  - rewrite Ascii.eqb_refl. cbn. rewrite andb_false_r. reflexivity.
  - destruct (Ascii.eqb b slash) eqn:E; [apply Ascii.eqb_eq in E; exfalso; apply Hl; left; auto|].
    replace (dd <? List.length (l ++ slash :: r)) with true.
    + cbn. apply IH. intro; apply Hl; right; auto.
    + symmetry. apply Nat.ltb_lt. rewrite app_length. cbn. lia.
Qed.

Lemma back_b l r : ~ In slash l -> l <> [] -> back (List.length r) (l ++ r) = r.
Proof.
  intros Hl Hn. induction l as [|b l IH]; [congruence|]. cbn [app back].
  destruct l as [|b' l].
  - cbn [app]. rewrite Nat.ltb_irrefl. reflexivity.
  - destruct (Ascii.eqb b slash) eqn:E; [apply Ascii.eqb_eq in E; exfalso; apply Hl; left; auto|].
    replace (List.length r <? List.length ((b' :: l) ++ r)) with true.
    + cbn [negb andb]. apply IH; [intro; apply Hl; right; auto | discriminate].
    + symmetry. apply Nat.ltb_lt. rewrite app_length. cbn. lia.
Qed.

Lemma rr_app_len rooted a b : List.length (rr rooted b) <= List.length (rr rooted (a ++ b)).
Proof.
  induction a as [|e a IH]; cbn [app]; [lia|].
  cbn [rr]. destruct (a ++ b) eqn:E.
  - apply app_eq_nil in E as [-> ->]. rewrite app_length. cbn [rr]. lia.
  - rewrite app_length. cbn [List.length]. lia.
Qed.

Lemma rr_len_cons rooted e st : good e -> List.length (rr rooted st) < List.length (rr rooted (e :: st)).
Proof.
  intros (He & _ & _). destruct e as [|c e]; [congruence|].
  destruct st as [|x st].
  - cbn [rr]. rewrite app_length, rev_length. cbn [List.length]. lia.
  - change (rr rooted ((c :: e) :: x :: st)) with (rev (c :: e) ++ slash :: rr rooted (x :: st)).
    rewrite app_length, rev_length. cbn [List.length]. lia.
Qed.

Lemma rr_len_rooted st : Forall good st -> List.length (rr true st) = 1 <-> st = [].
Proof.
  intro H. split; [|intros ->; reflexivity].
  destruct st as [|e st]; [reflexivity|]. inversion H; subst.
  assert (G := rr_len_cons true e st H2). assert (G2 := rr_app_len true st []).
  rewrite app_nil_r in G2. cbn [rr List.length] in G2. lia.
Qed.
Lemma rr_len_unrooted st : Forall good st -> List.length (rr false st) = 0 <-> st = [].
Proof.
  intro H. split; [|intros ->; reflexivity].
  destruct st as [|e st]; [reflexivity|]. inversion H; subst.
  assert (G := rr_len_cons false e st H2). lia.
Qed.

Definition elem (p : str) : str := fst (fst (cut slash p)).
Fixpoint drop_elem (p : str) : str :=
  match p with [] => [] | c :: p' => if Ascii.eqb c slash then p else drop_elem p' end.

Lemma elem_cons c p : elem (c :: p) = if Ascii.eqb c slash then [] else c :: elem p.
Proof. unfold elem. cbn. destruct (Ascii.eqb c slash); [reflexivity|]. destruct (cut slash p) as [[a b] f]. reflexivity. Qed.

Lemma copy_elem_spec p out : copy_elem p out = (drop_elem p, rev (elem p) ++ out).
Proof.
  revert out; induction p as [|c p IH]; intro out; [reflexivity|].
  cbn [copy_elem drop_elem]. rewrite elem_cons. destruct (Ascii.eqb c slash); [reflexivity|].
  rewrite IH. cbn [rev]. rewrite <- app_assoc. reflexivity.
Qed.

Lemma drop_elem_len p : List.length (drop_elem p) <= List.length p.
Proof. induction p as [|c p IH]; cbn; [lia|]. destruct (Ascii.eqb c slash); cbn; lia. Qed.

Lemma elem_no_slash p : ~ In slash (elem p).
Proof.
  induction p as [|c p IH]; [cbn; tauto|]. rewrite elem_cons.
  destruct (Ascii.eqb c slash) eqn:E; [cbn; tauto|]. apply Ascii.eqb_neq in E.
  intros [H|H]; [congruence|tauto].
Qed.

Lemma split_elem p : split_on slash p = elem p :: tl (split_on slash p) /\
  (drop_elem p = [] /\ tl (split_on slash p) = [] \/ exists p', drop_elem p = slash :: p' /\ tl (split_on slash p) = split_on slash p').
Proof.
  induction p as [|c p IH].
  - cbn. auto.
  - cbn [split_on drop_elem]. rewrite elem_cons. destruct (Ascii.eqb c slash) eqn:E.
    + apply Ascii.eqb_eq in E. subst c. cbn. split; [reflexivity|]. right. exists p. auto.
    + destruct IH as [IH1 IH2]. destruct (split_on slash p) as [|h t]; [discriminate|].
      cbn in IH1 |- *. injection IH1 as <-. auto.
Qed.

Lemma fold_elem rooted p st : fold_left (resolve rooted) (split_on slash p) st =
  fold_left (resolve rooted) (split_on slash (drop_elem p)) (resolve rooted st (elem p)).
Proof.
  destruct (split_elem p) as [E [[E1 E2]|(p' & E1 & E2)]]; rewrite E, E1, E2; cbn [fold_left split_on].
  - unfold resolve at 2. reflexivity.
  - rewrite Ascii.eqb_refl. cbn [fold_left]. unfold resolve at 3. reflexivity.
Qed.

Lemma at_end_spec p : at_end p = true <-> elem p = [].
Proof.
  destruct p as [|c p]; [cbn; tauto|]. rewrite elem_cons. cbn.
  destruct (Ascii.eqb c slash); [tauto|]. split; discriminate.
Qed.
Lemma at_end_drop p : at_end p = true -> drop_elem p = p.
Proof. destruct p as [|c p]; [reflexivity|]. cbn. intros ->. reflexivity. Qed.

Lemma resolve_dotdot rooted st : Forall good st -> Forall good (resolve rooted st [dot; dot]).
Proof.
  intro H. unfold resolve. cbn [str_eqb lit list_ascii_of_string orb]. cbn.
  destruct st as [|t st]; [destruct rooted; constructor; auto|].
  - repeat split; try discriminate. cbn. intros [E|[E|[]]]; discriminate.
  - destruct (str_eqb t _).
    + constructor; auto. repeat split; try discriminate. cbn. intros [E|[E|[]]]; discriminate.
    + inversion H; auto.
Qed.

Lemma resolve_dd rooted st : resolve rooted st [dot; dot] =
  match st with
  | top :: rest => if str_eqb top [dot; dot] then [dot; dot] :: st else rest
  | [] => if rooted then [] else [[dot; dot]]
  end.
Proof. reflexivity. Qed.

Lemma clean_loop_spec rooted : forall f p st dd,
  List.length p <= f -> Forall good st -> dd_ok rooted st dd ->
  clean_loop f rooted p (rr rooted st) dd = rr rooted (fold_left (resolve rooted) (split_on slash p) st).
Proof.
  induction f as [|f IH]; intros p st dd Hf Hg Hd.
  { destruct p; [|cbn in Hf; lia]. reflexivity. }
  destruct p as [|c p1]; [reflexivity|].
  cbn [clean_loop]. cbn [List.length] in Hf.
  destruct (Ascii.eqb c slash) eqn:Ec.
  { cbn [split_on]. rewrite Ec. cbn [fold_left]. unfold resolve at 2. cbn [str_eqb orb].
    apply IH; auto; lia. }
  rewrite fold_elem, elem_cons, Ec.
  replace (drop_elem (c :: p1)) with (drop_elem p1) by (cbn; rewrite Ec; reflexivity).
  destruct (Ascii.eqb c dot && at_end p1) eqn:E1.
  { apply andb_prop in E1. destruct E1 as [Ecd E1]. apply Ascii.eqb_eq in Ecd.
    assert (E2 := E1). apply at_end_spec in E2. rewrite E2, (at_end_drop _ E1). subst c.
    unfold resolve at 2. cbn [str_eqb lit list_ascii_of_string].
    rewrite IH; auto; lia. }
  match goal with |- context [if ?b then _ else _] => destruct b eqn:E2 end.
  { apply andb_prop in E2. destruct E2 as [Ecd E2]. apply Ascii.eqb_eq in Ecd. subst c.
    destruct p1 as [|c2 p2]; [discriminate|]. apply andb_prop in E2. destruct E2 as [Ecd E2].
    apply Ascii.eqb_eq in Ecd. subst c2.
    assert (E3 := E2). apply at_end_spec in E3.
    replace (elem (dot :: p2)) with ([dot] : str) by (rewrite elem_cons, E3; reflexivity).
    replace (drop_elem (dot :: p2)) with p2 by (cbn; rewrite (at_end_drop _ E2); reflexivity).
    cbn [tl]. cbn [List.length] in Hf.
    assert (Hgd := resolve_dotdot rooted st Hg).
    assert (Hp2 : List.length p2 <= f) by lia.
    rewrite resolve_dd in *.
    destruct rooted; cbn [dd_ok negb] in Hd |- *.
    - destruct Hd as [-> Hd]. destruct st as [|e st].
      + apply (IH p2 [] 1); cbn; auto.
      + inversion Hg as [|? ? Hge Hgs]; subst.
        assert (Hlen := rr_len_cons true e st Hge). assert (Hl2 := rr_app_len true st []).
        rewrite app_nil_r in Hl2. cbn [rr List.length] in Hl2.
        replace (1 <? List.length (rr true (e :: st))) with true by (symmetry; apply Nat.ltb_lt; lia).
        replace (str_eqb e [dot; dot]) with false
          by (symmetry; apply str_eqb_neq; intros ->; apply Hd; left; reflexivity).
        assert (Hb : back 1 (rr true (e :: st)) = rr true st).
        { destruct Hge as (He1 & He2 & _). destruct st as [|x st]; cbn [rr].
          - apply (back_b (rev e) [slash]); [rewrite <- in_rev; auto|].
            intro E. apply He1. rewrite <- (rev_involutive e), E. reflexivity.
          - apply back_a; [rewrite <- in_rev; auto | exact Hl2]. }
        replace (str_eqb e [dot; dot]) with false in Hgd
          by (symmetry; apply str_eqb_neq; intros ->; apply Hd; left; reflexivity).
        rewrite Hb. apply IH; auto. cbn. split; auto. intro; apply Hd; right; auto.
    - destruct Hd as (st1 & k & -> & Hd1 & ->). destruct st1 as [|e st1]; cbn [app] in *.
      + rewrite Nat.ltb_irrefl.
        assert (Hst : match repeat [dot; dot] k with
                      | [] => [[dot; dot]]
                      | top :: rest => if str_eqb top [dot; dot] then [dot; dot] :: repeat [dot; dot] k else rest
                      end = repeat [dot; dot] (S k)) by (destruct k; reflexivity).
        rewrite Hst in *.
        assert (Hout : dot :: dot :: (if 0 <? List.length (rr false (repeat [dot; dot] k))
                        then slash :: rr false (repeat [dot; dot] k) else rr false (repeat [dot; dot] k)) =
                        rr false (repeat [dot; dot] (S k))).
        { destruct k; [reflexivity|]. reflexivity. }
        rewrite Hout. apply IH; auto. exists [], (S k). auto.
      + inversion Hg as [|? ? Hge Hgs]; subst. set (R := repeat [dot; dot] k) in *.
        assert (Hlen := rr_len_cons false e (st1 ++ R) Hge). assert (Hl2 := rr_app_len false st1 R).
        replace (List.length (rr false R) <? List.length (rr false (e :: st1 ++ R))) with true
          by (symmetry; apply Nat.ltb_lt; lia).
        assert (Hne : str_eqb e [dot; dot] = false)
          by (apply str_eqb_neq; intros ->; apply Hd1; left; reflexivity).
        rewrite Hne in *.
        assert (Hb : back (List.length (rr false R)) (rr false (e :: st1 ++ R)) = rr false (st1 ++ R)).
        { destruct Hge as (He1 & He2 & _). cbn [rr]. destruct (st1 ++ R) as [|x st] eqn:E.
          - apply app_eq_nil in E. destruct E as [_ ->]. cbn [rr List.length].
            apply (back_b (rev e) []); [rewrite <- in_rev; auto|].
            intro E. apply He1. rewrite <- (rev_involutive e), E. reflexivity.
          - apply back_a; [rewrite <- in_rev; auto | exact Hl2]. }
        rewrite Hb. apply IH; auto. exists st1, k. repeat split; auto. intro; apply Hd1; right; auto. }
  rewrite copy_elem_spec, elem_cons, Ec.
  replace (drop_elem (c :: p1)) with (drop_elem p1) by (cbn; rewrite Ec; reflexivity).
  assert (Hne : c :: elem p1 <> [dot]).
  { intro H. injection H as -> H. apply at_end_spec in H. rewrite H in E1. discriminate. }
  assert (Hne2 : c :: elem p1 <> [dot; dot]).
  { intro H. injection H as -> H. destruct p1 as [|c2 p2]; [discriminate|].
    rewrite elem_cons in H. destruct (Ascii.eqb c2 slash); [discriminate|]. injection H as -> H.
    apply at_end_spec in H. rewrite H in E2. discriminate. }
  assert (Hr : resolve rooted st (c :: elem p1) = (c :: elem p1) :: st).
  { unfold resolve. replace (str_eqb (c :: elem p1) (lit ".")) with false by (symmetry; apply str_eqb_neq; exact Hne).
    replace (str_eqb (c :: elem p1) (lit "..")) with false by (symmetry; apply str_eqb_neq; exact Hne2). reflexivity. }
  rewrite Hr.
  assert (Hge : good (c :: elem p1)).
  { repeat split; [discriminate | | exact Hne]. intros [H|H].
    - apply Ascii.eqb_neq in Ec. congruence.
    - exact (elem_no_slash p1 H). }
  assert (Hdl := drop_elem_len p1).
  assert (Hout : rev (c :: elem p1) ++ (if rooted && negb (List.length (rr rooted st) =? 1) ||
                    negb rooted && negb (List.length (rr rooted st) =? 0)
                    then slash :: rr rooted st else rr rooted st) = rr rooted ((c :: elem p1) :: st)).
  { cbn [rr]. f_equal. destruct rooted; cbn [andb orb negb].
    - destruct st as [|x st]; [reflexivity|].
      replace (List.length (rr true (x :: st)) =? 1) with false; [reflexivity|].
      symmetry. apply Nat.eqb_neq. intro H. apply rr_len_rooted in H; auto. discriminate.
    - destruct st as [|x st]; [reflexivity|].
      replace (List.length (rr false (x :: st)) =? 0) with false; [reflexivity|].
      symmetry. apply Nat.eqb_neq. intro H. apply rr_len_unrooted in H; auto. discriminate. }
  rewrite Hout. apply IH; auto; [lia|].
  destruct rooted; cbn [dd_ok] in *.
  - destruct Hd as [-> Hd]. split; auto. intros [H|H]; auto.
  - destruct Hd as (st1 & k & -> & Hd1 & ->). exists ((c :: elem p1) :: st1), k. repeat split; auto.
    intros [H|H]; auto.
Qed.

Lemma rev_rr rooted st : rev (rr rooted st) = (if rooted then [slash] else []) ++ join slash (rev st).
Proof.
  induction st as [|e st IH]; [destruct rooted; reflexivity|].
  cbn [rr]. destruct st as [|x st].
  - cbn [rev app]. rewrite rev_app_distr, rev_involutive. destruct rooted; reflexivity.
  - rewrite rev_app_distr, rev_involutive. cbn [rev] in IH |- *. rewrite IH.
    assert (G : forall l (y : str), l <> [] -> join slash (l ++ [y]) = join slash l ++ slash :: y).
    { induction l as [|z l IHl]; intros y Hl; [congruence|]. destruct l as [|z' l]; [reflexivity|].
      change (z ++ slash :: join slash ((z' :: l) ++ [y]) = (z ++ slash :: join slash (z' :: l)) ++ slash :: y).
      rewrite IHl by discriminate. rewrite <- app_assoc. reflexivity. }
    assert (E : join slash ((rev st ++ [x]) ++ [e]) = join slash (rev st ++ [x]) ++ slash :: e)
      by (apply G; destruct (rev st); discriminate).
    rewrite E, <- !app_assoc. reflexivity.
Qed.

Lemma resolve_good rooted st e : Forall good st -> ~ In slash e -> Forall good (resolve rooted st e).
Proof.
  intros Hg He. unfold resolve. destruct (str_eqb e []) eqn:E0; [exact Hg|].
  destruct (str_eqb e (lit ".")) eqn:E1; [exact Hg|]. cbn [orb].
  apply str_eqb_neq in E0, E1.
  assert (good e) by (repeat split; auto).
  destruct (str_eqb e (lit "..")).
  - destruct st as [|t st]; [destruct rooted; auto|]. inversion Hg; subst.
    destruct (str_eqb t (lit "..")); auto.
  - auto.
Qed.

Lemma resolve_no_dd st e : ~ In [dot; dot] st -> ~ In [dot; dot] (resolve true st e).
Proof.
  intros H. unfold resolve. destruct (str_eqb e [] || str_eqb e (lit ".")); [exact H|].
  destruct (str_eqb e (lit "..")) eqn:E.
  - destruct st as [|t st]; [exact H|].
    destruct (str_eqb t (lit "..")) eqn:Et.
    + apply str_eqb_spec in Et. subst t. exfalso. apply H. left. reflexivity.
    + intro; apply H; right; auto.
  - intros [Hx|Hx]; [|auto]. apply str_eqb_neq in E. apply E. exact Hx.
Qed.

Lemma fold_good rooted es : forall st, Forall good st -> Forall (fun e => ~ In slash e) es ->
  Forall good (fold_left (resolve rooted) es st).
Proof.
  induction es as [|e es IH]; intros st H1 H2; [exact H1|]. inversion H2; subst. cbn.
  apply IH; auto using resolve_good.
Qed.
Lemma fold_no_dd es : forall st, ~ In [dot; dot] st -> ~ In [dot; dot] (fold_left (resolve true) es st).
Proof. induction es as [|e es IH]; intros st H; [exact H|]. cbn. auto using resolve_no_dd. Qed.

Lemma elements_good rooted p : Forall good (elements rooted p).
Proof. unfold elements. apply Forall_rev. apply fold_good; [constructor | apply split_on_no_sep]. Qed.

Lemma elements_plain p : Forall plain (elements true p).
Proof.
  assert (H := elements_good true p).
  assert (H2 : ~ In [dot; dot] (elements true p)).
  { unfold elements. rewrite <- in_rev. apply fold_no_dd. cbn. tauto. }
  rewrite Forall_forall in *. intros e He. destruct (H e He) as (A & B & D).
  repeat split; auto. intros ->. auto.
Qed.

Lemma elements_slash rooted p : elements rooted (slash :: p) = elements rooted p.
Proof. reflexivity. Qed.

Lemma path_clean_rooted p : path_clean (slash :: p) = slash :: join slash (elements true p).
Proof.
  unfold path_clean. cbv zeta. rewrite Ascii.eqb_refl.
  change [slash] with (rr true []).
  rewrite (clean_loop_spec true (List.length (slash :: p)) p [] 1) by ((cbn; lia) || (cbn; tauto) || constructor).
  set (st := fold_left _ _ _).
  assert (E : rev (rr true st) = slash :: join slash (rev st)) by (rewrite rev_rr; reflexivity).
  destruct (rr true st) as [|c r]; [discriminate|exact E].
Qed.

Lemma path_clean_unrooted c p : c <> slash -> path_clean (c :: p) =
  match elements false (c :: p) with [] => [dot] | es => join slash es end.
Proof.
  intro Hc. unfold path_clean. cbv zeta. apply Ascii.eqb_neq in Hc. rewrite Hc.
  change (clean_loop (List.length (c :: p)) false (c :: p) []) with (clean_loop (List.length (c :: p)) false (c :: p) (rr false [])).
  rewrite (clean_loop_spec false (List.length (c :: p)) (c :: p) [] 0) by ((exists [], 0; cbn; tauto) || constructor).
  unfold elements.
  assert (Hg : Forall good (fold_left (resolve false) (split_on slash (c :: p)) []))
    by (apply fold_good; [constructor|apply split_on_no_sep]).
  set (st := fold_left _ _ _) in *.
  assert (E : rev (rr false st) = join slash (rev st)) by (rewrite rev_rr; reflexivity).
  assert (L := rr_len_unrooted st Hg).
  destruct (rr false st) as [|x r].
  - destruct L as [L _]. rewrite (L eq_refl). reflexivity.
  - destruct (rev st) as [|y l] eqn:Er.
    + destruct L as [_ L]. assert (st = []) by (rewrite <- (rev_involutive st), Er; reflexivity).
      specialize (L H). discriminate.
    + exact E.
Qed.

Lemma has_prefix_slash p : has_prefix p [slash] = true -> exists p', p = slash :: p'.
Proof. intro H. apply has_prefix_spec in H. destruct H as [t ->]. exists t. reflexivity. Qed.

Lemma join_good_nonnil es : es <> [] -> Forall good es -> join slash es <> [].
Proof.
  destruct es as [|e es]; [congruence|]. intros _ H. inversion H as [|? ? (He & _) _]; subst.
  destruct es; [exact He|]. cbn. destruct e; [congruence|discriminate].
Qed.

Lemma has_suffix_cons c p (Hp : p <> []) x : has_suffix (c :: p) [x] = has_suffix p [x].
Proof.
  unfold has_suffix. cbn [rev app]. destruct (rev p) as [|y l] eqn:E.
  - exfalso. apply Hp. rewrite <- (rev_involutive p), E. reflexivity.
  - reflexivity.
Qed.

Lemma pathClean_spec p : pathClean p = clean_request_path p.
Proof.
  unfold pathClean, clean_request_path. cbv zeta.
  assert (G : forall p', let q := slash :: p' in
    (if negb (str_eqb (if str_eqb (path_clean q) [dot] then [slash] else path_clean q) [slash]) && has_suffix q [slash]
     then (if str_eqb (path_clean q) [dot] then [slash] else path_clean q) ++ [slash]
     else (if str_eqb (path_clean q) [dot] then [slash] else path_clean q)) =
    match elements true q with
    | [] => [slash]
    | es => slash :: join slash es ++ (if has_suffix q [slash] then [slash] else [])
    end).
  { intros p' q. subst q. rewrite path_clean_rooted, elements_slash.
    assert (Hg := elements_good true p').
    destruct (elements true p') as [|e es] eqn:E; [reflexivity|].
    assert (Hn : join slash (e :: es) <> []) by (apply join_good_nonnil; [discriminate|exact Hg]).
    destruct (join slash (e :: es)) as [|c r] eqn:Ej; [congruence|].
    replace (str_eqb (slash :: c :: r) [dot]) with false by reflexivity. cbv iota.
    replace (str_eqb (slash :: c :: r) [slash]) with false by reflexivity. cbn [negb andb].
    destruct (has_suffix _ _); [reflexivity|]. rewrite app_nil_r. reflexivity. }
  destruct (has_prefix p [slash]) eqn:Hp.
  - apply has_prefix_slash in Hp. destruct Hp as [p' ->]. apply G.
  - rewrite (G p). rewrite elements_slash. destruct p as [|c p]; [reflexivity|].
    rewrite has_suffix_cons by discriminate. reflexivity.
Qed.

(** Resolving ordinary elements changes nothing. *)
Lemma resolve_plain rooted st e : plain e -> resolve rooted st e = e :: st.
Proof.
  intros (H1 & H2 & H3 & _). unfold resolve. apply str_eqb_neq in H1, H2, H3. rewrite H1, H2, H3. reflexivity.
Qed.
Lemma fold_plain rooted es : forall st, Forall plain es -> fold_left (resolve rooted) es st = rev es ++ st.
Proof.
  induction es as [|e es IH]; intros st H; [reflexivity|]. inversion H; subst.
  cbn. rewrite resolve_plain by assumption. rewrite IH by assumption. rewrite <- app_assoc. reflexivity.
Qed.
Lemma split_join_slash es tail : es <> [] -> Forall plain es ->
  fold_left (resolve true) (split_on slash (join slash es ++ (if tail : bool then [slash] else []))) [] = rev es.
Proof.
  intros Hn H.
  assert (Hs : Forall (fun p => ~ In slash p) es) by (eapply Forall_impl; [|exact H]; unfold plain; tauto).
  destruct tail.
  - assert (E : join slash es ++ [slash] = join slash (es ++ [[]])).
    { clear H Hs. induction es as [|e es IH]; [congruence|]. destruct es as [|e' es]; [reflexivity|].
      cbn [app] in *. rewrite !join_cons by discriminate. rewrite <- app_assoc. cbn [app].
      rewrite IH by discriminate. reflexivity. }
    rewrite E, split_join.
    + rewrite fold_left_app. cbn [fold_left]. rewrite fold_plain by assumption.
      unfold resolve. cbn [str_eqb orb]. apply app_nil_r.
    + destruct es; discriminate.
    + apply Forall_app. split; [exact Hs|]. constructor; [cbn; tauto|constructor].
  - rewrite app_nil_r, split_join by assumption. rewrite fold_plain by assumption. apply app_nil_r.
Qed.

Lemma elements_render es tail : Forall plain es ->
  elements true (slash :: join slash es ++ (if tail : bool then [slash] else [])) = es.
Proof.
  intro H. rewrite elements_slash. destruct es as [|e es].
  - destruct tail; reflexivity.
  - unfold elements. rewrite split_join_slash by (auto; discriminate). apply rev_involutive.
Qed.

Lemma suffix_join es : es <> [] -> Forall plain es -> has_suffix (join slash es) [slash] = false.
Proof.
  intros Hn H. destruct (has_suffix (join slash es) [slash]) eqn:E; [|reflexivity]. exfalso.
  apply has_suffix_spec in E. destruct E as [t E]. revert t E.
  induction es as [|e es IH]; [congruence|]. inversion H as [|? ? He Hes]; subst. intros t E.
  destruct es as [|e' es].
  - destruct He as (_ & _ & _ & He). apply He. cbn in E. rewrite E. apply in_or_app. right. left. reflexivity.
  - rewrite join_cons in E by discriminate.
    assert (Hj : join slash (e' :: es) <> []).
    { apply join_good_nonnil; [discriminate|]. eapply Forall_impl; [|exact Hes]. unfold plain, good. tauto. }
    destruct (exists_last Hj) as (u & x & Eu). rewrite Eu in E.
    change (e ++ slash :: u ++ [x] = t ++ [slash]) in E.
    replace (e ++ slash :: u ++ [x]) with ((e ++ slash :: u) ++ [x]) in E by (rewrite <- app_assoc; reflexivity).
    apply app_inj_tail in E. destruct E as [_ ->].
    exact (IH ltac:(discriminate) Hes u Eu).
Qed.

Lemma crp_cases p : exists es tail, Forall plain es /\ (tail = true -> es <> []) /\
  clean_request_path p = slash :: join slash es ++ (if tail : bool then [slash] else []).
Proof.
  unfold clean_request_path. assert (H := elements_plain p).
  destruct (elements true p) as [|e es] eqn:E.
  - exists [], false. repeat split; [constructor|discriminate].
  - exists (e :: es), (has_suffix p [slash]). repeat split; [exact H|discriminate].
Qed.

Lemma crp_render es tail : Forall plain es -> (tail = true -> es <> []) ->
  clean_request_path (slash :: join slash es ++ (if tail : bool then [slash] else [])) =
  slash :: join slash es ++ (if tail then [slash] else []).
Proof.
  intros H Ht. unfold clean_request_path. rewrite elements_render by exact H.
  destruct es as [|e es].
  - destruct tail; [exfalso; apply Ht; reflexivity|reflexivity].
  - f_equal. f_equal.
    assert (Hj : join slash (e :: es) <> []).
    { apply join_good_nonnil; [discriminate|]. eapply Forall_impl; [|exact H]. unfold plain, good. tauto. }
    destruct tail.
    + replace (has_suffix (slash :: join slash (e :: es) ++ [slash]) [slash]) with true; [reflexivity|].
      symmetry. apply has_suffix_spec. exists (slash :: join slash (e :: es)). reflexivity.
    + rewrite app_nil_r. rewrite has_suffix_cons by exact Hj.
      rewrite suffix_join by (exact H || discriminate). reflexivity.
Qed.

Lemma pathClean_idem p : pathClean (pathClean p) = pathClean p.
Proof.
  rewrite !pathClean_spec. destruct (crp_cases p) as (es & tail & H1 & H2 & ->). apply crp_render; assumption.
Qed.

(** * Redirects *)

Lemma escape_app a b : escape_path (a ++ b) = escape_path a ++ escape_path b.
Proof. unfold escape_path. rewrite map_app, concat_app. reflexivity. Qed.
Lemma escape_cons c p : escape_path (c :: p) = escape_char c ++ escape_path p.
Proof. reflexivity. Qed.

Lemma escape_char_cases c :
  (keep c = true /\ escape_char c = [c]) \/
  exists a b, escape_char c = ["%"%char; a; b] /\ hex_value a = Some (N_of_ascii c / 16)%N /\
    hex_value b = Some (N_of_ascii c mod 16)%N /\ a <> slash /\ b <> slash /\ a <> question /\ b <> question /\
    a <> backslash /\ b <> backslash /\ c <> slash.
Proof.
  destruct (keep c) eqn:E; [left; split; [reflexivity|unfold escape_char; rewrite E; reflexivity]|].
  right. exists (hex_digit (N_of_ascii c / 16)), (hex_digit (N_of_ascii c mod 16)).
  unfold escape_char. rewrite E. split; [reflexivity|]. revert E.
  destruct c as [b0 b1 b2 b3 b4 b5 b6 b7].
  destruct b0, b1, b2, b3, b4, b5, b6, b7; vm_compute; intro E; try discriminate E;
    repeat split; discriminate.
Qed.

Lemma escape_no_question p : ~ In question (escape_path p).
Proof.
  induction p as [|c p IH]; [cbn; tauto|]. rewrite escape_cons. intro H. apply in_app_or in H.
  destruct H as [H|H]; [|auto].
  destruct (escape_char_cases c) as [[K E]|(a & b & E & _ & _ & _ & _ & A & B & _)]; rewrite E in H.
  - destruct H as [->|[]]. discriminate K.
  - destruct H as [H|[H|[H|[]]]]; try congruence. discriminate.
Qed.

Lemma escape_no_slash p : ~ In slash p -> ~ In slash (escape_path p).
Proof.
  induction p as [|c p IH]; [cbn; tauto|]. intro Hp. rewrite escape_cons. intro H. apply in_app_or in H.
  destruct H as [H|H]; [|apply IH; auto; intro; apply Hp; right; auto].
  destruct (escape_char_cases c) as [[K E]|(a & b & E & _ & _ & A & B & _)]; rewrite E in H.
  - destruct H as [->|[]]. apply Hp. left. reflexivity.
  - destruct H as [H|[H|[H|[]]]]; try congruence. discriminate.
Qed.

Lemma escape_no_backslash p : ~ In backslash (escape_path p).
Proof.
  induction p as [|c p IH]; [cbn; tauto|]. rewrite escape_cons. intro H. apply in_app_or in H.
  destruct H as [H|H]; [|auto].
  destruct (escape_char_cases c) as [[K E]|(a & b & E & _ & _ & _ & _ & _ & _ & A & B & _)]; rewrite E in H.
  - destruct H as [->|[]]. discriminate K.
  - destruct H as [H|[H|[H|[]]]]; try congruence. discriminate.
Qed.

Lemma escape_nil p : escape_path p = [] -> p = [].
Proof.
  destruct p as [|c p]; [reflexivity|]. rewrite escape_cons. intro H. apply app_eq_nil in H.
  destruct (escape_char_cases c) as [[_ E]|(a & b & E & _)]; rewrite E in H; destruct H; discriminate.
Qed.

Lemma escape_dots n p : escape_path p = repeat dot n -> p = repeat dot n.
Proof.
  revert p. induction n as [|n IH]; intros p H; [apply escape_nil; exact H|].
  destruct p as [|c p]; [discriminate|]. rewrite escape_cons in H.
  destruct (escape_char_cases c) as [[_ E]|(a & b & E & _)]; rewrite E in H; cbn in H.
  - injection H as -> H. apply IH in H. subst. reflexivity.
  - discriminate.
Qed.

Lemma escape_plain e : plain e -> plain (escape_path e).
Proof.
  intros (H1 & H2 & H3 & H4). repeat split.
  - intro H. apply H1. apply escape_nil. exact H.
  - intro H. apply H2. apply (escape_dots 1). exact H.
  - intro H. apply H3. apply (escape_dots 2). exact H.
  - apply escape_no_slash. exact H4.
Qed.

Lemma escape_join es : escape_path (join slash es) = join slash (map escape_path es).
Proof.
  induction es as [|e es IH]; [reflexivity|]. destruct es as [|e' es]; [reflexivity|].
  cbn [map]. rewrite !join_cons by discriminate. rewrite escape_app, escape_cons, IH. reflexivity.
Qed.

Lemma escape_decode p : percent_decode (escape_path p) = Some p.
Proof.
  induction p as [|c p IH]; [reflexivity|]. rewrite escape_cons.
  destruct (escape_char_cases c) as [[K E]|(a & b & E & A & B & _)]; rewrite E; cbn [app percent_decode].
  - replace (Ascii.eqb c "%") with false.
    + rewrite IH. reflexivity.
    + symmetry. apply Ascii.eqb_neq. intros ->. discriminate K.
  - rewrite Ascii.eqb_refl, A, B, IH. rewrite <- N.div_mod by discriminate. rewrite ascii_N_embedding. reflexivity.
Qed.

Lemma cut_no_char c a q : ~ In c a -> cut c (a ++ c :: q) = (a, q, true).
Proof.
  induction a as [|x a IH]; intro H; cbn.
  - rewrite Ascii.eqb_refl. reflexivity.
  - destruct (Ascii.eqb x c) eqn:E; [apply Ascii.eqb_eq in E; exfalso; apply H; left; auto|].
    rewrite IH; [reflexivity|]. intro; apply H; right; auto.
Qed.
Lemma cut_none c a : ~ In c a -> cut c a = (a, [], false).
Proof. intro H. destruct (cut_spec c a) as [(x & y & -> & _)|[_ E]]; [|exact E]. exfalso. apply H. apply in_or_app. right. left. reflexivity. Qed.

Lemma location_spec parsed p query :
  location parsed (pathClean p) query =
  escape_path (pathClean p) ++ (match query with [] => [] | _ => question :: query end).
Proof.
  unfold location. destruct parsed; [|reflexivity].
  assert (E : cut question (escape_path (pathClean p) ++ (match query with [] => [] | _ => question :: query end)) =
     (escape_path (pathClean p), query, match query with [] => false | _ => true end)).
  { destruct query as [|c q].
    - rewrite app_nil_r. apply cut_none. apply escape_no_question.
    - apply cut_no_char. apply escape_no_question. }
  rewrite E.
  assert (F : (if has_suffix (escape_path (pathClean p)) [slash] && negb (has_suffix (path_clean (escape_path (pathClean p))) [slash])
               then path_clean (escape_path (pathClean p)) ++ [slash] else path_clean (escape_path (pathClean p))) =
              escape_path (pathClean p)).
  { rewrite pathClean_spec. destruct (crp_cases p) as (es & tail & H1 & H2 & ->).
    rewrite escape_cons, escape_app, escape_join.
    change (escape_char slash) with [slash]. cbn [app].
    set (es' := map escape_path es).
    assert (H1' : Forall plain es').
    { unfold es'. apply Forall_map. eapply Forall_impl; [|exact H1]. exact escape_plain. }
    assert (H2' : tail = true -> es' <> []).
    { intros Ht He. apply (H2 Ht). destruct es; [reflexivity|discriminate]. }
    clearbody es'. clear es H1 H2.
    replace (escape_path (if tail then [slash] else [])) with (if tail then [slash] else []) by (destruct tail; reflexivity).
    rewrite path_clean_rooted.
    assert (G := elements_render es' tail H1'). rewrite elements_slash in G. rewrite G.
    destruct tail.
    - replace (has_suffix (slash :: join slash es' ++ [slash]) [slash]) with true
        by (symmetry; apply has_suffix_spec; exists (slash :: join slash es'); reflexivity).
      rewrite has_suffix_cons, suffix_join; auto.
      apply join_good_nonnil; [auto|]. eapply Forall_impl; [|exact H1']. unfold plain, good. tauto.
    - rewrite app_nil_r. destruct es' as [|e es']; [reflexivity|].
      assert (Hj : join slash (e :: es') <> []).
      { apply join_good_nonnil; [discriminate|]. eapply Forall_impl; [|exact H1']. unfold plain, good. tauto. }
      rewrite (has_suffix_cons slash _ Hj), suffix_join by (auto; discriminate).
      reflexivity. }
  rewrite F. destruct query; reflexivity.
Qed.

(** What a Location header must not start with: "//" or "/\" name another host. *)
Lemma location_host parsed p query : exists rest,
  location parsed (pathClean p) query = slash :: rest /\
  (forall r, rest <> slash :: r) /\ (forall r, rest <> backslash :: r).
Proof.
  rewrite location_spec, pathClean_spec. destruct (crp_cases p) as (es & tail & H1 & H2 & ->).
  rewrite escape_cons. change (escape_char slash) with [slash]. cbn [app].
  eexists. split; [reflexivity|].
  destruct es as [|e es].
  - destruct tail; [exfalso; apply H2; auto|]. cbn. destruct query; split; intros r H; discriminate.
  - inversion H1 as [|? ? He _]; subst. apply escape_plain in He. destruct He as (A1 & _ & _ & A2).
    assert (B := escape_no_backslash e).
    assert (J : exists u, join slash (e :: es) = e ++ u).
    { destruct es as [|e' es]; [exists []; cbn; rewrite app_nil_r; reflexivity|]. eexists. apply join_cons. discriminate. }
    destruct J as [u ->]. rewrite !escape_app, <- !app_assoc.
    destruct (escape_path e) as [|c x]; [congruence|]. cbn [app].
    split; intros r H; injection H as -> _; [apply A2|apply B]; left; reflexivity.
Qed.

(** * Static files *)

Definition canon (rooted : bool) (st : list str) : Prop :=
  exists es k, st = es ++ repeat [dot; dot] k /\ Forall plain es /\ (rooted = true -> k = 0).

Lemma canon_resolve rooted st e : ~ In slash e -> canon rooted st -> canon rooted (resolve rooted st e).
Proof.
  intros He (es & k & -> & Hes & Hk).
  destruct (str_eq_dec e []) as [->|N1]; [exists es, k; auto|].
  destruct (str_eq_dec e [dot]) as [->|N2]; [exists es, k; auto|].
  destruct (str_eq_dec e [dot; dot]) as [->|N3].
  - rewrite resolve_dd. destruct es as [|x es]; cbn [app].
    + destruct k as [|k]; cbn [repeat].
      * destruct rooted; [exists [], 0; auto | exists [], 1; repeat split; auto; discriminate].
      * rewrite str_eqb_refl. exists [], (S (S k)). repeat split; auto. intro H. specialize (Hk H). discriminate.
    + inversion Hes as [|? ? Hx Hxs]; subst.
      replace (str_eqb x [dot; dot]) with false; [exists es, k; auto|].
      symmetry. apply str_eqb_neq. destruct Hx as (_ & _ & Hx & _). exact Hx.
  - assert (plain e) by (repeat split; auto). rewrite resolve_plain by assumption.
    exists (e :: es), k. auto.
Qed.

Lemma canon_fold rooted es : forall st, Forall (fun e => ~ In slash e) es -> canon rooted st ->
  canon rooted (fold_left (resolve rooted) es st).
Proof.
  induction es as [|e es IH]; intros st H1 H2; [exact H2|]. inversion H1; subst. cbn. apply IH; auto using canon_resolve.
Qed.

Lemma elements_canon rooted p : canon rooted (rev (elements rooted p)).
Proof.
  unfold elements. rewrite rev_involutive. apply canon_fold; [apply split_on_no_sep|]. exists [], 0. auto.
Qed.

Lemma fold_dd k : fold_left (resolve false) (repeat [dot; dot] k) [] = repeat [dot; dot] k.
Proof.
  assert (G : forall j, fold_left (resolve false) (repeat [dot; dot] k) (repeat [dot; dot] j) = repeat [dot; dot] (k + j)).
  { induction k as [|k IH]; intro j; [reflexivity|]. cbn [repeat fold_left].
    replace (resolve false (repeat [dot; dot] j) [dot; dot]) with (repeat [dot; dot] (S j)).
    - rewrite IH. f_equal. lia.
    - rewrite resolve_dd. destruct j; [reflexivity|]. cbn [repeat]. rewrite str_eqb_refl. reflexivity. }
  specialize (G 0). rewrite Nat.add_0_r in G. exact G.
Qed.

Lemma repeat_rev {A : Type} (x : A) k : rev (repeat x k) = repeat x k.
Proof.
  induction k as [|k IH]; [reflexivity|]. cbn. rewrite IH. clear IH.
  induction k as [|k IH]; [reflexivity|]. cbn. rewrite IH. reflexivity.
Qed.

Lemma canon_split rooted st : canon rooted st -> fold_left (resolve rooted) (rev st) [] = st.
Proof.
  intros (es & k & -> & Hes & Hk). rewrite rev_app_distr, repeat_rev, fold_left_app.
  assert (E : fold_left (resolve rooted) (repeat [dot; dot] k) [] = repeat [dot; dot] k).
  { destruct rooted; [rewrite (Hk eq_refl); reflexivity|]. apply fold_dd. }
  rewrite E, fold_plain by (apply Forall_rev; exact Hes). rewrite rev_involutive. reflexivity.
Qed.

Lemma canon_noslash rooted st : canon rooted st -> Forall (fun e => ~ In slash e) st.
Proof.
  intros (es & k & -> & Hes & _). apply Forall_app. split.
  - eapply Forall_impl; [|exact Hes]. unfold plain. tauto.
  - apply Forall_forall. intros x Hx. apply repeat_spec in Hx. subst x. cbn. intros [H|[H|[]]]; discriminate.
Qed.

Lemma split_on_app2 c a b : split_on c (a ++ c :: b) = split_on c a ++ split_on c b.
Proof.
  induction a as [|x a IH]; cbn [app split_on].
  - rewrite Ascii.eqb_refl. reflexivity.
  - destruct (Ascii.eqb x c); [rewrite IH; reflexivity|]. rewrite IH.
    destruct (split_on c a) as [|h t] eqn:E; [exfalso; exact (split_on_nonempty _ _ E)|]. reflexivity.
Qed.

(** path.Clean of any non-empty path. *)
Lemma path_clean_file p : p <> [] -> path_clean p = file_path (is_abs p) (elements (is_abs p) p).
Proof.
  destruct p as [|c p]; [congruence|]. intros _. unfold is_abs. cbn [has_prefix]. rewrite andb_true_r.
  destruct (Ascii.eqb c slash) eqn:E.
  - apply Ascii.eqb_eq in E. subst c. rewrite path_clean_rooted, elements_slash. reflexivity.
  - apply Ascii.eqb_neq in E. rewrite path_clean_unrooted by exact E. unfold file_path; destruct (elements false (c :: p)); reflexivity.
Qed.

Lemma elements_file_path rooted st : canon rooted st ->
  elements rooted (file_path rooted (rev st)) = rev st.
Proof.
  intro H. assert (Hn := canon_noslash _ _ H). assert (Hs := canon_split _ _ H).
  unfold file_path. destruct rooted.
  - rewrite elements_slash. unfold elements. f_equal. destruct st as [|e st]; [reflexivity|].
    rewrite split_join; [exact Hs| |apply Forall_rev; exact Hn].
    intro E. apply (f_equal (@rev str)) in E. rewrite rev_involutive in E. discriminate.
  - destruct (rev st) as [|x l] eqn:E; [reflexivity|]. unfold elements. rewrite split_join; [| discriminate|].
    + rewrite Hs. exact E.
    + rewrite <- E. apply Forall_rev. exact Hn.
Qed.

(** Appending visible elements to a path. *)
Definition comp_ok (e : str) : Prop := ~ In slash e /\ (forall e', e <> dot :: e').

Definition nonempty (e : str) : bool := negb (str_eqb e []).

Lemma fold_comps rooted es : forall st, Forall comp_ok es ->
  fold_left (resolve rooted) es st = rev (filter nonempty es) ++ st.
Proof.
  induction es as [|e es IH]; intros st H; [reflexivity|]. inversion H as [|? ? [H1 H2] H3]; subst.
  cbn [fold_left filter]. unfold nonempty at 1. destruct (str_eqb e []) eqn:E; cbn [negb].
  - apply str_eqb_spec in E. subst e. replace (resolve rooted st []) with st by reflexivity. auto.
  - apply str_eqb_neq in E. rewrite resolve_plain.
    + rewrite IH by assumption. cbn [rev]. rewrite <- app_assoc. reflexivity.
    + repeat split; auto; [apply (H2 []) | apply (H2 [dot])].
Qed.

Lemma path_join_spec root p : root <> [] -> Forall comp_ok (split_on slash p) ->
  path_join root p = file_path (is_abs root) (elements (is_abs root) root ++ filter nonempty (split_on slash p)).
Proof.
  intros Hr Hp. unfold path_join. destruct p as [|c p].
  - cbn [split_on filter nonempty str_eqb negb]. rewrite app_nil_r. apply path_clean_file. exact Hr.
  - set (q := c :: p) in *.
    assert (Ha : is_abs (root ++ slash :: q) = is_abs root).
    { unfold is_abs. destruct root as [|x root]; [congruence|]. cbn [app has_prefix]. reflexivity. }
    rewrite path_clean_file by (destruct root; discriminate). rewrite Ha. f_equal.
    unfold elements. rewrite split_on_app2, fold_left_app, fold_comps by exact Hp.
    rewrite rev_app_distr, rev_involutive. reflexivity.
Qed.

Lemma file_path_abs rooted st : canon rooted st -> is_abs (file_path rooted (rev st)) = rooted.
Proof.
  intro H. unfold file_path, is_abs. destruct rooted; [reflexivity|].
  destruct (rev st) as [|e l] eqn:E; [reflexivity|].
  assert (Hg : e <> [] /\ ~ In slash e).
  { assert (Hi : In e st) by (apply in_rev; rewrite E; left; reflexivity).
    destruct H as (es & k & -> & Hes & _). apply in_app_or in Hi. destruct Hi as [Hi|Hi].
    - rewrite Forall_forall in Hes. destruct (Hes e Hi) as (A & _ & _ & B). auto.
    - apply repeat_spec in Hi. subst e. split; [discriminate|]. cbn. intros [X|[X|[]]]; discriminate. }
  destruct Hg as [Hg1 Hg2]. destruct e as [|c e]; [congruence|].
  assert (Hc : Ascii.eqb c slash = false).
  { apply Ascii.eqb_neq. intros ->. apply Hg2. left. reflexivity. }
  destruct l; cbn [join app has_prefix]; rewrite Hc; reflexivity.
Qed.

Lemma file_path_nonnil rooted st : canon rooted st -> file_path rooted (rev st) <> [].
Proof.
  intro H. unfold file_path. destruct rooted; [discriminate|].
  destruct (rev st) as [|e l] eqn:E; [discriminate|].
  apply join_good_nonnil; [discriminate|]. rewrite <- E. apply Forall_rev.
  destruct H as (es & k & -> & Hes & _). apply Forall_app. split.
  - eapply Forall_impl; [|exact Hes]. unfold plain, good. tauto.
  - apply Forall_forall. intros x Hx. apply repeat_spec in Hx. subst x. repeat split; try discriminate.
    cbn. intros [X|[X|[]]]; discriminate.
Qed.

Lemma comps_visible p :
  existsb (fun pp => has_prefix pp [dot] || has_char backslash pp) (split_on slash p) = false ->
  Forall comp_ok (split_on slash p) /\ Forall visible (filter nonempty (split_on slash p)).
Proof.
  intro H.
  assert (G : Forall (fun e => comp_ok e /\ ~ In backslash e) (split_on slash p)).
  { assert (Hs := split_on_no_sep slash p). rewrite Forall_forall in *. intros e He.
    assert (Hx : has_prefix e [dot] || has_char backslash e = false).
    { destruct (_ || _) eqn:E; [|reflexivity]. rewrite <- H. symmetry. apply existsb_exists. exists e. auto. }
    apply orb_false_elim in Hx. destruct Hx as [Hx1 Hx2]. repeat split; auto.
    - intros e' ->. cbn in Hx1. discriminate.
    - apply has_char_false. exact Hx2. }
  split; [eapply Forall_impl; [|exact G]; intros a [Ha _]; exact Ha|].
  rewrite Forall_forall in *. intros e He. apply filter_In in He. destruct He as [He1 He2].
  destruct (G e He1) as [[A B] D]. repeat split; auto.
  intros ->. discriminate.
Qed.

Lemma canon_app rooted p es : Forall visible es -> canon rooted (rev (elements rooted p ++ es)).
Proof.
  intro H. rewrite rev_app_distr. destruct (elements_canon rooted p) as (a & k & E & Ha & Hk). rewrite E.
  exists (rev es ++ a), k. rewrite app_assoc. repeat split; auto. apply Forall_app. split; [|exact Ha].
  apply Forall_rev. eapply Forall_impl; [|exact H]. intros e (H1 & H2 & H3 & H4). repeat split; auto; apply H4.
Qed.

Lemma serve_static_file f root prefix method path file :
  serve_static f root prefix method path = ServeFile file ->
  exists es, Forall visible es /\ file = file_path (is_abs root) (elements (is_abs root) root ++ es) /\
    root <> [] /\ fopen f file = Some Regular /\ (method = lit "GET" \/ method = lit "HEAD") /\
    (let below := filter nonempty (split_on slash (trim_prefix (trim_prefix path prefix) [slash])) in
     es = below \/ es = below ++ [lit "index.html"] /\ has_suffix path [slash] = true).
Proof.
  unfold serve_static. destruct root as [|r0 root]; [discriminate|].
  destruct (negb _) eqn:Em; [discriminate|]. apply negb_false_iff in Em.
  assert (Hm : method = lit "GET" \/ method = lit "HEAD").
  { apply orb_prop in Em. destruct Em as [E|E]; apply str_eqb_spec in E; auto. }
  clear Em. cbv zeta. destruct (negb (str_eqb (pathClean path) path)) eqn:Ep; [discriminate|].
  apply negb_false_iff in Ep. apply str_eqb_spec in Ep. rewrite Ep.
  set (p := trim_prefix (trim_prefix path prefix) [slash]).
  destruct (existsb _ _) eqn:Ex; [discriminate|].
  destruct (comps_visible p Ex) as [Hc Hv]. set (rt := r0 :: root) in *.
  assert (Hrt : rt <> []) by discriminate.
  rewrite (path_join_spec rt p Hrt Hc).
  set (below := filter nonempty (split_on slash p)) in *.
  set (file0 := file_path (is_abs rt) (elements (is_abs rt) rt ++ below)).
  assert (K : forall k : kind, fopen f file0 = Some k -> k = Regular -> file0 = file ->
     exists es, Forall visible es /\ file = file_path (is_abs rt) (elements (is_abs rt) rt ++ es) /\
       rt <> [] /\ fopen f file = Some Regular /\ (method = lit "GET" \/ method = lit "HEAD") /\
       (es = below \/ es = below ++ [lit "index.html"] /\ has_suffix path [slash] = true)).
  { intros k H1 -> <-. exists below. repeat split; auto. }
  destruct (stat f file0) as [[]|] eqn:Es; [| | |discriminate].
  - destruct (has_suffix path [slash]) eqn:Esl; cbn [negb]; [|discriminate].
    set (fi := path_join file0 (lit "index.html")).
    assert (Hcan := canon_app (is_abs rt) rt below Hv).
    assert (Efi : fi = file_path (is_abs rt) (elements (is_abs rt) rt ++ below ++ [lit "index.html"])).
    { unfold fi. rewrite path_join_spec.
      - unfold file0. rewrite <- (rev_involutive (elements (is_abs rt) rt ++ below)).
        rewrite (file_path_abs _ _ Hcan), (elements_file_path _ _ Hcan). rewrite rev_involutive.
        rewrite <- app_assoc. reflexivity.
      - unfold file0. rewrite <- (rev_involutive (elements (is_abs rt) rt ++ below)).
        apply file_path_nonnil. exact Hcan.
      - apply Forall_forall. intros x Hx. cbn in Hx. destruct Hx as [<-|[]]. split.
        + cbn. intuition discriminate.
        + intros e' H. discriminate H. }
    destruct (stat f fi) as [[]|] eqn:Es2; try discriminate;
      destruct (fopen f fi) as [[]|] eqn:Eo; try discriminate; intro H; injection H as <-;
      (exists (below ++ [lit "index.html"]); repeat split; auto;
       apply Forall_app; split; [exact Hv|]; constructor; [|constructor];
       repeat split; [discriminate | cbn; intuition discriminate | cbn; intuition discriminate | intros e' H; discriminate H]).
  - destruct (has_suffix path [slash]); [discriminate|].
    destruct (fopen f file0) as [[]|] eqn:Eo; try discriminate. intro H; injection H as H. eapply K; eauto.
  - destruct (has_suffix path [slash]); [discriminate|].
    destruct (fopen f file0) as [[]|] eqn:Eo; try discriminate. intro H; injection H as H. eapply K; eauto.
Qed.

(** Redirects of static files go to cleaned paths. *)
Lemma serve_static_redirect f root prefix method path q :
  serve_static f root prefix method path = RedirectTo q -> q = pathClean q \/ q = [].
Proof.
  unfold serve_static. destruct root as [|r0 root]; [discriminate|].
  destruct (negb _); [discriminate|]. cbv zeta.
  destruct (negb (str_eqb (pathClean path) path)) eqn:Ep.
  { intro H. injection H as <-. left. symmetry. apply pathClean_idem. }
  apply negb_false_iff in Ep. apply str_eqb_spec in Ep.
  destruct (existsb _ _); [discriminate|].
  assert (R := pathClean_spec path). destruct (crp_cases path) as (es & tail & H1 & H2 & H3). rewrite R, H3.
  set (F := fun t : bool => slash :: join slash es ++ (if t then [slash] else [])).
  assert (G : forall t : bool, (t = true -> es <> []) -> pathClean (F t) = F t).
  { intros t Ht. rewrite pathClean_spec. apply crp_render; assumption. }
  assert (A : forall k : kind, has_suffix (F tail) [slash] = false -> RedirectTo (F tail ++ [slash]) = RedirectTo q ->
              q = pathClean q \/ q = []).
  { intros _ Hs H. injection H as <-. left. destruct tail.
    - exfalso. assert (has_suffix (F true) [slash] = true); [|congruence].
      apply has_suffix_spec. exists (slash :: join slash es). reflexivity.
    - assert (es <> []) by (intros ->; discriminate Hs).
      assert (E : F false ++ [slash] = F true) by (unfold F; rewrite app_nil_r; reflexivity).
      change (F false ++ [slash] = pathClean (F false ++ [slash])). rewrite E. symmetry. apply G. auto. }
  assert (B : has_suffix (F tail) [slash] = true -> RedirectTo (trim_suffix (F tail) [slash]) = RedirectTo q ->
              q = pathClean q \/ q = []).
  { intros Hs H. injection H as <-. destruct tail.
    - left. replace (F true) with ((slash :: join slash es) ++ [slash]) by reflexivity.
      rewrite trim_suffix_app.
      assert (E : F false = slash :: join slash es) by (unfold F; rewrite app_nil_r; reflexivity).
      rewrite <- E. symmetry; apply G; discriminate.
    - destruct es as [|e es]; [right; reflexivity|]. exfalso. unfold F in Hs. rewrite app_nil_r in Hs.
      rewrite has_suffix_cons, suffix_join in Hs; try discriminate; auto.
      apply join_good_nonnil; [discriminate|]. eapply Forall_impl; [|exact H1]. unfold plain, good. tauto. }
  change (slash :: join slash es ++ (if tail then [slash] else [])) with (F tail).
  match goal with |- match ?s with _ => _ end = _ -> _ => destruct s as [[]|]; try discriminate end.
  - destruct (has_suffix (F tail) [slash]) eqn:Hs; cbn [negb]; [|apply (A Dir); reflexivity].
    match goal with |- match ?s with _ => _ end = _ -> _ => destruct s as [[]|]; try discriminate end;
    match goal with |- match ?s with _ => _ end = _ -> _ => destruct s as [[]|]; try discriminate end.
  - destruct (has_suffix (F tail) [slash]) eqn:Hs; [apply B; reflexivity|].
    match goal with |- match ?s with _ => _ end = _ -> _ => destruct s as [[]|]; try discriminate end.
  - destruct (has_suffix (F tail) [slash]) eqn:Hs; [apply B; reflexivity|].
    match goal with |- match ?s with _ => _ end = _ -> _ => destruct s as [[]|]; try discriminate end.
Qed.
