From Verif Require Import Base PathModel PathProofs TokenModel TokenSpec TokenProofs HttpModel HttpSpec HttpProofs HttpProofs2 BrowserModel BrowserSpec.
From Coq Require Import Permutation Sorted.
Open Scope Z_scope.

(** * The Cookie header *)
Definition stored_ok (c : stored) : Prop :=
  st_name c <> [] /\ trim (st_name c) = st_name c /\ ~ In semicolon (st_name c) /\ ~ In "="%char (st_name c) /\
  trim (st_value c) = st_value c /\ ~ In semicolon (st_value c).

Lemma trim_left_idem s : trim_left (trim_left s) = trim_left s.
Proof. induction s as [|c s IH]; [reflexivity|]. cbn [trim_left]. destruct (is_space c) eqn:E; [exact IH|]. cbn [trim_left]. rewrite E. reflexivity. Qed.
Lemma trim_left_head s : match trim_left s with c :: _ => is_space c = false | [] => True end.
Proof. induction s as [|c s IH]; [exact I|]. cbn [trim_left]. destruct (is_space c) eqn:E; [exact IH|exact E]. Qed.
Lemma trimmed_last s : trim s = s -> match rev s with c :: _ => is_space c = false | [] => True end.
Proof. intro H. rewrite <- H. unfold trim. rewrite rev_involutive. apply trim_left_head. Qed.
Lemma trimmed_rev s : trim s = s -> trim_left s = s.
Proof.
  intro H. destruct (trim_left_suffix s) as (p & E & _). destruct (trim_left_suffix (rev (trim_left s))) as (q & E2 & _).
  assert (L : (List.length s <= List.length (trim_left s))%nat).
  { rewrite <- H at 1. unfold trim. rewrite rev_length. rewrite <- (rev_length (trim_left s)). rewrite E2 at 2. rewrite app_length. lia. }
  assert (p = []). { destruct p as [|x p]; [reflexivity|]. rewrite E in L at 1. rewrite app_length in L. cbn in L. lia. }
  subst p. exact (eq_sym E).
Qed.
Lemma trimmed_first s : trim s = s -> match s with c :: _ => is_space c = false | [] => True end.
Proof. intro H. apply trimmed_rev in H. assert (T := trim_left_head s). rewrite H in T. exact T. Qed.

(** What the server reads of one cookie. *)
Definition reading (c : stored) : list cookie :=
  if is_token (st_name c) then
    match parse_value (st_value c) with
    | Some (v, q) => [{| ck_name := st_name c; ck_value := v; ck_quoted := q |}]
    | None => []
    end
  else [].

Lemma parse_text c : stored_ok c -> parse_part (cookie_text c) = reading c.
Proof.
  intros (N0 & N1 & N2 & N3 & V1 & V2). unfold parse_part, cookie_text.
  assert (E : trim (st_name c ++ "="%char :: st_value c) = st_name c ++ "="%char :: st_value c).
  { apply trim_id.
    - apply trimmed_first in N1. destruct (st_name c); [congruence|exact N1].
    - rewrite rev_app_distr. cbn [rev]. apply trimmed_last in V1. destruct (rev (st_value c)) as [|x r]; [reflexivity|exact V1]. }
  cbv zeta. rewrite E.
  replace (str_eqb (st_name c ++ "="%char :: st_value c) []) with false
    by (symmetry; apply str_eqb_neq; destruct (st_name c); discriminate).
  rewrite cut_at by exact N3. rewrite N1. reflexivity.
Qed.

Lemma text_no_semicolon c : stored_ok c -> ~ In semicolon (cookie_text c).
Proof. intros (_ & _ & N & _ & _ & V) H. unfold cookie_text in H. apply in_app_iff in H. destruct H as [H|[H|H]]; [auto|discriminate H|auto]. Qed.

Lemma parse_string l : Forall stored_ok l -> parse_line (cookie_string l) = flat_map reading l.
Proof.
  induction l as [|c l IH]; intro H; [reflexivity|]. inversion H; subst. cbn [cookie_string flat_map].
  destruct l as [|d l].
  - rewrite app_nil_r. unfold parse_line. rewrite split_on_no_char by (apply text_no_semicolon; assumption).
    cbn [map List.concat]. rewrite parse_text by assumption. reflexivity.
  - change (cookie_text c ++ lit "; " ++ cookie_string (d :: l)) with (cookie_text c ++ semicolon :: " "%char :: cookie_string (d :: l)).
    unfold parse_line. rewrite split_on_app by (apply text_no_semicolon; assumption). cbn [map List.concat].
    fold (parse_line (" "%char :: cookie_string (d :: l))). rewrite parse_text, parse_line_space, IH by assumption. reflexivity.
Qed.

Lemma cookies_sent l more : Forall stored_ok l -> h_values (lit "cookie") more = [] ->
  cookies (cookie_header l ++ more) = flat_map reading l.
Proof.
  intros H M. unfold cookies, cookie_header. destruct l as [|c l].
  - cbn [app]. rewrite M. reflexivity.
  - unfold h_values in *. cbn [app]. cbn [filter fst]. change (same_name (lit "Cookie") (lit "cookie")) with true. cbv iota.
    cbn [map snd]. rewrite M. cbn [map List.concat]. rewrite app_nil_r. apply parse_string. exact H.
Qed.

Lemma reading_name c k : In k (reading c) -> ck_name k = st_name c.
Proof.
  unfold reading. destruct (is_token (st_name c)); [|contradiction]. destruct (parse_value (st_value c)) as [[v q]|]; [|contradiction].
  intros [<-|[]]. reflexivity.
Qed.
Definition named (n : str) (k : cookie) : bool := str_eqb (ck_name k) n.
Lemma reading_other n c : st_name c <> n -> filter (named n) (reading c) = [].
Proof.
  intro H. unfold reading. destruct (is_token (st_name c)); [|reflexivity]. destruct (parse_value (st_value c)) as [[v q]|]; [|reflexivity].
  cbn [filter named ck_name]. unfold named. cbn [ck_name]. replace (str_eqb (st_name c) n) with false by (symmetry; apply str_eqb_neq; exact H). reflexivity.
Qed.
Lemma readings_other n l : (forall c, In c l -> st_name c <> n) -> filter (named n) (flat_map reading l) = [].
Proof.
  induction l as [|c l IH]; intro H; [reflexivity|]. cbn [flat_map]. rewrite filter_app, reading_other, IH; [reflexivity| |].
  - intros d Hd. apply H. right. exact Hd.
  - apply H. left. reflexivity.
Qed.

(** Values made of token characters are read as they are. *)
Lemma token_cookie c : token_char c = true -> cookie_char c = true.
Proof.
  destruct c as [b0 b1 b2 b3 b4 b5 b6 b7]; destruct b0, b1, b2, b3, b4, b5, b6, b7; vm_compute; intro H; congruence.
Qed.
Lemma plain_parse v : plain_value v -> parse_value v = Some (v, false).
Proof.
  intro H. unfold parse_value.
  assert (E : strip_quotes v = None).
  { destruct v as [|c [|d r]]; [reflexivity|reflexivity|]. unfold strip_quotes.
    destruct (Ascii.eqb c dquote) eqn:E; [|reflexivity]. apply Ascii.eqb_eq in E. subst c.
    assert (T := H dquote (or_introl eq_refl)). vm_compute in T. discriminate T. }
  rewrite E. replace (forallb cookie_char v) with true; [reflexivity|].
  symmetry. apply forallb_forall. intros c Hc. apply token_cookie. apply H. exact Hc.
Qed.

Lemma get_first l more n c l1 l2 : Forall stored_ok l -> h_values (lit "cookie") more = [] ->
  l = l1 ++ c :: l2 -> (forall x, In x l1 -> st_name x <> n) -> st_name c = n -> is_token n = true -> plain_value (st_value c) ->
  get_cookie n (cookie_header l ++ more) = Some (st_value c).
Proof.
  intros H M E H1 Hn Ht Hv. unfold get_cookie. rewrite cookies_sent by assumption. subst l.
  fold (named n). rewrite flat_map_app. cbn [flat_map]. rewrite filter_app, readings_other by exact H1. cbn [app].
  rewrite filter_app. unfold reading at 1. rewrite Hn, Ht, (plain_parse _ Hv). cbn [filter]. unfold named at 1. cbn [ck_name].
  rewrite str_eqb_refl. reflexivity.
Qed.
Lemma get_none l more n : Forall stored_ok l -> h_values (lit "cookie") more = [] ->
  (forall x, In x l -> st_name x <> n) -> get_cookie n (cookie_header l ++ more) = None.
Proof.
  intros H M H1. unfold get_cookie. rewrite cookies_sent by assumption. fold (named n). rewrite readings_other by exact H1. reflexivity.
Qed.

(** * The order of cookies *)
Lemma by_path_perm c l : Permutation (by_path c l) (c :: l).
Proof.
  induction l as [|x l IH]; [reflexivity|]. cbn [by_path]. destruct (List.length (st_path x) <=? List.length (st_path c))%nat; [reflexivity|].
  rewrite IH. apply perm_swap.
Qed.
Lemma arrange_perm l : Permutation (arrange l) l.
Proof. induction l as [|c l IH]; [reflexivity|]. cbn [arrange]. rewrite by_path_perm, IH. reflexivity. Qed.
Lemma arrange_In l c : In c (arrange l) <-> In c l.
Proof. split; apply Permutation_in; [|symmetry]; apply arrange_perm. Qed.
Lemma sent_In br j host path now c : In c (sent br j host path now) <-> In c j /\ goes br host path now c = true.
Proof. unfold sent. rewrite arrange_In, filter_In. reflexivity. Qed.

Definition plen (c : stored) : nat := List.length (st_path c).
Lemma by_path_split c l : exists m1 m2, by_path c l = m1 ++ c :: m2 /\ l = m1 ++ m2 /\ (forall x, In x m1 -> (plen c < plen x)%nat).
Proof.
  induction l as [|x l IH]; [exists [], []; repeat split; contradiction|]. cbn [by_path].
  destruct (List.length (st_path x) <=? List.length (st_path c))%nat eqn:E.
  - exists [], (x :: l). repeat split. contradiction.
  - destruct IH as (m1 & m2 & E1 & E2 & H). exists (x :: m1), m2. rewrite E1, E2. repeat split.
    intros y [<-|Hy]; [|auto]. apply Nat.leb_gt in E. exact E.
Qed.

Definition longer (a b : stored) : Prop := (plen b <= plen a)%nat.
Lemma arrange_sorted l : StronglySorted longer (arrange l).
Proof.
  induction l as [|c l IH]; [constructor|]. cbn [arrange]. induction (arrange l) as [|x m IHm]; [repeat constructor|].
  cbn [by_path]. destruct (List.length (st_path x) <=? List.length (st_path c))%nat eqn:E.
  - apply Nat.leb_le in E. constructor; [exact IH|]. constructor; [exact E|].
    apply StronglySorted_inv in IH. destruct IH as [_ F]. eapply Forall_impl; [|exact F]. unfold longer, plen in *. intros; lia.
  - apply Nat.leb_gt in E. apply StronglySorted_inv in IH. destruct IH as [S F]. constructor; [exact (IHm S)|].
    apply Forall_forall. intros y Hy. assert (P := by_path_perm c m). eapply Permutation_in in Hy; [|exact P].
    destruct Hy as [<-|Hy]; [unfold longer, plen; lia|]. rewrite Forall_forall in F. exact (F y Hy).
Qed.
Lemma by_path_into d m1 c m2 : StronglySorted longer (m1 ++ c :: m2) ->
  exists m1' m2', by_path d (m1 ++ c :: m2) = m1' ++ c :: m2' /\
  (forall x, In x m1' -> In x m1 \/ (x = d /\ (plen c <= plen d)%nat)).
Proof.
  revert c m2. induction m1 as [|x m1 IH]; intros c m2 S.
  - cbn [app by_path]. destruct (List.length (st_path c) <=? List.length (st_path d))%nat eqn:E.
    + exists [d], m2. split; [reflexivity|]. intros y [<-|[]]. right. split; [reflexivity|]. apply Nat.leb_le. exact E.
    + exists [], (by_path d m2). split; [reflexivity|]. contradiction.
  - cbn [app by_path] in *. apply StronglySorted_inv in S. destruct S as [S F].
    destruct (List.length (st_path x) <=? List.length (st_path d))%nat eqn:E.
    + apply Nat.leb_le in E. exists (d :: x :: m1), m2. split; [reflexivity|]. intros y [<-|Hy]; [|left; exact Hy].
      right. split; [reflexivity|]. rewrite Forall_forall in F. assert (L := F c). unfold longer, plen in *.
      assert (In c (m1 ++ c :: m2)) by (apply in_or_app; right; left; reflexivity). specialize (L H). lia.
    + destruct (IH c m2 S) as (a & b & E1 & H). exists (x :: a), b. rewrite E1. split; [reflexivity|].
      intros y [<-|Hy]; [left; left; reflexivity|]. destruct (H y Hy) as [Hi|Hi]; [left; right; exact Hi|right; exact Hi].
Qed.
(** Before a cookie in the header come only cookies with longer paths, and older ones
    with paths of the same length. *)
Lemma arrange_split l1 c l2 : exists m1 m2, arrange (l1 ++ c :: l2) = m1 ++ c :: m2 /\
  (forall x, In x m1 -> (In x l1 /\ (plen c <= plen x)%nat) \/ (In x l2 /\ (plen c < plen x)%nat)).
Proof.
  induction l1 as [|d l1 IH].
  - cbn [app arrange]. destruct (by_path_split c (arrange l2)) as (m1 & m2 & E & E2 & H). exists m1, m2. split; [exact E|].
    intros x Hx. right. split; [|exact (H x Hx)]. apply arrange_In. rewrite E2. apply in_or_app. left. exact Hx.
  - destruct IH as (m1 & m2 & E & H). cbn [app arrange]. assert (S := arrange_sorted (l1 ++ c :: l2)). rewrite E in *.
    destruct (by_path_into d m1 c m2 S) as (a & b & E1 & H1). exists a, b. split; [exact E1|].
    intros x Hx. destruct (H1 x Hx) as [Hi|[-> Hi]].
    + destruct (H x Hi) as [[Hj L]|Hj]; [left; split; [right; exact Hj|exact L]|right; exact Hj].
    + left. split; [left; reflexivity|exact Hi].
Qed.

(** * The store *)
Lemma same_place_spec a b : same_place a b = true <->
  st_name a = st_name b /\ st_domain a = st_domain b /\ st_host_only a = st_host_only b /\ st_path a = st_path b.
Proof.
  unfold same_place. rewrite !andb_true_iff, !str_eqb_spec, Bool.eqb_true_iff. tauto.
Qed.
Definition place (c : stored) : str * str * bool * str := (st_name c, st_domain c, st_host_only c, st_path c).
Lemma same_place_place a b : same_place a b = true <-> place a = place b.
Proof.
  rewrite same_place_spec. unfold place. split; [intros (-> & -> & -> & ->); reflexivity|]. intro H. injection H. auto.
Qed.
Lemma store_In c j x : In x (store c j) -> x = c \/ (In x j).
Proof.
  induction j as [|y j IH]; cbn [store]; [intros [<-|[]]; auto|]. destruct (same_place y c) eqn:E.
  - intros [<-|H]; [auto|right; right; exact H].
  - intros [<-|H]; [right; left; reflexivity|]. destruct (IH H); [auto|right; right; assumption].
Qed.
Lemma store_has c j : In c (store c j).
Proof. induction j as [|y j IH]; cbn [store]; [left; reflexivity|]. destruct (same_place y c); [left; reflexivity|right; exact IH]. Qed.
Lemma store_keeps c j x : In x j -> same_place x c = false -> In x (store c j).
Proof.
  induction j as [|y j IH]; [contradiction|]. cbn [store]. intros [<-|H] E.
  - rewrite E. left. reflexivity.
  - destruct (same_place y c); right; [exact H|exact (IH H E)].
Qed.
Lemma store_places c j : NoDup (map place j) -> NoDup (map place (store c j)) /\
  (forall x, In x (store c j) -> place x = place c -> x = c).
Proof.
  induction j as [|y j IH]; cbn [store map]; intro H.
  - split; [constructor; [intros []|constructor]|]. intros x [<-|[]] _. reflexivity.
  - inversion H as [|? ? N1 N2]; subst. destruct (same_place y c) eqn:E.
    + apply same_place_place in E. cbn [map]. rewrite <- E. split; [constructor; assumption|].
      intros x [<-|Hx] P; [reflexivity|]. exfalso. apply N1. rewrite <- P. apply in_map. exact Hx.
    + destruct (IH N2) as [A B]. cbn [map]. split.
      * constructor; [|exact A]. intro Hin. apply in_map_iff in Hin. destruct Hin as (x & P & Hx).
        destruct (store_In _ _ _ Hx) as [->|Hx'].
        -- assert (same_place y c = true) by (apply same_place_place; congruence). congruence.
        -- apply N1. rewrite <- P. apply in_map. exact Hx'.
      * intros x [<-|Hx] P; [|exact (B x Hx P)]. assert (same_place y c = true) by (apply same_place_place; exact P). congruence.
Qed.
Lemma evict_In c j x : In x (evict c j) <-> In x j /\ same_place x c = false.
Proof. unfold evict. rewrite filter_In, negb_true_iff. reflexivity. Qed.
Lemma evict_places c j : NoDup (map place j) -> NoDup (map place (evict c j)).
Proof.
  induction j as [|y j IH]; [auto|]. cbn [map evict filter]. intro H. inversion H as [|? ? N1 N2]; subst.
  destruct (negb (same_place y c)); [|exact (IH N2)]. cbn [map]. constructor; [|exact (IH N2)].
  intro Hin. apply N1. apply in_map_iff in Hin. destruct Hin as (x & <- & Hx). apply in_map. apply filter_In in Hx. tauto.
Qed.

Lemma wanted_fields br host a c : wanted br host a = Some c ->
  st_name c = at_name a /\ st_value c = at_value a /\ st_path c = at_path a /\ st_expires c = at_expires a.
Proof.
  unfold wanted. cbv zeta. destruct (br_max br <? size (at_name a) + size (at_value a))%N; [discriminate|].
  destruct (str_eqb (if br_public br (to_lower (written_domain (at_domain a))) && _ then [] else _) []);
    [intro H; injection H as <-; auto|].
  match goal with |- (if ?b then _ else _) = _ -> _ => destruct b end; [discriminate|]. intro H; injection H as <-; auto.
Qed.

Lemma receive_In br host now a j x : In x (receive br host now a j) -> In x j \/ wanted br host a = Some x.
Proof.
  unfold receive. destruct (wanted br host a) as [c|]; [|auto]. destruct (at_gone a || expired (at_expires a) now).
  - intro H. apply evict_In in H. tauto.
  - intro H. destruct (store_In _ _ _ H) as [->|H']; auto.
Qed.
Lemma receive_places br host now a j : NoDup (map place j) -> NoDup (map place (receive br host now a j)).
Proof.
  intro H. unfold receive. destruct (wanted br host a) as [c|]; [|exact H]. destruct (at_gone a || expired (at_expires a) now).
  - apply evict_places. exact H.
  - apply store_places. exact H.
Qed.
Lemma receive_keeps br host now a j x : In x j -> st_name x <> at_name a -> In x (receive br host now a j).
Proof.
  intros H N. unfold receive. destruct (wanted br host a) as [c|] eqn:E; [|exact H].
  destruct (wanted_fields _ _ _ _ E) as [Nm _].
  assert (F : same_place x c = false).
  { destruct (same_place x c) eqn:F; [|reflexivity]. apply same_place_spec in F. destruct F as [F _]. congruence. }
  destruct (at_gone a || expired (at_expires a) now); [apply evict_In; auto|apply store_keeps; assumption].
Qed.

Definition run (br : browser) (j : list stored) (evs : list event) : list stored :=
  fold_left (fun j e => receive br (ev_host e) (ev_time e) (ev_set e) j) evs j.
Lemma jar_after_app br a b : jar_after br (a ++ b) = run br (jar_after br a) b.
Proof. apply fold_left_app. Qed.
Lemma run_origin br evs : forall j x, In x (run br j evs) -> In x j \/ exists e, In e evs /\ wanted br (ev_host e) (ev_set e) = Some x.
Proof.
  induction evs as [|e evs IH]; intros j x H; [left; exact H|]. cbn [run fold_left] in H.
  destruct (IH _ _ H) as [H1|(e' & H1 & H2)]; [|right; exists e'; split; [right; exact H1|exact H2]].
  destruct (receive_In _ _ _ _ _ _ H1) as [H2|H2]; [left; exact H2|right; exists e; split; [left; reflexivity|exact H2]].
Qed.
Lemma jar_origin br evs x : In x (jar_after br evs) -> exists e, In e evs /\ wanted br (ev_host e) (ev_set e) = Some x.
Proof. intro H. destruct (run_origin br evs [] x H) as [[]|H1]; exact H1. Qed.
Lemma run_places br evs : forall j, NoDup (map place j) -> NoDup (map place (run br j evs)).
Proof. induction evs as [|e evs IH]; intros j H; [exact H|]. cbn [run fold_left]. apply IH. apply receive_places. exact H. Qed.
Lemma jar_places br evs : NoDup (map place (jar_after br evs)).
Proof. apply (run_places br evs []). constructor. Qed.
Lemma run_keeps br evs : forall j x, In x j -> (forall e, In e evs -> at_name (ev_set e) <> st_name x) -> In x (run br j evs).
Proof.
  induction evs as [|e evs IH]; intros j x H N; [exact H|]. cbn [run fold_left]. apply IH.
  - apply receive_keeps; [exact H|]. intro E. apply (N e (or_introl eq_refl)). congruence.
  - intros e' H'. apply N. right. exact H'.
Qed.
Lemma jar_ok br evs : received_ok evs -> Forall stored_ok (jar_after br evs).
Proof.
  intro H. apply Forall_forall. intros x Hx. destruct (jar_origin _ _ _ Hx) as (e & He & Hw).
  destruct (wanted_fields _ _ _ _ Hw) as (N & V & _). unfold received_ok in H. rewrite Forall_forall in H. specialize (H e He).
  unfold stored_ok. rewrite N, V. exact H.
Qed.
Lemma sent_ok br evs host path now : received_ok evs -> Forall stored_ok (sent br (jar_after br evs) host path now).
Proof.
  intro H. apply Forall_forall. intros x Hx. apply sent_In in Hx. destruct Hx as [Hx _].
  assert (F := jar_ok br evs H). rewrite Forall_forall in F. exact (F x Hx).
Qed.

(** When all cookies of a name that go with a request are the same one. *)
Lemma get_only br evs host path now more n c : received_ok evs -> h_values (lit "cookie") more = [] ->
  In c (jar_after br evs) -> goes br host path now c = true -> st_name c = n -> is_token n = true -> plain_value (st_value c) ->
  (forall x, In x (jar_after br evs) -> st_name x = n -> goes br host path now x = true -> x = c) ->
  get_cookie n (rq_headers (browse br (jar_after br evs) host path now more)) = Some (st_value c).
Proof.
  intros R M Hin Hg Hn Ht Hv U. cbn [browse rq_headers].
  assert (Hs : In c (sent br (jar_after br evs) host path now)) by (apply sent_In; auto).
  assert (U' : forall x, In x (sent br (jar_after br evs) host path now) -> st_name x = n -> x = c)
    by (intros x Hx Nx; apply sent_In in Hx; apply U; tauto).
  assert (F := sent_ok br evs host path now R).
  assert (X : exists l1 l2, sent br (jar_after br evs) host path now = l1 ++ c :: l2 /\ forall x, In x l1 -> st_name x <> n).
  { clear - Hs U' Hn. revert U'. induction (sent br (jar_after br evs) host path now) as [|y l IH]; [destruct Hs|]. intro U'.
    destruct (str_eq_dec (st_name y) n) as [E|E].
    - exists [], l. rewrite (U' y (or_introl eq_refl) E). split; [reflexivity|]. contradiction.
    - destruct Hs as [->|Hs]; [congruence|]. destruct (IH Hs) as (l1 & l2 & -> & N); [intros; apply U'; [right; assumption|assumption]|].
      exists (y :: l1), l2. split; [reflexivity|]. intros x [<-|Hx]; [exact E|exact (N x Hx)]. }
  destruct X as (l1 & l2 & E & N). exact (get_first _ _ n c l1 l2 F M E N Hn Ht Hv).
Qed.
