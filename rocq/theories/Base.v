(** Byte strings and the parts of Go's [strings] / [slices] packages that the
    model uses.  A Go string is a list of bytes ([ascii]). *)
From Coq Require Export List Arith NArith ZArith Lia Bool Ascii String.
From Coq Require Import ZifyBool ZifyNat ZifyN.
Export ListNotations.
Open Scope list_scope.

Notation str := (list ascii).

(** String literals, written [!"abc"]. *)
Definition lit (s : string) : str := list_ascii_of_string s.
Arguments lit s%string.

Notation "'!' s" := (lit s%string) (at level 9, s at level 0, only parsing).

(** Artefact: equality of bytes. *)
Definition ascii_eqb := Ascii.eqb.

(** Go string comparison. *)
Fixpoint str_eqb (a b : str) : bool :=
  match a, b with
  | [], [] => true
  | x :: a', y :: b' => Ascii.eqb x y && str_eqb a' b'
  | _, _ => false
  end.

Lemma str_eqb_spec a b : str_eqb a b = true <-> a = b.
Proof.
  revert b; induction a as [|x a IH]; intros [|y b]; simpl; split; intros H;
    try reflexivity; try discriminate.
  - apply andb_true_iff in H as [H1 H2].
    apply Ascii.eqb_eq in H1. apply IH in H2. congruence.
  - injection H as -> ->. rewrite Ascii.eqb_refl. simpl. apply IH. reflexivity.
Qed.

Lemma str_eqb_refl a : str_eqb a a = true.
Proof. apply str_eqb_spec; reflexivity. Qed.

Lemma str_eqb_neq a b : str_eqb a b = false <-> a <> b.
Proof.
  split; intros H.
  - intros ->. rewrite str_eqb_refl in H. discriminate.
  - destruct (str_eqb a b) eqn:E; [|reflexivity].
    apply str_eqb_spec in E. contradiction.
Qed.

Lemma str_eqb_sym a b : str_eqb a b = str_eqb b a.
Proof.
  destruct (str_eqb a b) eqn:E.
  - apply str_eqb_spec in E as ->. symmetry. apply str_eqb_refl.
  - symmetry. apply str_eqb_neq. apply str_eqb_neq in E. congruence.
Qed.

(** Artefact: decidable equality. *)
Definition str_eq_dec (a b : str) : {a = b} + {a <> b} := list_eq_dec ascii_dec a b.

(** slices.Contains *)
Fixpoint mem (x : str) (l : list str) : bool :=
  match l with
  | [] => false
  | y :: l' => str_eqb x y || mem x l'
  end.

Lemma mem_spec x l : mem x l = true <-> In x l.
Proof.
  induction l as [|y l IH]; simpl; [split; [discriminate|tauto]|].
  rewrite orb_true_iff, str_eqb_spec, IH. split; intros [H|H]; auto.
Qed.

Lemma mem_false x l : mem x l = false <-> ~ In x l.
Proof.
  rewrite <- mem_spec. destruct (mem x l); split; congruence.
Qed.

(** strings.HasPrefix *)
Fixpoint has_prefix (s p : str) {struct p} : bool :=
  match p, s with
  | [], _ => true
  | y :: p', x :: s' => Ascii.eqb x y && has_prefix s' p'
  | _ :: _, [] => false
  end.

Lemma has_prefix_spec s p : has_prefix s p = true <-> exists t, s = p ++ t.
Proof.
  revert s; induction p as [|y p IH]; intros s; simpl.
  - split; intros _; [exists s|]; reflexivity.
  - destruct s as [|x s]; [split; [discriminate|intros [t H]; discriminate]|].
    rewrite andb_true_iff, Ascii.eqb_eq, IH. split.
    + intros [-> [t ->]]. exists t. reflexivity.
    + intros [t H]. injection H as -> ->. split; [reflexivity|exists t; reflexivity].
Qed.

Lemma has_prefix_app p t : has_prefix (p ++ t) p = true.
Proof. apply has_prefix_spec. exists t. reflexivity. Qed.

Lemma has_prefix_refl p : has_prefix p p = true.
Proof. apply has_prefix_spec. exists []. rewrite app_nil_r. reflexivity. Qed.

(** strings.HasSuffix *)
Definition has_suffix (s p : str) : bool := has_prefix (rev s) (rev p).

Lemma has_suffix_spec s p : has_suffix s p = true <-> exists t, s = t ++ p.
Proof.
  unfold has_suffix. rewrite has_prefix_spec. split; intros [t H].
  - exists (rev t). rewrite <- (rev_involutive s), H, rev_app_distr, rev_involutive.
    reflexivity.
  - exists (rev t). rewrite H, rev_app_distr. reflexivity.
Qed.

(** strings.TrimPrefix *)
Definition trim_prefix (s p : str) : str :=
  if has_prefix s p then skipn (List.length p) s else s.

Lemma trim_prefix_app p t : trim_prefix (p ++ t) p = t.
Proof.
  unfold trim_prefix. rewrite has_prefix_app.
  rewrite skipn_app, skipn_all, Nat.sub_diag. reflexivity.
Qed.

(** strings.TrimSuffix *)
Definition trim_suffix (s p : str) : str :=
  if has_suffix s p then firstn (List.length s - List.length p) s else s.

Lemma trim_suffix_app t p : trim_suffix (t ++ p) p = t.
Proof.
  unfold trim_suffix.
  assert (H : has_suffix (t ++ p) p = true) by (apply has_suffix_spec; exists t; reflexivity).
  rewrite H, app_length.
  replace (List.length t + List.length p - List.length p) with (List.length t) by lia.
  rewrite firstn_app, firstn_all, Nat.sub_diag. simpl. apply app_nil_r.
Qed.

(** strings.IndexByte(s, c) >= 0 *)
Fixpoint has_char (c : ascii) (s : str) : bool :=
  match s with
  | [] => false
  | x :: s' => Ascii.eqb x c || has_char c s'
  end.

Lemma has_char_spec c s : has_char c s = true <-> In c s.
Proof.
  induction s as [|x s IH]; simpl; [split; [discriminate|tauto]|].
  rewrite orb_true_iff, Ascii.eqb_eq, IH. tauto.
Qed.

Lemma has_char_false c s : has_char c s = false <-> ~ In c s.
Proof. rewrite <- has_char_spec. destruct (has_char c s); split; congruence. Qed.

(** strings.Cut(s, string(c)): the part before the first [c], the part after
    it, and whether [c] occurs. *)
Fixpoint cut (c : ascii) (s : str) : str * str * bool :=
  match s with
  | [] => ([], [], false)
  | x :: s' =>
      if Ascii.eqb x c then ([], s', true)
      else let '(a, b, f) := cut c s' in (x :: a, b, f)
  end.

Lemma cut_spec c s : 
  (exists a b, s = a ++ c :: b /\ ~ In c a /\ cut c s = (a, b, true)) \/
  (~ In c s /\ cut c s = (s, [], false)).
Proof.
  induction s as [|x s IH]; simpl.
  - right. split; [tauto|reflexivity].
  - destruct (Ascii.eqb x c) eqn:E.
    + apply Ascii.eqb_eq in E as ->. left. exists [], s. simpl. tauto.
    + apply Ascii.eqb_neq in E.
      destruct IH as [(a & b & -> & Hn & ->)|[Hn ->]].
      * left. exists (x :: a), b. simpl. repeat split; try reflexivity.
        intros [H|H]; [congruence|contradiction].
      * right. split; [|reflexivity]. intros [H|H]; [congruence|contradiction].
Qed.

(** strings.Split(s, string(c)) for a one byte separator *)
Fixpoint split_on (c : ascii) (s : str) : list str :=
  match s with
  | [] => [[]]
  | x :: s' =>
      if Ascii.eqb x c then [] :: split_on c s'
      else match split_on c s' with
           | [] => [[x]]
           | h :: t => (x :: h) :: t
           end
  end.

(** strings.Join(l, string(c)) *)
Fixpoint join (c : ascii) (l : list str) : str :=
  match l with
  | [] => []
  | [x] => x
  | x :: l' => x ++ c :: join c l'
  end.

Lemma split_on_nonempty c s : split_on c s <> [].
Proof.
  destruct s as [|x s]; simpl; [discriminate|].
  destruct (Ascii.eqb x c); [discriminate|].
  destruct (split_on c s); discriminate.
Qed.

Lemma split_on_no_sep c s : Forall (fun p => ~ In c p) (split_on c s).
Proof.
  induction s as [|x s IH]; simpl.
  - constructor; [simpl; tauto|constructor].
  - destruct (Ascii.eqb x c) eqn:E.
    + constructor; [simpl; tauto|exact IH].
    + apply Ascii.eqb_neq in E.
      destruct (split_on c s) as [|h t].
      * constructor; [|constructor]. simpl. intros [H|[]]. congruence.
      * inversion IH as [|h' t' Hh Ht]; subst. constructor; [|exact Ht].
        simpl. intros [H|H]; [congruence|contradiction].
Qed.

Lemma join_cons c x l : l <> [] -> join c (x :: l) = x ++ c :: join c l.
Proof. destruct l; [congruence|reflexivity]. Qed.

Lemma join_split c s : join c (split_on c s) = s.
Proof.
  induction s as [|x s IH]; [reflexivity|].
  simpl split_on. destruct (Ascii.eqb x c) eqn:E.
  - apply Ascii.eqb_eq in E as ->.
    rewrite join_cons by apply split_on_nonempty. rewrite IH. reflexivity.
  - destruct (split_on c s) as [|h t] eqn:Es; [exfalso; exact (split_on_nonempty _ _ Es)|].
    destruct t as [|h2 t].
    + simpl in *. congruence.
    + simpl in IH |- *. rewrite IH. reflexivity.
Qed.

Lemma split_on_no_char c s : ~ In c s -> split_on c s = [s].
Proof.
  induction s as [|x s IH]; simpl; intros H; [reflexivity|].
  destruct (Ascii.eqb x c) eqn:E.
  - apply Ascii.eqb_eq in E. tauto.
  - rewrite IH by tauto. reflexivity.
Qed.

Lemma split_on_app c a b : ~ In c a -> split_on c (a ++ c :: b) = a :: split_on c b.
Proof.
  induction a as [|x a IH]; simpl; intros H.
  - rewrite Ascii.eqb_refl. reflexivity.
  - destruct (Ascii.eqb x c) eqn:E.
    + apply Ascii.eqb_eq in E. tauto.
    + rewrite IH by tauto. reflexivity.
Qed.

Lemma split_join c l :
  l <> [] -> Forall (fun p => ~ In c p) l -> split_on c (join c l) = l.
Proof.
  induction l as [|x l IH]; intros Hne Hf; [congruence|].
  inversion Hf as [|x' l' Hx Hl]; subst.
  destruct l as [|y l].
  - simpl. apply split_on_no_char. exact Hx.
  - rewrite join_cons by discriminate.
    rewrite split_on_app by exact Hx. rewrite IH; [reflexivity|discriminate|exact Hl].
Qed.

(** strings.ToLower on ASCII letters.  Go lower-cases all of Unicode; only
    ASCII is modelled (server names are converted to ASCII by IDNA first). *)
Definition lower_char (c : ascii) : ascii :=
  let n := N_of_ascii c in
  if andb (65 <=? n)%N (n <=? 90)%N then ascii_of_N (n + 32) else c.
(** strings.ToLower, for ASCII letters *)
Definition to_lower (s : str) : str := map lower_char s.

(** strings.ToUpper on ASCII letters. *)
Definition upper_char (c : ascii) : ascii :=
  let n := N_of_ascii c in
  if andb (97 <=? n)%N (n <=? 122)%N then ascii_of_N (n - 32) else c.
(** strings.ToUpper, for ASCII letters *)
Definition to_upper (s : str) : str := map upper_char s.

Lemma lower_char_idem c : lower_char (lower_char c) = lower_char c.
Proof.
  destruct c as [b0 b1 b2 b3 b4 b5 b6 b7].
  destruct b0, b1, b2, b3, b4, b5, b6, b7; vm_compute; reflexivity.
Qed.

Lemma to_lower_idem s : to_lower (to_lower s) = to_lower s.
Proof.
  unfold to_lower. rewrite map_map. apply map_ext. exact lower_char_idem.
Qed.

(** strings.ReplaceAll(s, string(c), r) for a one byte pattern *)
Fixpoint replace_char (c : ascii) (r : str) (s : str) : str :=
  match s with
  | [] => []
  | x :: s' => if Ascii.eqb x c then r ++ replace_char c r s' else x :: replace_char c r s'
  end.

(** Maps from strings: association lists, first binding wins. *)
Fixpoint assoc {A : Type} (k : str) (l : list (str * A)) : option A :=
  match l with
  | [] => None
  | (k', v) :: l' => if str_eqb k k' then Some v else assoc k l'
  end.

(** delete(m, k) *)
Definition assoc_del {A : Type} (k : str) (l : list (str * A)) : list (str * A) :=
  filter (fun kv => negb (str_eqb k (fst kv))) l.

(** m[k] = v *)
Definition assoc_set {A : Type} (k : str) (v : A) (l : list (str * A)) : list (str * A) :=
  (k, v) :: assoc_del k l.

Lemma assoc_del_eq {A : Type} k (l : list (str * A)) : assoc k (assoc_del k l) = None.
Proof.
  induction l as [|[k' v] l IH]; simpl; [reflexivity|].
  destruct (str_eqb k k') eqn:E; simpl; [exact IH|]. rewrite E. exact IH.
Qed.

Lemma assoc_del_neq {A : Type} k k' (l : list (str * A)) :
  k <> k' -> assoc k' (assoc_del k l) = assoc k' l.
Proof.
  intros Hne. induction l as [|[k2 v] l IH]; simpl; [reflexivity|].
  destruct (str_eqb k k2) eqn:E; simpl.
  - apply str_eqb_spec in E as <-.
    destruct (str_eqb k' k) eqn:E2; [apply str_eqb_spec in E2; congruence|exact IH].
  - destruct (str_eqb k' k2); [reflexivity|exact IH].
Qed.

Lemma assoc_set_eq {A : Type} k (v : A) l : assoc k (assoc_set k v l) = Some v.
Proof. unfold assoc_set. simpl. rewrite str_eqb_refl. reflexivity. Qed.

Lemma assoc_set_neq {A : Type} k k' (v : A) l :
  k <> k' -> assoc k' (assoc_set k v l) = assoc k' l.
Proof.
  intros Hne. unfold assoc_set. simpl.
  destruct (str_eqb k' k) eqn:E; [apply str_eqb_spec in E; congruence|].
  apply assoc_del_neq. exact Hne.
Qed.

Lemma assoc_In {A : Type} k (v : A) l : assoc k l = Some v -> In (k, v) l.
Proof.
  induction l as [|[k' v'] l IH]; simpl; [discriminate|].
  destruct (str_eqb k k') eqn:E.
  - intros H. injection H as ->. apply str_eqb_spec in E as ->. left. reflexivity.
  - intros H. right. apply IH. exact H.
Qed.

Lemma assoc_None {A : Type} k (l : list (str * A)) :
  assoc k l = None <-> ~ In k (map fst l).
Proof.
  induction l as [|[k' v'] l IH]; simpl; [tauto|].
  destruct (str_eqb k k') eqn:E.
  - apply str_eqb_spec in E as ->. split; [discriminate|]. intros H. exfalso. apply H. left. reflexivity.
  - apply str_eqb_neq in E. rewrite IH. split; intros H.
    + intros [H1|H1]; [congruence|contradiction].
    + intros H1. apply H. right. exact H1.
Qed.

(** Outcome of a Go function that can fail or panic. *)
Inductive outcome (A : Type) : Type :=
| Ok (a : A)
| Err            (* returned a non-nil error *)
| Panic          (* run-time panic *)
| OutOfFuel.     (* artefact of the model: proved unreachable *)
Arguments Ok {A} a.
Arguments Err {A}.
Arguments Panic {A}.
Arguments OutOfFuel {A}.

(** Artefact: sequencing of outcomes. *)
Definition bind {A B : Type} (x : outcome A) (f : A -> outcome B) : outcome B :=
  match x with
  | Ok a => f a
  | Err => Err
  | Panic => Panic
  | OutOfFuel => OutOfFuel
  end.

Notation "'do' p <- x ; y" := (bind x (fun p => y))
  (at level 200, p pattern, x at level 100, y at level 200, only parsing).
