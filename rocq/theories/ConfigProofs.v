(** Config.Check: the loops. *)
From Verif Require Import Base HttpModel SettingsModel ConfigModel ConfigSpec.
Local Open Scope Z_scope.

Lemma bind_ok {A B} (a : outcome A) (f : A -> outcome B) r :
  (do x <- a; f x) = Ok r <-> exists x, a = Ok x /\ f x = Ok r.
Proof.
  destruct a; cbn; split; try discriminate; try (intros (? & ? & ?); discriminate).
  - intros H. eauto.
  - intros (x & [= ->] & H). exact H.
Qed.
Lemma need_ok b u : need b = Ok u <-> b = true.
Proof. destruct b, u; cbn; split; congruence. Qed.
Lemma need_then {B} b (k : outcome B) r : (do _ <- need b; k) = Ok r <-> b = true /\ k = Ok r.
Proof.
  rewrite bind_ok. split.
  - intros (x & H & K). apply need_ok in H. auto.
  - intros [H K]. exists tt. split; [apply need_ok; exact H|exact K].
Qed.

(** *** A loop without a state *)

Lemma each_ok {A B} (f : option A -> outcome (option B)) (P : A -> Prop) (g : A -> B) :
  (forall p y, f (Some p) = Ok y <-> P p /\ y = Some (g p)) ->
  (forall y, f None <> Ok y) ->
  forall l r, each f l = Ok r <->
    no_null l /\ (forall p, In p (present l) -> P p) /\ r = map (option_map g) l.
Proof.
  intros HS HN. induction l as [|o l IH]; intros r.
  - cbn. split; [intros [= <-]|intros (_ & _ & ->)]; [|reflexivity].
    split; [intros []|]. split; [intros p []|reflexivity].
  - cbn [each]. rewrite bind_ok. setoid_rewrite bind_ok. destruct o as [p|].
    + split.
      * intros (y & Hy & r' & Hr & [= <-]). apply HS in Hy as [Hp ->]. apply IH in Hr as (N & Q & ->).
        split; [intros [H|H]; [discriminate|exact (N H)]|]. split; [|reflexivity].
        intros q [<-|H]; auto.
      * intros (N & Q & ->). exists (Some (g p)). split; [apply HS; split; [apply Q; left; reflexivity|reflexivity]|].
        exists (map (option_map g) l). split; [|reflexivity]. apply IH.
        split; [intros H; apply N; right; exact H|]. split; [|reflexivity]. intros q H. apply Q. right. exact H.
    + split.
      * intros (y & Hy & _). destruct (HN _ Hy).
      * intros (N & _). destruct N. left. reflexivity.
Qed.

(** *** A loop with a state *)

Fixpoint okall {S A} (Q : S -> A -> Prop) (h : S -> A -> S) (s : S) (l : list A) : Prop :=
  match l with
  | [] => True
  | x :: l' => Q s x /\ okall Q h (h s x) l'
  end.

Lemma each_st_opt {S A B} (f : S -> option A -> outcome (S * option B)) (Q : S -> A -> Prop) (h : S -> A -> S) (g : A -> B) :
  (forall s p r, f s (Some p) = Ok r <-> Q s p /\ r = (h s p, Some (g p))) ->
  (forall s y, f s None <> Ok y) ->
  forall l s r, each_st f s l = Ok r <->
    no_null l /\ okall Q h s (present l) /\ r = (fold_left h (present l) s, map (option_map g) l).
Proof.
  intros HS HN. induction l as [|o l IH]; intros s r.
  - cbn. split; [intros [= <-]|intros (_ & _ & ->)]; [|reflexivity].
    split; [intros []|]. split; [exact I|reflexivity].
  - cbn [each_st]. rewrite bind_ok. setoid_rewrite bind_ok. destruct o as [p|].
    + split.
      * intros (y & Hy & r' & Hr & [= <-]). apply HS in Hy as [Hp ->]. apply IH in Hr as (N & O & ->).
        split; [intros [H|H]; [discriminate|exact (N H)]|]. split; [|reflexivity].
        split; assumption.
      * intros (N & [O1 O2] & ->). exists (h s p, Some (g p)). split; [apply HS; auto|].
        exists (fold_left h (present l) (h s p), map (option_map g) l). split; [|reflexivity]. apply IH.
        split; [intros H; apply N; right; exact H|]. split; [exact O2|reflexivity].
    + split.
      * intros (y & Hy & _). destruct (HN _ _ Hy).
      * intros (N & _). destruct N. left. reflexivity.
Qed.

Lemma each_st_plain {S A B} (f : S -> A -> outcome (S * B)) (Q : S -> A -> Prop) (h : S -> A -> S) (g : A -> B) :
  (forall s p r, f s p = Ok r <-> Q s p /\ r = (h s p, g p)) ->
  forall l s r, each_st f s l = Ok r <-> okall Q h s l /\ r = (fold_left h l s, map g l).
Proof.
  intros HS. induction l as [|p l IH]; intros s r.
  - cbn. split; [intros [= <-]; auto|intros [_ ->]; reflexivity].
  - cbn [each_st]. rewrite bind_ok. setoid_rewrite bind_ok. split.
    + intros (y & Hy & r' & Hr & [= <-]). apply HS in Hy as [Hp ->]. apply IH in Hr as (O & ->).
      split; [split; assumption|reflexivity].
    + intros ([O1 O2] & ->). exists (h s p, g p). split; [apply HS; auto|].
      exists (fold_left h l (h s p), map g l). split; [|reflexivity]. apply IH. auto.
Qed.

Lemma okall_ext {S A} (Q Q' : S -> A -> Prop) (h h' : S -> A -> S) l :
  (forall s x, Q s x <-> Q' s x) -> (forall s x, h s x = h' s x) ->
  forall s, okall Q h s l <-> okall Q' h' s l.
Proof.
  intros HQ Hh. induction l as [|x l IH]; intros s; cbn; [reflexivity|].
  rewrite HQ, Hh, IH. reflexivity.
Qed.
Lemma okall_and {S A} (Q R : S -> A -> Prop) (h : S -> A -> S) l : forall s,
  okall (fun s x => Q s x /\ R s x) h s l <-> okall Q h s l /\ okall R h s l.
Proof. induction l as [|x l IH]; intros s; cbn; [tauto|]. rewrite IH. tauto. Qed.
Lemma okall_const {S A} (P : A -> Prop) (h : S -> A -> S) l : forall s,
  okall (fun _ x => P x) h s l <-> forall x, In x l -> P x.
Proof.
  induction l as [|x l IH]; intros s; cbn; [split; [intros _ x []|auto]|].
  rewrite IH. split.
  - intros [H K] y [<-|Hy]; auto.
  - intros H. split; [|intros y Hy]; apply H; auto.
Qed.
Lemma okall_app {S A} (Q : S -> A -> Prop) (h : S -> A -> S) a b : forall s,
  okall Q h s (a ++ b) <-> okall Q h s a /\ okall Q h (fold_left h a s) b.
Proof. induction a as [|x a IH]; intros s; cbn; [tauto|]. rewrite IH. tauto. Qed.
Lemma okall_split {S A} (Q : S -> A -> Prop) (h : S -> A -> S) l : forall s,
  okall Q h s l <-> forall l1 x l2, l = l1 ++ x :: l2 -> Q (fold_left h l1 s) x.
Proof.
  induction l as [|y l IH]; intros s; cbn.
  - split; [|auto]. intros _ l1 x l2 H. destruct l1; discriminate.
  - rewrite IH. split.
    + intros [H K] [|z l1] x l2 E; cbn in E |- *; injection E as <- E; [exact H|exact (K _ _ _ E)].
    + intros H. split; [exact (H [] y l eq_refl)|]. intros l1 x l2 ->. exact (H (y :: l1) x l2 eq_refl).
Qed.
Lemma okall_flat {S A B} (Q : S -> B -> Prop) (h : S -> B -> S) (F : A -> list B) l : forall s,
  okall (fun s b => okall Q h s (F b)) (fun s b => fold_left h (F b) s) s l <-> okall Q h s (flat_map F l).
Proof. induction l as [|x l IH]; intros s; cbn; [tauto|]. rewrite okall_app, IH. tauto. Qed.
Lemma fold_flat {S A B} (h : S -> B -> S) (F : A -> list B) l : forall s,
  fold_left (fun s b => fold_left h (F b) s) l s = fold_left h (flat_map F l) s.
Proof. induction l as [|x l IH]; intros s; cbn; [reflexivity|]. rewrite IH, fold_left_app. reflexivity. Qed.
Lemma okall_pair {S T A} (Q : S -> A -> Prop) (R : T -> A -> Prop) (h : S -> A -> S) (k : T -> A -> T) l : forall s,
  okall (fun s x => Q (fst s) x /\ R (snd s) x) (fun s x => (h (fst s) x, k (snd s) x)) s l <->
  okall Q h (fst s) l /\ okall R k (snd s) l.
Proof. induction l as [|x l IH]; intros s; cbn; [tauto|]. rewrite IH. cbn. tauto. Qed.
Lemma fold_pair {S T A} (h : S -> A -> S) (k : T -> A -> T) l : forall s,
  fold_left (fun s x => (h (fst s) x, k (snd s) x)) l s = (fold_left h l (fst s), fold_left k l (snd s)).
Proof. induction l as [|x l IH]; intros [s t]; cbn; [reflexivity|]. rewrite IH. reflexivity. Qed.
Lemma fold_cons {A B} (f : A -> B) l : forall s,
  fold_left (fun s x => f x :: s) l s = rev (map f l) ++ s.
Proof. induction l as [|x l IH]; intros s; cbn; [reflexivity|]. rewrite IH, <- app_assoc. reflexivity. Qed.

(** Names that must not repeat. *)
Lemma okall_fresh {A B} (f : A -> B) l : forall s,
  okall (fun s x => ~ In (f x) s) (fun s x => f x :: s) s l <->
  NoDup (map f l) /\ forall n, In n (map f l) -> ~ In n s.
Proof.
  induction l as [|x l IH]; intros s; cbn.
  - split; [intros _; split; [constructor|intros n []]|auto].
  - rewrite IH. split.
    + intros (H & N & D). split; [constructor; [|exact N]|].
      * intros HI. apply (D _ HI). left. reflexivity.
      * intros n [<-|Hn]; [exact H|]. intros Hs. apply (D _ Hn). right. exact Hs.
    + intros (N & D). inversion N as [|? ? N1 N2]; subst. split; [apply D; auto|]. split; [exact N2|].
      intros n Hn [<-|Hs]; [exact (N1 Hn)|]. exact (D n (or_intror Hn) Hs).
Qed.

Lemma nodup_app_iff {A} (a b : list A) :
  NoDup (a ++ b) <-> NoDup a /\ NoDup b /\ forall x, In x b -> ~ In x a.
Proof.
  induction a as [|x a IH]; cbn.
  - split; [intros H; split; [constructor|auto]|tauto].
  - split.
    + intros H. inversion H as [|? ? N1 N2]; subst. apply IH in N2 as (Na & Nb & D).
      rewrite in_app_iff in N1. split; [constructor; tauto|]. split; [exact Nb|].
      intros y Hy [<-|Ha]; [tauto|exact (D y Hy Ha)].
    + intros (Na & Nb & D). inversion Na as [|? ? N1 N2]; subst. constructor.
      * rewrite in_app_iff. intros [H|H]; [exact (N1 H)|]. exact (D x H (or_introl eq_refl)).
      * apply IH. split; [exact N2|]. split; [exact Nb|]. intros y Hy Ha. exact (D y Hy (or_intror Ha)).
Qed.

(** *** Errors *)

Definition safe {A} (a : outcome A) : Prop := match a with Ok _ | Err => True | _ => False end.
Lemma safe_bind {A B} (a : outcome A) (f : A -> outcome B) :
  safe a -> (forall x, a = Ok x -> safe (f x)) -> safe (do x <- a; f x).
Proof. destruct a; cbn; auto. Qed.
Lemma safe_need b : safe (need b).
Proof. destruct b; exact I. Qed.
Lemma safe_need_then {B} b (k : outcome B) : (b = true -> safe k) -> safe (do _ <- need b; k).
Proof. destruct b; cbn; auto. Qed.
Lemma safe_each {A B} (f : A -> outcome B) l : (forall x, In x l -> safe (f x)) -> safe (each f l).
Proof.
  induction l as [|x l IH]; intros H; cbn; [exact I|].
  apply safe_bind; [apply H; left; reflexivity|]. intros y _. apply safe_bind; [|intros; exact I].
  apply IH. intros z Hz. apply H. right. exact Hz.
Qed.
Lemma safe_each_st {S A B} (f : S -> A -> outcome (S * B)) l : forall s,
  (forall s x, In x l -> safe (f s x)) -> safe (each_st f s l).
Proof.
  induction l as [|x l IH]; intros s H; cbn; [exact I|].
  apply safe_bind; [apply H; left; reflexivity|]. intros y _. apply safe_bind; [|intros; exact I].
  apply IH. intros t z Hz. apply H. right. exact Hz.
Qed.
Lemma no_null_some {A} (l : list (option A)) o : no_null l -> In o l -> exists a, o = Some a /\ In a (present l).
Proof.
  intros N Ho. destruct o as [a|]; [|destruct (N Ho)]. exists a. split; [reflexivity|].
  apply in_flat_map. exists (Some a). split; [exact Ho|left; reflexivity].
Qed.
