From Verif Require Import Base CleanupModel CleanupSpec.
Local Open Scope Z_scope.

Lemma after_app s a b : after s (a ++ b) = after (after s a) b.
Proof. revert s; induction a as [|o a IH]; intros s; simpl; auto. Qed.

Lemma after_snoc s a o : after s (a ++ [o]) = step (after s a) o.
Proof. rewrite after_app. reflexivity. Qed.

Lemma unused_spec names certs k :
  In k (unused names certs) ->
  exists c, In (k, c) certs /\ ~ listed names c /\ lfNames c <> [].
Proof.
  unfold unused. intros H. apply in_map_iff in H as ((k', c) & E & I). simpl in E; subst k'.
  apply filter_In in I as (I & F). cbn [snd] in F. apply andb_true_iff in F as (F & G).
  exists c. repeat split; auto.
  - intros (n & A & B). apply negb_true_iff in F.
    assert (X : existsb (fun n => mem n names) (lfNames c) = true).
    { apply existsb_exists. exists n. split; auto. apply mem_spec; auto. }
    congruence.
  - intros X. rewrite X in G. discriminate.
Qed.

Lemma unused_complete names certs k c :
  In (k, c) certs -> ~ listed names c -> lfNames c <> [] -> In k (unused names certs).
Proof.
  intros I N E. unfold unused. apply in_map_iff. exists (k, c). split; auto.
  apply filter_In. split; auto. cbn [snd]. apply andb_true_iff. split; apply negb_true_iff.
  - destruct (existsb (fun n => mem n names) (lfNames c)) eqn:X; auto.
    apply existsb_exists in X as (n & A & B). apply mem_spec in B.
    exfalso. apply N. exists n. auto.
  - destruct (lfNames c); [congruence|reflexivity].
Qed.

Lemma assoc_In {A} k (l : list (str * A)) v : assoc k l = Some v -> In (k, v) l.
Proof.
  induction l as [|(k', v') l IH]; simpl; [discriminate|].
  destruct (str_eqb k k') eqn:E.
  - intros H. injection H as ->. apply str_eqb_spec in E. subst. auto.
  - auto.
Qed.

Lemma In_assoc_set {A} k (v : A) l x : In x (assoc_set k v l) -> x = (k, v) \/ In x l.
Proof.
  unfold assoc_set. intros [H|H]; auto. right.
  unfold assoc_del in H. apply filter_In in H. tauto.
Qed.

(** The list of certificates has every key once. *)
Lemma NoDup_assoc_set {A} k (v : A) l :
  NoDup (map fst l) -> NoDup (map fst (assoc_set k v l)).
Proof.
  intros N. unfold assoc_set. simpl. constructor.
  - intros X. apply in_map_iff in X as ((k', v') & E & I). simpl in E; subst k'.
    unfold assoc_del in I. apply filter_In in I as (_ & I). simpl in I.
    rewrite str_eqb_refl in I. discriminate.
  - unfold assoc_del. clear v. induction l as [|(k', v') l IH]; simpl; [constructor|].
    simpl in N. inversion N as [|? ? N1 N2]; subst.
    destruct (negb _); simpl; auto. constructor; auto.
    intros X. apply N1. apply in_map_iff in X as (y & E & I). apply filter_In in I as (I & _).
    apply in_map_iff. eauto.
Qed.

Lemma In_assoc {A} k (l : list (str * A)) v : NoDup (map fst l) -> In (k, v) l -> assoc k l = Some v.
Proof.
  induction l as [|(k', v') l IH]; simpl; intros N I; [destruct I|].
  inversion N as [|? ? N1 N2]; subst. destruct I as [E|I].
  - injection E as -> ->. rewrite str_eqb_refl. auto.
  - destruct (str_eqb k k') eqn:E; auto. apply str_eqb_spec in E. subst k'.
    exfalso. apply N1. apply in_map_iff. exists (k, v). auto.
Qed.

(** What is known about the certificates that the clean-up works with: the names were
    read after [h0], each certificate was in the cache later. *)
Definition seen (s0 : state) (h : list op) (names : list str) (certs : list (str * leaf)) : Prop :=
  exists h0 h', h = h0 ++ h' /\ names = sNames (after s0 h0) /\ NoDup (map fst certs) /\
    forall k c, In (k, c) certs -> k <> account_key /\
      exists h1 h2, h' = h1 ++ h2 /\ assoc k (sCache (after s0 (h0 ++ h1))) = Some (Some c).

(** A certificate that the clean-up may revoke. *)
Definition condemned (s0 : state) (h : list op) (c : leaf) : Prop :=
  exists k h0 h1 h2, h = h0 ++ h1 ++ h2 /\ ~ listed (sNames (after s0 h0)) c /\ lfNames c <> [] /\
    assoc k (sCache (after s0 (h0 ++ h1))) = Some (Some c).

Definition inv (s0 : state) (h : list op) (s : state) : Prop :=
  (forall n, In n (sRevoked s) -> In n (sRevoked s0) \/ exists c, lfSerial c = n /\ condemned s0 h c) /\
  match sPhase s with
  | Idle | HaveFlag _ | Finished _ => True
  | HaveNames _ names => seen s0 h names []
  | Reading _ names _ certs => seen s0 h names certs
  | Listed _ todo certs => exists names, seen s0 h names certs /\ todo = unused names certs
  | Revoking _ todo all certs =>
      exists names, seen s0 h names certs /\ all = unused names certs /\ incl todo all
  end.

Lemma seen_snoc s0 h names certs o : seen s0 h names certs -> seen s0 (h ++ [o]) names certs.
Proof.
  intros (h0 & h' & -> & E & ND & H). exists h0, (h' ++ [o]). rewrite app_assoc.
  repeat split; auto; intros.
  - apply (H _ _ H0).
  - destruct (H _ _ H0) as (_ & h1 & h2 & -> & A). exists h1, (h2 ++ [o]).
    rewrite app_assoc. auto.
Qed.

Lemma condemned_snoc s0 h c o : condemned s0 h c -> condemned s0 (h ++ [o]) c.
Proof.
  intros (k & h0 & h1 & h2 & -> & A). exists k, h0, h1, (h2 ++ [o]).
  rewrite <- !app_assoc. auto.
Qed.

Lemma inv_step s0 h o : sPhase s0 = Idle -> inv s0 h (after s0 h) -> inv s0 (h ++ [o]) (after s0 (h ++ [o])).
Proof.
  intros P0 (R & P). rewrite after_snoc. set (s := after s0 h) in *.
  assert (R' : forall n, In n (sRevoked s) ->
            In n (sRevoked s0) \/ exists c, lfSerial c = n /\ condemned s0 (h ++ [o]) c).
  { intros n I. destruct (R n I) as [X|(c & E & X)]; auto. right. exists c. split; auto.
    apply condemned_snoc; auto. }
  assert (P' : match sPhase s with
               | Idle | HaveFlag _ | Finished _ => True
               | HaveNames _ names => seen s0 (h ++ [o]) names []
               | Reading _ names _ certs => seen s0 (h ++ [o]) names certs
               | Listed _ todo certs => exists names, seen s0 (h ++ [o]) names certs /\ todo = unused names certs
               | Revoking _ todo all certs =>
                   exists names, seen s0 (h ++ [o]) names certs /\ all = unused names certs /\ incl todo all
               end).
  { destruct (sPhase s); auto using seen_snoc.
    - destruct P as (n & A & B). eauto using seen_snoc.
    - destruct P as (n & A & B). eauto using seen_snoc. }
  destruct o as [names flag|k c|a]; cbn [step].
  { split; auto. }
  { split; auto. }
  unfold step_cleanup. destruct (sPhase s) as [|act|act names|act names keys certs|act todo certs|now todo all certs|ok] eqn:E.
  - split; auto.
  - split; [exact R'|]. cbn [set_phase sPhase].
    exists h, [CleanupStep a]. repeat split; auto; try contradiction. constructor.
  - destruct (aOK a); split; cbn [set_phase sPhase]; auto.
  - destruct keys as [|k keys].
    + split; [exact R'|]. cbn [set_phase sPhase]. eauto.
    + destruct (str_eqb k account_key) eqn:K; [split; auto|].
      destruct (negb (aOK a)); [split; auto|].
      destruct (assoc k (sCache s)) as [[c|]|] eqn:A; [|split; auto|split; auto].
      split; [exact R'|]. cbn [set_phase sPhase].
      destruct P as (h0 & h' & Eh & En & ND & H).
      exists h0, (h' ++ [CleanupStep a]). rewrite app_assoc, <- Eh.
      split; auto. split; auto. split; [apply NoDup_assoc_set; auto|].
      intros k' c' I. apply In_assoc_set in I as [I|I].
      * injection I as -> ->. split; [apply str_eqb_neq; auto|].
        exists h', [CleanupStep a]. rewrite <- Eh. auto.
      * destruct (H _ _ I) as (X & h1 & h2 & -> & Y). split; auto.
        exists h1, (h2 ++ [CleanupStep a]). rewrite app_assoc. auto.
  - destruct act; cbn [negb]; [|split; cbn [set_phase sPhase]; auto].
    destruct (aOK a); split; cbn [set_phase sPhase]; auto.
    destruct P' as (names & A & ->). exists names. repeat split; auto. apply incl_refl.
  - destruct todo as [|k todo].
    + destruct (aOK a); split; cbn [set_phase sPhase sRevoked]; auto.
    + destruct P' as (names & S & -> & Inc).
      assert (K : In k (unused names certs)) by (apply Inc; left; auto).
      assert (Inc' : incl todo (unused names certs)) by (intros x X; apply Inc; right; auto).
      destruct (assoc k certs) as [c|] eqn:A; [|split; auto; exact I].
      destruct (lfNotAfter c <? now).
      { split; [exact R'|]. cbn [set_phase sPhase]. eauto. }
      split; cbn [sRevoked sPhase].
      * intros n I. destruct (aOK a || aDone a); auto. destruct I as [<- | I]; auto.
        right. exists c. split; auto.
        destruct S as (h0 & h' & Eh & -> & ND & H).
        destruct (unused_spec _ _ _ K) as (c' & I' & U & NE).
        pose proof (In_assoc _ _ _ ND I') as A'. rewrite A in A'. injection A' as <-.
        destruct (H _ _ I') as (_ & h1 & h2 & -> & Y).
        exists k, h0, h1, h2. repeat split; auto.
      * destruct (aOK a); auto. eauto.
  - split; auto. rewrite E. exact I.
Qed.

Lemma inv_after s0 h : sPhase s0 = Idle -> inv s0 h (after s0 h).
Proof.
  intros P. induction h as [|o h IH] using rev_ind.
  - split; [auto|]. simpl. rewrite P. exact I.
  - apply inv_step; auto.
Qed.

(** *** Without anything else going on. *)
Definition alone (h : list op) : Prop := forall o, In o h -> exists a, o = CleanupStep a.

Lemma names_alone s0 h : alone h -> sNames (after s0 h) = sNames s0.
Proof.
  intros A. induction h as [|o h IH] using rev_ind; auto.
  rewrite after_snoc. assert (A' : alone h) by (intros x X; apply A, in_or_app; auto).
  destruct (A o) as (a & ->); [apply in_or_app; right; left; auto|].
  rewrite <- IH by auto. cbn [step]. unfold step_cleanup.
  destruct (sPhase (after s0 h)) as [|act|act names|act names [|k keys] certs|act todo certs|now [|k todo] all certs|ok];
    auto; repeat (match goal with |- context [if ?b then _ else _] => destruct b end; auto).
  all: try (destruct (assoc k (sCache (after s0 h))) as [[?|]|]; auto).
  all: try (destruct (assoc k certs) as [?|]; auto; destruct (_ <? _); auto).
Qed.

Lemma assoc_fold_del {A} k ks (c : list (str * A)) :
  assoc k (fold_left (fun c k => assoc_del k c) ks c) = if mem k ks then None else assoc k c.
Proof.
  revert c; induction ks as [|x ks IH]; intros c; simpl; auto.
  rewrite IH. destruct (str_eqb k x) eqn:E.
  - apply str_eqb_spec in E. subst x. rewrite assoc_del_eq. destruct (mem k ks); auto.
  - destruct (mem k ks); auto. apply assoc_del_neq. apply str_eqb_neq in E. congruence.
Qed.

(** The cache does not change before the end. *)
Lemma cache_alone s0 h : alone h -> sPhase s0 = Idle ->
  match sPhase (after s0 h) with
  | Finished _ => sCache (after s0 h) = sCache s0 \/
      exists certs, seen s0 h (sNames s0) certs /\
        sCache (after s0 h) = fold_left (fun c k => assoc_del k c) (unused (sNames s0) certs) (sCache s0)
  | _ => sCache (after s0 h) = sCache s0
  end.
Proof.
  intros A P. induction h as [|o h IH] using rev_ind.
  { simpl. rewrite P. auto. }
  assert (A' : alone h) by (intros x X; apply A, in_or_app; auto).
  destruct (A o) as (a & ->); [apply in_or_app; right; left; auto|].
  specialize (IH A'). pose proof (inv_after s0 h P) as (_ & I).
  rewrite after_snoc. cbn [step]. unfold step_cleanup. set (s := after s0 h) in *.
  destruct (sPhase s) as [|act|act names|act names [|k keys] certs|act todo certs|now [|k todo] all certs|ok] eqn:E;
    cbn [set_phase sPhase sCache]; auto.
  - destruct (aOK a); cbn [set_phase sPhase sCache]; auto.
  - destruct (str_eqb k account_key); auto. destruct (negb (aOK a)); auto.
    destruct (assoc k (sCache s)) as [[?|]|]; auto.
  - destruct (negb act); cbn [set_phase sPhase sCache]; auto.
    destruct (aOK a); cbn [set_phase sPhase sCache]; auto.
  - destruct (aOK a); cbn [set_phase sPhase sCache]; auto. right.
    destruct I as (names & S & -> & _).
    assert (N : names = sNames s0).
    { destruct S as (h0 & h' & Eh & -> & _). apply names_alone.
      intros x X. apply A'. rewrite Eh. apply in_or_app; auto. }
    subst names. exists certs. split; [apply seen_snoc; auto|]. rewrite IH. reflexivity.
  - destruct (assoc k certs) as [c|]; cbn [set_phase sPhase sCache]; auto.
    destruct (lfNotAfter c <? now); cbn [set_phase sPhase sCache]; auto.
    destruct (aOK a); auto.
  - rewrite E. destruct IH as [IH|(certs & S & IH)]; auto. right. exists certs.
    split; auto. apply seen_snoc; auto.
Qed.
