From Verif Require Import Base CleanupModel CleanupSpec CleanupProofs.
Local Open Scope Z_scope.

Definition yes : op := CleanupStep {| aOK := true; aDone := true; aNow := 100 |}.
Definition no : op := CleanupStep {| aOK := false; aDone := false; aNow := 100 |}.
Definition crt (ns : list str) (na : Z) (n : N) : leaf := {| lfNames := ns; lfNotAfter := na; lfSerial := n |}.
Definition begin (names : list str) (flag : bool) (c : cache) : state :=
  {| sNames := names; sFlag := flag; sCache := c; sRevoked := []; sPhase := Idle |}.

(** ** C52 *)

(** Whatever else happens meanwhile, a certificate that was revoked by the clean-up had
    none of the names that were configured when it looked, letter by letter, and was
    in the cache after that. *)
Theorem C52_revoked_was_unused_partial :
  forall s0 h n,
    sPhase s0 = Idle -> In n (sRevoked (after s0 h)) ->
    In n (sRevoked s0) \/
    exists c k h0 h1 h2, h = h0 ++ h1 ++ h2 /\ lfSerial c = n /\ lfNames c <> [] /\
      ~ listed (sNames (after s0 h0)) c /\
      assoc k (sCache (after s0 (h0 ++ h1))) = Some (Some c).
Proof.
  intros s0 h n P I. destruct (inv_after s0 h P) as (R & _).
  destruct (R n I) as [X|(c & E & k & h0 & h1 & h2 & A & B & C & D)]; auto.
  right. exists c, k, h0, h1, h2. auto.
Qed.
Print Assumptions C52_revoked_was_unused_partial.

(** If nothing else happens meanwhile, a certificate with a name that is configured,
    letter by letter, is still in the cache at any time, and not revoked. *)
Theorem C52_used_certificate_survives_partial :
  forall s0 h k c,
    sPhase s0 = Idle -> (forall o, In o h -> exists a, o = CleanupStep a) ->
    assoc k (sCache s0) = Some (Some c) ->
    (exists n, In n (sNames s0) /\ In n (lfNames c)) ->
    (forall k' c', assoc k' (sCache s0) = Some (Some c') -> lfSerial c' = lfSerial c -> c' = c) ->
    ~ In (lfSerial c) (sRevoked s0) ->
    assoc k (sCache (after s0 h)) = Some (Some c) /\ ~ In (lfSerial c) (sRevoked (after s0 h)).
Proof.
  intros s0 h k c P A K U SER NR.
  assert (BACK : forall h', alone h' -> forall k' c',
     assoc k' (sCache (after s0 h')) = Some (Some c') -> assoc k' (sCache s0) = Some (Some c')).
  { intros h' A' k' c' X. pose proof (cache_alone s0 h' A' P) as Y.
    assert (Z : sCache (after s0 h') = sCache s0 \/ exists ks,
        sCache (after s0 h') = fold_left (fun c k => assoc_del k c) ks (sCache s0)).
    { destruct (sPhase (after s0 h')); auto. destruct Y as [Y|(certs & _ & Y)]; eauto. }
    destruct Z as [Z|(ks & Z)]; rewrite Z in X; auto.
    rewrite assoc_fold_del in X. destruct (mem k' ks); [discriminate|auto]. }
  assert (SEEN : forall certs k' c', seen s0 h (sNames s0) certs -> In (k', c') certs ->
     assoc k' (sCache s0) = Some (Some c')).
  { intros certs k' c' (h0 & h' & E & _ & _ & H) I.
    destruct (H _ _ I) as (_ & h1 & h2 & -> & X). eapply BACK; [|exact X].
    intros o O. apply A. rewrite E, app_assoc. apply in_or_app; auto. }
  split.
  - pose proof (cache_alone s0 h A P) as Y.
    assert (Z : sCache (after s0 h) = sCache s0 \/ exists certs, seen s0 h (sNames s0) certs /\
        sCache (after s0 h) = fold_left (fun c k => assoc_del k c) (unused (sNames s0) certs) (sCache s0)).
    { destruct (sPhase (after s0 h)); auto. }
    destruct Z as [-> | (certs & S & ->)]; auto.
    rewrite assoc_fold_del. destruct (mem k (unused (sNames s0) certs)) eqn:M; auto.
    apply mem_spec in M. apply unused_spec in M as (c' & I & NL & _).
    specialize (SEEN _ _ _ S I). exfalso. apply NL. rewrite K in SEEN. injection SEEN as <-. exact U.
  - intros X. destruct (inv_after s0 h P) as (R & _).
    destruct (R _ X) as [Y|(c' & E & k' & h0 & h1 & h2 & Eh & NL & _ & D)]; auto.
    assert (A0 : alone (h0 ++ h1)).
    { intros o O. apply A. rewrite Eh, app_assoc. apply in_or_app; auto. }
    assert (c' = c) by (eapply SER; eauto). subst c'. apply NL.
    rewrite names_alone; auto. intros o O. apply A0. apply in_or_app; auto.
Qed.
Print Assumptions C52_used_certificate_survives_partial.

(** With revokeUnusedCertificates set to false nothing is revoked or deleted. *)
Theorem C52_disabled_clean_up_changes_nothing :
  forall s0 h,
    sPhase s0 = Idle -> sFlag s0 = false -> (forall o, In o h -> exists a, o = CleanupStep a) ->
    sRevoked (after s0 h) = sRevoked s0 /\ sCache (after s0 h) = sCache s0.
Proof.
  intros s0 h P F A.
  assert (X : sRevoked (after s0 h) = sRevoked s0 /\ sCache (after s0 h) = sCache s0 /\
    match sPhase (after s0 h) with
    | Idle => sFlag (after s0 h) = false
    | HaveFlag a | HaveNames a _ | Reading a _ _ _ | Listed a _ _ => a = false
    | Revoking _ _ _ _ => False | Finished _ => True end).
  { induction h as [|o h IH] using rev_ind; [simpl; rewrite P; auto|].
    destruct IH as (R & C & I); [intros x X; apply A, in_or_app; auto|].
    destruct (A o) as (a & ->); [apply in_or_app; right; left; auto|].
    rewrite after_snoc. cbn [step]. unfold step_cleanup. set (s := after s0 h) in *.
    destruct (sPhase s) as [|act|act names|act names [|k keys] certs|act todo certs|now todo all certs|ok] eqn:E;
      try contradiction; try subst act; cbn [set_phase sPhase sCache sRevoked sFlag negb]; auto.
    - destruct (aOK a); cbn [set_phase sPhase sCache sRevoked]; auto.
    - destruct (str_eqb k account_key); [cbn [set_phase sPhase sCache sRevoked]; auto|].
      destruct (negb (aOK a)); [cbn [set_phase sPhase sCache sRevoked]; auto|].
      destruct (assoc k (sCache s)) as [[?|]|]; cbn [set_phase sPhase sCache sRevoked]; auto.
    - rewrite E. auto. }
  tauto.
Qed.
Print Assumptions C52_disabled_clean_up_changes_nothing.

(** A configuration loaded while the clean-up runs: the certificate of a server name
    that is configured is revoked, and the one that was just stored is deleted. *)
Theorem C52_race_with_reload_refuted :
  exists s0 h c n,
    sPhase s0 = Idle /\ sNames (after s0 h) = [n] /\ lfNames c = [n] /\
    (exists h1 h2, h = h1 ++ h2 /\ assoc n (sCache (after s0 h1)) = Some (Some c) /\
       sNames (after s0 h1) = [n] /\ ~ In (lfSerial c) (sRevoked (after s0 h1))) /\
    In (lfSerial c) (sRevoked (after s0 h)) /\ assoc n (sCache (after s0 h)) = None.
Proof.
  exists (begin [] true [(!"www.example.com", Some (crt [!"www.example.com"] 1000 7%N))]).
  exists ([yes; yes; Reconfigured [!"www.example.com"] true] ++ [yes; yes; yes; yes; yes; yes]).
  exists (crt [!"www.example.com"] 1000 7%N). exists (!"www.example.com").
  split; [reflexivity|]. split; [reflexivity|]. split; [reflexivity|]. split.
  - eexists _, _. split; [reflexivity|]. vm_compute. repeat split. tauto.
  - vm_compute. split; auto.
Qed.
Print Assumptions C52_race_with_reload_refuted.

(** A wildcard certificate covers the configured name and is revoked; so is one whose
    name is written with an upper case letter. *)
Theorem C52_wildcard_refuted :
  forall p, In p [!"*.example.com"; !"WWW.example.com"] ->
  exists s0 h c k,
    sPhase s0 = Idle /\ (forall o, In o h -> exists a, o = CleanupStep a) /\
    assoc k (sCache s0) = Some (Some c) /\ lfNames c = [p] /\ in_use (sNames s0) c /\
    In (lfSerial c) (sRevoked (after s0 h)) /\ assoc k (sCache (after s0 h)) = None.
Proof.
  intros p H.
  exists (begin [!"www.example.com"] true [(!"k", Some (crt [p] 1000 7%N))]).
  exists [yes; yes; yes; yes; yes; yes; yes; yes], (crt [p] 1000 7%N), (!"k").
  split; [reflexivity|]. split.
  { intros o O. simpl in O. repeat (destruct O as [<- | O]; [eexists; reflexivity|]). destruct O. }
  split; [reflexivity|]. split; [reflexivity|]. split.
  { exists (!"www.example.com"), p. split; [left; reflexivity|]. split; [left; reflexivity|].
    destruct H as [<- | [<- | []]]; vm_compute; reflexivity. }
  destruct H as [<- | [<- | []]]; vm_compute; auto.
Qed.
Print Assumptions C52_wildcard_refuted.

Example C52_case :
  let s0 := begin [!"a.com"; !"b.com"] true
              [(!"a.com", Some (crt [!"a.com"] 1000 1%N)); (!"c.com", Some (crt [!"c.com"] 1000 2%N));
               (!"d.com", Some (crt [!"d.com"] 50 3%N)); (account_key, None)] in
  let s := after s0 (repeat yes 12) in
  sPhase s = Finished true /\ sRevoked s = [2%N] /\ map fst (sCache s) = [!"a.com"; account_key].
Proof. vm_compute. auto. Qed.

(** ** C66 *)

(** A clean-up that meets no error and runs alone ends, and then every unused
    certificate is out of the cache, and revoked unless it had expired. *)
Lemma alone_repeat a n : alone (repeat (CleanupStep a) n).
Proof. intros o O. apply repeat_spec in O. eauto. Qed.

Lemma repeat_snoc (a : op) n : repeat a (S n) = repeat a n ++ [a].
Proof. induction n; simpl in *; congruence. Qed.

Lemma after_repeat s o n m : after (after s (repeat o n)) (repeat o m) = after s (repeat o (n + m)).
Proof. rewrite repeat_app, after_app. reflexivity. Qed.

Section Complete.
Variable a : answer.
Hypothesis OK : aOK a = true.

Lemma reading_ends s act names keys certs :
  sPhase s = Reading act names keys certs -> NoDup (map fst certs) ->
  exists n certs', let s' := after s (repeat (CleanupStep a) n) in
    sPhase s' = Reading act names [] certs' /\ sCache s' = sCache s /\ sRevoked s' = sRevoked s /\
    NoDup (map fst certs') /\
    (forall k c, assoc k certs = Some c -> assoc k (sCache s) = Some (Some c) -> assoc k certs' = Some c) /\
    (forall k c, In k keys -> k <> account_key -> assoc k (sCache s) = Some (Some c) -> assoc k certs' = Some c).
Proof.
  revert s certs; induction keys as [|k keys IH]; intros s certs P ND.
  { exists 0%nat, certs. simpl. repeat split; auto. intros k c []. }
  set (s1 := step_cleanup a s).
  assert (X : exists certs1, sPhase s1 = Reading act names keys certs1 /\ sCache s1 = sCache s /\
     sRevoked s1 = sRevoked s /\ NoDup (map fst certs1) /\
     (forall k' c, assoc k' certs = Some c -> assoc k' (sCache s) = Some (Some c) -> assoc k' certs1 = Some c) /\
     (k <> account_key -> forall c, assoc k (sCache s) = Some (Some c) -> assoc k certs1 = Some c)).
  { unfold s1, step_cleanup. rewrite P, OK. cbn [negb].
    destruct (str_eqb k account_key) eqn:K.
    { apply str_eqb_spec in K. exists certs. repeat split; auto. congruence. }
    destruct (assoc k (sCache s)) as [[c|]|] eqn:E.
    - exists (assoc_set k c certs). repeat split; auto.
      + apply NoDup_assoc_set; auto.
      + intros k' c' H1 H2. destruct (str_eq_dec k k') as [<- | N].
        * rewrite assoc_set_eq. congruence.
        * rewrite assoc_set_neq; auto.
      + intros _ c' H. rewrite assoc_set_eq. congruence.
    - exists certs. repeat split; auto. intros; discriminate.
    - exists certs. repeat split; auto. intros; discriminate. }
  destruct X as (certs1 & P1 & C1 & R1 & ND1 & A1 & B1).
  destruct (IH s1 certs1 P1 ND1) as (n & certs' & P2 & C2 & R2 & ND2 & A2 & B2).
  exists (S n), certs'. cbn [repeat after step]. fold s1. rewrite C1 in *. rewrite R1 in *.
  repeat split; auto.
  intros k' c [<- | I] NK H; auto.
Qed.

Lemma revoking_ends s now todo all certs :
  sPhase s = Revoking now todo all certs -> (forall k, In k todo -> assoc k certs <> None) ->
  exists n, let s' := after s (repeat (CleanupStep a) n) in
    sPhase s' = Revoking now [] all certs /\ sCache s' = sCache s /\
    (forall x, In x (sRevoked s) -> In x (sRevoked s')) /\
    (forall k c, In k todo -> assoc k certs = Some c -> now <= lfNotAfter c -> In (lfSerial c) (sRevoked s')).
Proof.
  revert s; induction todo as [|k todo IH]; intros s P T.
  { exists 0%nat. simpl. repeat split; auto. intros k c []. }
  set (s1 := step_cleanup a s).
  destruct (assoc k certs) as [c|] eqn:K; [|exfalso; apply (T k); simpl; auto].
  assert (X : sPhase s1 = Revoking now todo all certs /\ sCache s1 = sCache s /\
    (forall x, In x (sRevoked s) -> In x (sRevoked s1)) /\ (now <= lfNotAfter c -> In (lfSerial c) (sRevoked s1))).
  { unfold s1, step_cleanup. rewrite P, K, OK.
    destruct (Z.ltb_spec (lfNotAfter c) now); cbn; repeat split; auto. lia. }
  destruct X as (P1 & C1 & R1 & N1).
  destruct (IH s1 P1) as (n & P2 & C2 & R2 & N2); [intros; apply T; right; auto|].
  exists (S n). cbn [repeat after step]. fold s1. rewrite C1 in C2. repeat split; auto.
  intros k' c' [<- | I] E L; eauto.
  rewrite K in E. injection E as <-. auto.
Qed.
End Complete.

Lemma assoc_key_in {A} k (l : list (str * A)) v : assoc k l = Some v -> In k (map fst l).
Proof. intros H. apply in_map_iff. exists (k, v). split; auto. apply assoc_In; auto. Qed.

Theorem C66_clean_up_completes :
  forall s0 a,
    sPhase s0 = Idle -> sFlag s0 = true -> aOK a = true ->
    exists n, let s := after s0 (repeat (CleanupStep a) n) in
      sPhase s = Finished true /\
      forall k c, k <> account_key -> assoc k (sCache s0) = Some (Some c) ->
        lfNames c <> [] -> (forall x, In x (lfNames c) -> ~ In x (sNames s0)) ->
        assoc k (sCache s) = None /\ (aNow a <= lfNotAfter c -> In (lfSerial c) (sRevoked s)).
Proof.
  intros s0 a P F OK.
  set (o := CleanupStep a). set (s3 := after s0 (repeat o 3)).
  assert (P3 : sPhase s3 = Reading true (sNames s0) (map fst (sCache s0)) [] /\
               sCache s3 = sCache s0 /\ sRevoked s3 = sRevoked s0).
  { unfold s3, o. cbn [repeat after step].
    assert (X1 : step_cleanup a s0 = set_phase s0 (HaveFlag true))
      by (unfold step_cleanup; rewrite P, F; reflexivity).
    rewrite X1. unfold step_cleanup; cbn [set_phase sPhase sNames sCache].
    rewrite OK. auto. }
  destruct P3 as (P3 & C3 & R3).
  destruct (reading_ends a OK s3 true (sNames s0) _ [] P3) as (n1 & certs & P4 & C4 & R4 & ND & _ & B4);
    [constructor|].
  fold o in P4, C4, R4. set (s4 := after s3 (repeat o n1)) in *.
  rewrite C3 in *. set (todo := unused (sNames s0) certs).
  set (s6 := after s4 (repeat o 2)).
  assert (P6 : sPhase s6 = Revoking (aNow a) todo todo certs /\ sCache s6 = sCache s0).
  { unfold s6, o. cbn [repeat after step].
    assert (X1 : step_cleanup a s4 = set_phase s4 (Listed true todo certs))
      by (unfold step_cleanup; rewrite P4; reflexivity).
    rewrite X1. unfold step_cleanup; cbn [set_phase sPhase sNames sCache negb].
    rewrite OK. auto. }
  destruct P6 as (P6 & C6).
  destruct (revoking_ends a OK s6 _ _ _ _ P6) as (n2 & P7 & C7 & R7 & N7).
  { intros k K. unfold todo in K. apply unused_spec in K as (c & I & _).
    rewrite (In_assoc _ _ _ ND I). discriminate. }
  fold o in P7, C7, R7, N7. set (s7 := after s6 (repeat o n2)) in *. rewrite C6 in *.
  exists (3 + n1 + 2 + n2 + 1)%nat. fold o.
  replace (after s0 (repeat o (3 + n1 + 2 + n2 + 1))) with (step s7 o).
  2: { rewrite <- !after_repeat. fold s3 s4. fold s6. fold s7. reflexivity. }
  cbn zeta. unfold o. cbn [step]. unfold step_cleanup. rewrite P7, OK.
  cbn [sPhase sCache sRevoked]. split; auto. intros k c NK K NE U.
  assert (KC : assoc k certs = Some c) by (apply B4; auto; eapply assoc_key_in; eauto).
  assert (IT : In k todo).
  { apply unused_complete with c; auto; [apply assoc_In; auto|]. intros (x & X & Y). apply (U x Y X). }
  split.
  - rewrite assoc_fold_del. apply mem_spec in IT. rewrite IT. reflexivity.
  - intros L. eapply N7; eauto.
Qed.
Print Assumptions C66_clean_up_completes.

(** When the clean-up reports success, it is true: whatever failed on the way, if every
    certificate could be read, those without a configured name are gone, and revoked unless
    they had expired. *)
Definition reads_succeed (s0 : state) (h : list op) : Prop :=
  forall h1 a h2 act names k keys certs, h = h1 ++ CleanupStep a :: h2 ->
    sPhase (after s0 h1) = Reading act names (k :: keys) certs -> aOK a = true.
Section Success.
Variable s0 : state.
Definition known (certs : list (str * leaf)) (keys : list str) : Prop :=
  NoDup (map fst certs) /\
  (forall k c, k <> account_key -> assoc k (sCache s0) = Some (Some c) -> In k keys \/ assoc k certs = Some c) /\
  (forall k c, assoc k certs = Some c -> assoc k (sCache s0) = Some (Some c)).
Definition so_far (h : list op) (s : state) : Prop :=
  match sPhase s with
  | Idle => sFlag s = true /\ sNames s = sNames s0 /\ sCache s = sCache s0
  | HaveFlag act => act = true /\ sNames s = sNames s0 /\ sCache s = sCache s0
  | HaveNames act names => act = true /\ names = sNames s0 /\ sCache s = sCache s0
  | Reading act names keys certs => act = true /\ names = sNames s0 /\ sCache s = sCache s0 /\ known certs keys
  | Listed act todo certs => act = true /\ todo = unused (sNames s0) certs /\ sCache s = sCache s0 /\ known certs []
  | Revoking now todo all certs => all = unused (sNames s0) certs /\ sCache s = sCache s0 /\ known certs [] /\
      (exists a, In (CleanupStep a) h /\ aNow a = now) /\
      (forall k c, In k all -> assoc k certs = Some c -> In k todo \/ (now <= lfNotAfter c -> In (lfSerial c) (sRevoked s)))
  | Finished true => exists a, In (CleanupStep a) h /\
      forall k c, k <> account_key -> assoc k (sCache s0) = Some (Some c) ->
        lfNames c <> [] -> (forall x, In x (lfNames c) -> ~ In x (sNames s0)) ->
        assoc k (sCache s) = None /\ (aNow a <= lfNotAfter c -> In (lfSerial c) (sRevoked s))
  | Finished false => True
  end.
Lemma so_far_after h : sPhase s0 = Idle -> sFlag s0 = true -> alone h -> reads_succeed s0 h -> so_far h (after s0 h).
Proof.
  intros P F. induction h as [|o h IH] using rev_ind; intros Al R.
  - unfold so_far. cbn [after]. rewrite P. auto.
  - assert (Al' : alone h) by (intros x I; apply Al; apply in_or_app; auto).
    assert (R' : reads_succeed s0 h).
    { intros h1 a h2 act names k keys certs E. apply (R h1 a (h2 ++ [o]) act names k keys certs). rewrite E, <- app_assoc. reflexivity. }
    destruct (Al o) as [a ->]; [apply in_or_app; right; left; reflexivity|]. specialize (IH Al' R').
    assert (Ra : forall act names k keys certs, sPhase (after s0 h) = Reading act names (k :: keys) certs -> aOK a = true) by (intros; eapply (R h a []); eauto).
    rewrite after_app. cbn [after step]. set (s := after s0 h) in *. clearbody s. clear Al Al' R R'.
    assert (L : In (CleanupStep a) (h ++ [CleanupStep a])) by (apply in_or_app; right; left; reflexivity).
    assert (Old : forall x, In x h -> In x (h ++ [CleanupStep a])) by (intros; apply in_or_app; auto).
    unfold so_far in IH. unfold step_cleanup. destruct (sPhase s) as [|act|act names|act names keys certs|act todo certs|now todo all certs|ok] eqn:Ph.
    + destruct IH as (A & B & C). unfold so_far. cbn. auto.
    + destruct IH as (A & B & C). unfold so_far. cbn. auto.
    + destruct IH as (-> & -> & C). destruct (aOK a); unfold so_far; cbn; [|exact I]. split; [reflexivity|]. split; [reflexivity|]. split; [exact C|].
      split; [constructor|]. split; [|discriminate]. intros k c _ K. left. rewrite C. eapply assoc_key_in. exact K.
    + destruct IH as (-> & -> & C & N1 & N2 & N3). destruct keys as [|k keys].
      { unfold so_far. cbn. split; [reflexivity|]. split; [reflexivity|]. split; [exact C|]. split; [exact N1|]. split; assumption. }
      rewrite (Ra _ _ _ _ _ eq_refl). cbn [negb]. destruct (str_eqb k account_key) eqn:K.
      { apply str_eqb_spec in K. unfold so_far. cbn. split; [reflexivity|]. split; [reflexivity|]. split; [exact C|]. split; [exact N1|]. split; [|exact N3].
        intros k' c' A B. destruct (N2 k' c' A B) as [[E|I]|I]; auto. congruence. }
      rewrite C. destruct (assoc k (sCache s0)) as [[c|]|] eqn:E; unfold so_far; cbn [set_phase sPhase sCache]; (split; [reflexivity|]); (split; [reflexivity|]); (split; [exact C|]).
      * split; [apply NoDup_assoc_set; exact N1|]. split.
        -- intros k' c' A B. destruct (str_eq_dec k k') as [<-|Ne]; [right; rewrite assoc_set_eq; congruence|]. rewrite assoc_set_neq by exact Ne.
           destruct (N2 k' c' A B) as [[X|X]|X]; auto. congruence.
        -- intros k' c'. destruct (str_eq_dec k k') as [<-|Ne]; [rewrite assoc_set_eq; congruence|]. rewrite assoc_set_neq by exact Ne. apply N3.
      * split; [exact N1|]. split; [|exact N3]. intros k' c' A B. destruct (N2 k' c' A B) as [[X|X]|X]; auto. congruence.
      * split; [exact N1|]. split; [|exact N3]. intros k' c' A B. destruct (N2 k' c' A B) as [[X|X]|X]; auto. congruence.
    + destruct IH as (-> & -> & C & N). cbn [negb]. destruct (aOK a); unfold so_far; cbn; [|exact I].
      split; [reflexivity|]. split; [exact C|]. split; [exact N|]. split; [exists a; auto|]. auto.
    + destruct IH as (-> & C & N & (a0 & I0 & E0) & D). destruct todo as [|k todo].
      { destruct (aOK a); unfold so_far; cbn [sPhase set_phase]; [|exact I]. exists a0. split; [auto|]. cbn [sCache sRevoked]. destruct N as (N1 & N2 & N3).
        intros k c A B Ne U. destruct (N2 k c A B) as [[]|K].
        assert (IT : In k (unused (sNames s0) certs)).
        { apply unused_complete with c; auto; [apply assoc_In; exact K|]. intros (x & X & Y). apply (U x Y X). }
        split; [rewrite C, assoc_fold_del; apply mem_spec in IT; rewrite IT; reflexivity|]. intros T. destruct (D k c IT K) as [[]|D']. apply D'. rewrite <- E0. exact T. }
      destruct (assoc k certs) as [c|] eqn:K; [|unfold so_far; cbn; exact I]. destruct (lfNotAfter c <? now) eqn:T.
      { apply Z.ltb_lt in T. unfold so_far. cbn. split; [reflexivity|]. split; [exact C|]. split; [exact N|]. split; [exists a0; auto|].
        intros k' c' A B. destruct (D k' c' A B) as [[<-|X]|X]; auto. right. rewrite K in B. injection B as <-. lia. }
      destruct (aOK a) eqn:Ok; unfold so_far; cbn [sPhase sCache sRevoked]; [|exact I].
      split; [reflexivity|]. split; [exact C|]. split; [exact N|]. split; [exists a0; auto|].
      intros k' c' A B. cbn [orb]. destruct (D k' c' A B) as [[<-|X]|X]; auto.
      * right. intros _. rewrite K in B. injection B as <-. left. reflexivity.
      * right. intros Y. right. auto.
    + destruct ok; unfold so_far; rewrite Ph; [|exact I]. destruct IH as (a0 & I0 & H). exists a0. auto.
Qed.
End Success.
Theorem C66_success_is_true : forall s0 h,
  sPhase s0 = Idle -> sFlag s0 = true -> alone h -> reads_succeed s0 h -> sPhase (after s0 h) = Finished true ->
  exists a, In (CleanupStep a) h /\
    forall k c, k <> account_key -> assoc k (sCache s0) = Some (Some c) ->
      lfNames c <> [] -> (forall x, In x (lfNames c) -> ~ In x (sNames s0)) ->
      assoc k (sCache (after s0 h)) = None /\ (aNow a <= lfNotAfter c -> In (lfSerial c) (sRevoked (after s0 h))).
Proof. intros s0 h P F A R Ph. pose proof (so_far_after s0 h P F A R) as H. unfold so_far in H. rewrite Ph in H. exact H. Qed.
Print Assumptions C66_success_is_true.

(** And a clean-up that nothing outside stands in the way of never reports a failure,
    whatever is configured or stored while it runs. *)
Theorem C66_failure_is_true : forall s0 h,
  sPhase s0 = Idle -> (forall a, In (CleanupStep a) h -> aOK a = true) -> sPhase (after s0 h) <> Finished false.
Proof.
  intros s0 h P A.
  assert (X : match sPhase (after s0 h) with
    | Finished false => False
    | Listed _ todo certs => forall k, In k todo -> assoc k certs <> None
    | Revoking _ todo _ certs => forall k, In k todo -> assoc k certs <> None
    | _ => True end).
  { induction h as [|o h IH] using rev_ind; [cbn [after]; rewrite P; exact I|].
    assert (IH' := IH (fun a H => A a (in_or_app _ _ _ (or_introl H)))). clear IH.
    rewrite after_app. cbn [after]. set (s := after s0 h) in *. destruct o as [names flag|k c|a]; [exact IH'|exact IH'|].
    assert (Ok : aOK a = true) by (apply A; apply in_or_app; right; left; reflexivity).
    cbn [step]. unfold step_cleanup. rewrite Ok. cbn [negb].
    destruct (sPhase s) as [|act|act names|act names keys certs|act todo certs|now todo all certs|ok] eqn:Ph; cbn [set_phase sPhase]; auto.
    - destruct keys as [|k keys]; cbn [set_phase sPhase].
      + intros k I N. unfold unused in I. apply in_map_iff in I as [[k' c] [<- I]]. apply filter_In in I as [I _]. cbn [fst] in N. clear - I N.
        induction certs as [|[y w] certs IHc]; [destruct I|]. cbn [assoc] in N. destruct (str_eqb k' y) eqn:E; [discriminate|].
        destruct I as [I|I]; [injection I as -> ->; rewrite str_eqb_refl in E; discriminate|exact (IHc I N)].
      + destruct (str_eqb k account_key); cbn [set_phase sPhase]; [exact I|]. destruct (assoc k (sCache s)) as [[c|]|]; cbn [set_phase sPhase]; exact I.
    - destruct act; cbn [negb set_phase sPhase]; [exact IH'|exact I].
    - destruct todo as [|k todo]; cbn [sPhase]; [exact I|]. destruct (assoc k certs) as [c|] eqn:K; [|exact (IH' k (or_introl eq_refl) K)].
      destruct (lfNotAfter c <? now); cbn [set_phase sPhase]; intros k' I; apply IH'; right; exact I.
    - rewrite Ph. exact IH'. }
  intros F. rewrite F in X. exact X.
Qed.
Print Assumptions C66_failure_is_true.

(** After an error in the middle, a certificate that has been revoked is still in the
    cache, and is the one for its name once that is configured again. *)
Theorem C66_revoked_certificate_kept_refuted :
  exists s0 h c k n,
    sPhase s0 = Idle /\ sPhase (after s0 h) = Finished false /\
    In (lfSerial c) (sRevoked (after s0 h)) /\ ~ In (lfSerial c) (sRevoked s0) /\
    assoc k (sCache (after s0 (h ++ [Reconfigured [n] true]))) = Some (Some c) /\
    In n (lfNames c) /\ sNames (after s0 (h ++ [Reconfigured [n] true])) = [n].
Proof.
  exists (begin [] true [(!"a.com", Some (crt [!"a.com"] 1000 1%N)); (!"b.com", Some (crt [!"b.com"] 1000 2%N))]).
  exists [yes; yes; yes; yes; yes; yes; yes; yes; no].
  exists (crt [!"b.com"] 1000 2%N), (!"b.com"), (!"b.com").
  vm_compute. repeat split; auto.
Qed.
Print Assumptions C66_revoked_certificate_kept_refuted.

(** ** C67 *)

Lemma revoke_loop_all now acme l r r' :
  revoke_loop now acme l r = (r', true) ->
  (forall n, In n r -> In n r') /\
  (forall k c, In (k, c) l -> now <= lfNotAfter c -> In (lfSerial c) r') /\
  (forall n, In n r' -> In n r \/ exists k c, In (k, c) l /\ lfSerial c = n).
Proof.
  revert r; induction l as [|(k, c) l IH]; intros r H; simpl in H.
  { injection H as <-. repeat split; auto. intros k c []. }
  destruct (Z.ltb_spec (lfNotAfter c) now) as [L|L].
  - destruct (IH _ H) as (A & B & C). repeat split; auto.
    + intros k' c' [E|I] X; eauto. injection E as <- <-. lia.
    + intros n N. destruct (C n N) as [D|(k' & c' & D & E)]; auto. right. exists k', c'. simpl. auto.
  - destruct (acme k); [|discriminate]. destruct (IH _ H) as (A & B & C). repeat split; auto.
    + intros n N. apply A. right; auto.
    + intros k' c' [E|I] X; eauto. injection E as <- <-. apply A. left; auto.
    + intros n N. destruct (C n N) as [[D|D]|(k' & c' & D & E)]; auto.
      * right. exists k, c. simpl. auto.
      * right. exists k', c'. simpl. auto.
Qed.

Lemma all_certs_spec c k l : In (k, l) (all_certs c) <-> In (k, Some l) c /\ k <> account_key.
Proof.
  unfold all_certs. rewrite in_flat_map. split.
  - intros ((k', o) & I & H). cbn [fst snd] in H.
    destruct (str_eqb k' account_key) eqn:E; [destruct H|]. destruct o as [l'|]; [|destruct H].
    destruct H as [H|[]]. injection H as -> ->. apply str_eqb_neq in E. auto.
  - intros (I & N). exists (k, Some l). split; auto. cbn [fst snd].
    apply str_eqb_neq in N. rewrite N. left; auto.
Qed.

(** RevokeAllCertificates reports success only if every certificate of the cache is out
    of it and revoked, or had expired; otherwise the cache is unchanged.  It revokes
    only certificates of the cache. *)
Theorem C67_revoke_all :
  forall reason now keyOK delOK acme c r r' c' ok,
    revoke_all reason now keyOK delOK acme c r = (r', c', ok) ->
    (ok = true ->
       (forall k l, In (k, Some l) c -> k <> account_key ->
          assoc k c' = None /\ (now <= lfNotAfter l -> In (lfSerial l) r')) /\
       (forall k, (forall l, In (k, Some l) c -> k = account_key) -> assoc k c' = assoc k c)) /\
    (ok = false -> c' = c) /\
    (forall n, In n r -> In n r') /\
    (forall n, In n r' -> In n r \/ exists k l, In (k, Some l) c /\ lfSerial l = n).
Proof.
  intros reason now keyOK delOK acme c r r' c' ok H. unfold revoke_all in H.
  assert (LOOP : forall l r r' b, revoke_loop now acme l r = (r', b) ->
     (forall n, In n r -> In n r') /\ (forall n, In n r' -> In n r \/ exists k c, In (k, c) l /\ lfSerial c = n)).
  { induction l as [|(k, x) l IH]; intros q q' b G; simpl in G.
    - injection G as <- <-. auto.
    - destruct (lfNotAfter x <? now).
      + destruct (IH _ _ _ G) as (A & B). split; auto. intros n N.
        destruct (B n N) as [?|(k' & x' & ? & ?)]; auto. right. exists k', x'. simpl. auto.
      + destruct (acme k); [|injection G as <- <-; auto].
        destruct (IH _ _ _ G) as (A & B). split; [intros; apply A; right; auto|]. intros n N.
        destruct (B n N) as [[?|?]|(k' & x' & ? & ?)]; auto.
        * right. exists k, x. simpl. auto.
        * right. exists k', x'. simpl. auto. }
  destruct (valid_reason reason); cbn [negb] in H.
  2: { injection H as <- <- <-. repeat split; auto; discriminate. }
  destruct (all_certs c) as [|x certs] eqn:E.
  { injection H as <- <- <-. repeat split; auto; try discriminate.
    - intros. exfalso. assert (X : In (k, l) (all_certs c)) by (apply all_certs_spec; auto).
      rewrite E in X. destruct X.
    - intros. assert (X : In (k, l) (all_certs c)) by (apply all_certs_spec; auto).
      rewrite E in X. destruct X. }
  rewrite <- E in H.
  destruct keyOK; cbn [negb] in H.
  2: { injection H as <- <- <-. repeat split; auto; discriminate. }
  destruct (revoke_loop now acme (all_certs c) r) as [r1 b] eqn:L.
  destruct (LOOP _ _ _ _ L) as (M1 & M2).
  assert (M3 : forall n, In n r1 -> In n r \/ exists k l, In (k, Some l) c /\ lfSerial l = n).
  { intros n N. destruct (M2 n N) as [?|(k & l & I & S)]; auto. right. exists k, l.
    apply all_certs_spec in I. tauto. }
  destruct b; cbn [negb] in H; [|injection H as <- <- <-; repeat split; auto; discriminate].
  destruct delOK; [|injection H as <- <- <-; repeat split; auto; discriminate].
  destruct (revoke_loop_all _ _ _ _ _ L) as (_ & N2 & _).
  injection H as <- <- <-. repeat split; auto; try discriminate.
  - rewrite assoc_fold_del.
    assert (X : mem k (map fst (all_certs c)) = true).
    { apply mem_spec, in_map_iff. exists (k, l). split; auto. apply all_certs_spec; auto. }
    rewrite X. reflexivity.
  - intros Y. eapply N2; eauto. apply all_certs_spec; eauto.
  - intros k K. rewrite assoc_fold_del. destruct (mem k (map fst (all_certs c))) eqn:X; auto.
    apply mem_spec, in_map_iff in X as ((k', l) & Y & I). simpl in Y; subst k'.
    apply all_certs_spec in I as (I & N). exfalso. apply N. eauto.
Qed.
Print Assumptions C67_revoke_all.

Example C67_case :
  revoke_all !"superseded" 100 true true (fun _ => true)
    [(!"a", Some (crt [!"a"] 1000 1%N)); (!"b", Some (crt [!"b"] 50 2%N)); (account_key, None)] [] =
  ([1%N], [(account_key, None)], true) /\
  revoke_all !"superseded" 100 true true (fun k => str_eqb k !"a")
    [(!"a", Some (crt [!"a"] 1000 1%N)); (!"b", Some (crt [!"b"] 500 2%N))] [] =
  ([1%N], [(!"a", Some (crt [!"a"] 1000 1%N)); (!"b", Some (crt [!"b"] 500 2%N))], false).
Proof. split; vm_compute; reflexivity. Qed.
