(** Proofs for TrustProps. *)
From Verif Require Import Base ConfigProofs TrustModel TrustSpec.
From Verif Require RouteModel.
Open Scope list_scope.

(** ** Chains *)

Lemma search_sound w roots inter d c : search w roots inter d c = true -> leads w roots inter c.
Proof.
  revert c. induction d as [|d IH]; intro c; cbn [search]; intro H; apply orb_true_iff in H; destruct H as [H|H].
  - apply existsb_exists in H. destruct H as (r & A & B). apply (leads_root _ _ _ _ r A B).
  - discriminate.
  - apply existsb_exists in H. destruct H as (r & A & B). apply (leads_root _ _ _ _ r A B).
  - apply existsb_exists in H. destruct H as (i & A & B). apply andb_true_iff in B. destruct B as [B C].
    apply (leads_step _ _ _ _ i A B (IH _ C)).
Qed.

(** A chain as a list of intermediates. *)
Inductive path (w : world) (roots inter : list x509) : x509 -> list x509 -> Prop :=
| path_end c r : In r roots -> w_signs w c r = true -> path w roots inter c []
| path_step c i l : In i inter -> w_signs w c i = true -> path w roots inter i l -> path w roots inter c (i :: l).

Lemma leads_path w roots inter c : leads w roots inter c -> exists l, path w roots inter c l.
Proof.
  intro H. induction H as [c r A B|c i A B _ (l & IH)]; [exists []|exists (i :: l)]; econstructor; eauto.
Qed.

Lemma path_in w roots inter c l : path w roots inter c l -> incl l inter.
Proof. intro H. induction H; intros x Hx; [destruct Hx|]. destruct Hx as [<-|Hx]; auto. Qed.

Lemma path_tail w roots inter c l1 x l2 : path w roots inter c (l1 ++ x :: l2) -> path w roots inter x l2.
Proof.
  revert c. induction l1 as [|y l1 IH]; intros c H; cbn [app] in H; inversion H; subst; eauto.
Qed.

(** Cutting the part before the last time that the start comes again. *)
Lemma path_simple w roots inter l : forall c, path w roots inter c l ->
  exists l', path w roots inter c l' /\ NoDup (c :: l').
Proof.
  induction l as [|i l IH]; intros c H.
  - exists []. split; [exact H|]. constructor; [intros []|constructor].
  - inversion H as [|? ? ? A B C]; subst. destruct (IH i C) as (l' & P & N).
    destruct (in_dec x509_eq_dec c (i :: l')) as [Y|Y].
    + destruct Y as [<-|Y]; [exists l'; split; [exact P|exact N]|].
      apply in_split in Y. destruct Y as (l1 & l2 & ->). exists l2. split; [apply (path_tail _ _ _ _ _ _ _ P)|].
      change (i :: l1 ++ c :: l2) with ((i :: l1) ++ c :: l2) in N.
      assert (M := NoDup_remove_2 _ _ _ N). apply NoDup_remove_1 in N.
      constructor; [intro X; apply M; apply in_or_app; right; exact X|].
      clear -N. induction (i :: l1) as [|y q IHq]; cbn in N; [exact N|]. inversion N; auto.
    + exists (i :: l'). split; [econstructor; eauto|]. constructor; assumption.
Qed.

Lemma search_path w roots inter c l : path w roots inter c l -> forall d, (List.length l <= d)%nat -> search w roots inter d c = true.
Proof.
  intro H. induction H as [c r A B|c i l A B C IH]; intros d L.
  - destruct d; cbn [search]; apply orb_true_iff; left; apply existsb_exists; eauto.
  - destruct d as [|d]; cbn [List.length] in L; [lia|]. cbn [search]. apply orb_true_iff. right. apply existsb_exists.
    exists i. split; [exact A|]. rewrite B. cbn [andb]. apply IH. lia.
Qed.

Lemma search_spec w roots inter c : search w roots inter (List.length inter) c = true <-> leads w roots inter c.
Proof.
  split; [apply search_sound|]. intro H. apply leads_path in H. destruct H as (l & H). apply path_simple in H.
  destruct H as (l' & P & N). apply (search_path _ _ _ _ _ P). inversion N; subst.
  apply NoDup_incl_length; [assumption|]. apply (path_in _ _ _ _ _ P).
Qed.

Lemma verify_spec w pool c inter : verify w pool c inter = true <->
  trusted w (match pool with None => w_system w | Some p => p end) inter c.
Proof.
  unfold verify, trusted. cbv zeta. rewrite orb_true_iff, search_spec.
  destruct (in_dec x509_eq_dec c _) as [Y|Y]; intuition discriminate.
Qed.

Lemma leads_ext w roots roots' inter c : (forall r, In r roots <-> In r roots') -> leads w roots inter c -> leads w roots' inter c.
Proof. intros E H. induction H as [c r A B|c i A B _ IH]; [apply (leads_root _ _ _ _ r)|apply (leads_step _ _ _ _ i)]; auto. apply E. exact A. Qed.

Lemma trusted_ext w roots roots' inter c : (forall r, In r roots <-> In r roots') -> trusted w roots inter c <-> trusted w roots' inter c.
Proof.
  intro E. unfold trusted. split; (intros [H|H]; [left; apply E; exact H|right]).
  - apply (leads_ext _ _ _ _ _ E H).
  - apply (leads_ext w roots'); [|exact H]. intro r. symmetry. apply E.
Qed.

(** ** Pools *)

Lemma parsed_in l c : In c (parsed l) <-> In (Some c) l.
Proof.
  induction l as [|[x|] l IH]; cbn [parsed In]; [tauto| |]; rewrite IH.
  - split; intros [H|H]; auto; left; congruence.
  - split; [auto|]. intros [H|H]; [discriminate|exact H].
Qed.

Lemma assoc_set_spec {A} k (v : A) l k' : assoc k' (assoc_set k v l) = if str_eqb k' k then Some v else assoc k' l.
Proof.
  destruct (str_eqb k' k) eqn:E.
  - apply str_eqb_spec in E. subst. apply assoc_set_eq.
  - apply str_eqb_neq in E. apply assoc_set_neq. congruence.
Qed.

(** What [load_certs] adds. *)
Lemma load_ok w pool n pool' : assoc n (w_pkis w) = None -> load_certs w pool n = Ok pool' ->
  (exists c, stands_for w n c) /\ forall c, In c pool' <-> In c pool \/ stands_for w n c.
Proof.
  intros Hn H. unfold load_certs in H. unfold stands_for. rewrite Hn.
  assert (G : exists text, (forall t, (match n with "/"%char :: _ => w_read w n = Some t | _ => t = n end) <-> t = text) /\
    parsed (w_pem w text) <> [] /\ pool' = pool ++ parsed (w_pem w text)).
  { destruct n as [|a n].
    - exists []. split; [tauto|]. destruct (parsed (w_pem w [])); [discriminate|]. injection H as <-. split; [discriminate|reflexivity].
    - destruct (Ascii.eqb a "/"%char) eqn:Ea.
      + apply Ascii.eqb_eq in Ea. subst a. destruct (w_read w ("/"%char :: n)) as [text|] eqn:Er; [|discriminate].
        exists text. split; [intro t; split; [intros [= <-]; reflexivity|intros ->; reflexivity]|].
        destruct (parsed (w_pem w text)); [discriminate|]. injection H as <-. split; [discriminate|reflexivity].
      + apply Ascii.eqb_neq in Ea. exists (a :: n). split.
        * intro t. destruct a as [[] [] [] [] [] [] [] []]; try tauto; exfalso; apply Ea; reflexivity.
        * destruct (parsed (w_pem w (a :: n))); [discriminate|]. injection H as <-. split; [discriminate|reflexivity]. }
  destruct G as (text & T & N & ->).
  assert (S : forall c, (exists t, (match n with "/"%char :: _ => w_read w n = Some t | _ => t = n end) /\ In (Some c) (w_pem w t)) <-> In c (parsed (w_pem w text))).
  { intro c. rewrite parsed_in. split; [intros (t & A & B); apply T in A; subst; exact B|intro B; exists text; split; [apply T; reflexivity|exact B]]. }
  split.
  - destruct (parsed (w_pem w text)) as [|c q] eqn:E; [congruence|]. exists c. apply S. left. reflexivity.
  - intro c. rewrite in_app_iff, S. reflexivity.
Qed.

Lemma load_err w pool n : assoc n (w_pkis w) = None -> (forall c, ~ stands_for w n c) -> load_certs w pool n = Err.
Proof.
  intros Hn H. unfold load_certs. unfold stands_for in H. rewrite Hn in H.
  assert (G : forall text, (match n with "/"%char :: _ => w_read w n = Some text | _ => text = n end) -> parsed (w_pem w text) = []).
  { intros text T. destruct (parsed (w_pem w text)) as [|c q] eqn:E; [reflexivity|]. exfalso. apply (H c). exists text. split; [exact T|].
    apply parsed_in. rewrite E. left. reflexivity. }
  destruct n as [|a n]; [rewrite (G [] eq_refl); reflexivity|].
  destruct (Ascii.eqb a "/"%char) eqn:Ea.
  - apply Ascii.eqb_eq in Ea. subst a. destruct (w_read w _) as [text|] eqn:Er; [|reflexivity]. rewrite (G text eq_refl). reflexivity.
  - apply Ascii.eqb_neq in Ea. rewrite (G (a :: n)); [reflexivity|].
    destruct a as [[] [] [] [] [] [] [] []]; try reflexivity; exfalso; apply Ea; reflexivity.
Qed.

Lemma load_not_panic w pool n : load_certs w pool n = Err \/ exists p, load_certs w pool n = Ok p.
Proof. unfold load_certs. destruct (match n with [] => _ | _ :: _ => _ end); [|auto]. destruct (parsed _); eauto. Qed.

(** What is in the map of authorities. *)
Definition map_from (w : world) (l : list str) (m : list (str * str)) : Prop :=
  forall k n, assoc k m = Some n -> In n l /\ exists ca, assoc n (w_pkis w) = Some (Some ca) /\ x_ski ca = k.
Definition map_has (w : world) (l : list str) (m : list (str * str)) : Prop :=
  forall n ca, In n l -> assoc n (w_pkis w) = Some (Some ca) -> assoc (x_ski ca) m <> None.

Lemma add_roots_spec w l : forall pool m pool' m', add_roots w l pool m = Ok (pool', m') ->
  (forall n, In n l -> exists c, stands_for w n c) /\
  (match pool' with
   | None => l = [] /\ pool = None
   | Some p' => forall c, In c p' <-> In c (match pool with None => [] | Some p => p end) \/ listed w l c
   end) /\
  (l = [] -> pool' = pool) /\ (pool <> None \/ l <> [] -> pool' <> None) /\
  (forall l0, map_from w l0 m -> map_from w (l0 ++ l) m') /\
  (forall l0, map_has w l0 m -> map_has w (l0 ++ l) m').
Proof.
  induction l as [|n l IH]; intros pool m pool' m' H; cbn [add_roots] in H.
  - injection H as <- <-. split; [intros n []|]. split.
    { destruct pool; [|auto]. intro c. unfold listed. split; [auto|]. intros [A|(n & [] & _)]; exact A. }
    split; [reflexivity|]. split; [intros [A|A]; congruence|]. split; intros l0 A; rewrite app_nil_r; exact A.
  - cbv zeta in H. destruct (assoc n (w_pkis w)) as [[ca|]|] eqn:En; [|discriminate|].
    + apply IH in H. destruct H as (A & B & C & D & E & F).
      assert (S : forall c, stands_for w n c <-> c = ca).
      { intro c. unfold stands_for. rewrite En. split; congruence. }
      split; [intros n' [<-|Hn]; [exists ca; apply S; reflexivity|apply A; exact Hn]|].
      split.
      { destruct pool' as [p'|]; [|destruct B; discriminate]. intro c. rewrite B, in_app_iff. cbn [In]. unfold listed.
        split.
        - intros [[X|[<-|[]]]|(n' & X & Y)]; [auto|right; exists n; split; [left; reflexivity|apply S; reflexivity]|right; exists n'; split; [right|]; assumption].
        - intros [X|(n' & [<-|X] & Y)]; [auto|apply S in Y; auto|right; exists n'; auto]. }
      split; [discriminate|]. split; [intros _; apply D; left; discriminate|].
      split; intros l0 M.
      * replace (l0 ++ n :: l) with ((l0 ++ [n]) ++ l) by (rewrite <- app_assoc; reflexivity). apply E.
        intros k n' Hk. rewrite assoc_set_spec in Hk. destruct (str_eqb k (x_ski ca)) eqn:Ek.
        -- injection Hk as <-. split; [apply in_or_app; right; left; reflexivity|]. exists ca. split; [exact En|]. symmetry. apply str_eqb_spec. exact Ek.
        -- apply M in Hk. destruct Hk as [X Y]. split; [apply in_or_app; left; exact X|exact Y].
      * replace (l0 ++ n :: l) with ((l0 ++ [n]) ++ l) by (rewrite <- app_assoc; reflexivity). apply F.
        intros n' ca' Hn' Ha. rewrite assoc_set_spec. destruct (str_eqb (x_ski ca') (x_ski ca)) eqn:Ek; [discriminate|].
        apply in_app_or in Hn'. destruct Hn' as [Hn'|[<-|[]]]; [apply (M _ _ Hn' Ha)|].
        rewrite En in Ha. injection Ha as <-. rewrite str_eqb_refl in Ek. discriminate.
    + destruct (load_certs w _ n) as [p'| | |] eqn:El; try discriminate. cbn [bind] in H. apply IH in H. destruct H as (A & B & C & D & E & F).
      destruct (load_ok _ _ _ _ En El) as [S1 S2].
      split; [intros n' [<-|Hn]; [exact S1|apply A; exact Hn]|].
      split.
      { destruct pool' as [q|]; [|destruct B; discriminate]. intro c. rewrite B, S2. unfold listed. split.
        - intros [[X|X]|(n' & X & Y)]; [auto|right; exists n; split; [left; reflexivity|exact X]|right; exists n'; split; [right|]; assumption].
        - intros [X|(n' & [<-|X] & Y)]; [auto|auto|right; exists n'; auto]. }
      split; [discriminate|]. split; [intros _; apply D; left; discriminate|].
      split; intros l0 M.
      * replace (l0 ++ n :: l) with ((l0 ++ [n]) ++ l) by (rewrite <- app_assoc; reflexivity). apply E.
        intros k n' Hk. apply M in Hk. destruct Hk as [X Y]. split; [apply in_or_app; left; exact X|exact Y].
      * replace (l0 ++ n :: l) with ((l0 ++ [n]) ++ l) by (rewrite <- app_assoc; reflexivity). apply F.
        intros n' ca' Hn' Ha. apply in_app_or in Hn'. destruct Hn' as [Hn'|[<-|[]]]; [apply (M _ _ Hn' Ha)|congruence].
Qed.

(** Starting without a pool. *)
Lemma pool_of_list w l m pool m' : add_roots w l None m = Ok (pool, m') ->
  forall c inter, trusted w (match pool with None => w_system w | Some p => p end) inter c <-> trusted_by w l inter c.
Proof.
  intros H c inter. apply add_roots_spec in H. destruct H as (_ & B & C & D & _).
  unfold trusted_by. destruct l as [|n l].
  - rewrite (C eq_refl). split; [intro T; exists (w_system w); auto|intros (r & T & ->); exact T].
  - destruct pool as [p|]; [|destruct B; discriminate]. cbn [In] in B. split.
    + intro T. exists p. split; [exact T|]. intro r. rewrite B. tauto.
    + intros (roots & T & E). apply (trusted_ext w roots); [|exact T]. intro r. rewrite E, B. tauto.
Qed.

Lemma add_over_spec w l : forall m ps m', add_over w l m = Ok (ps, m') ->
  (forall n, In n (flat_map pr_roots l) -> exists c, stands_for w n c) /\
  List.length ps = List.length l /\
  (forall i p pool, nth_error l i = Some p -> nth_error ps i = Some pool ->
     forall c inter, trusted w (match pool with None => w_system w | Some p => p end) inter c <-> trusted_by w (pr_roots p) inter c) /\
  (forall l0, map_from w l0 m -> map_from w (l0 ++ flat_map pr_roots l) m') /\
  (forall l0, map_has w l0 m -> map_has w (l0 ++ flat_map pr_roots l) m').
Proof.
  induction l as [|p l IH]; intros m ps m' H; cbn [add_over] in H.
  - injection H as <- <-. split; [intros n []|]. split; [reflexivity|]. split; [intros [|i] q pool X; discriminate|].
    split; intros l0 A; cbn [flat_map]; rewrite app_nil_r; exact A.
  - destruct (add_roots w (pr_roots p) None m) as [[pool m1]| | |] eqn:Ea; try discriminate. cbn [bind fst snd] in H.
    destruct (add_over w l m1) as [[ps1 m2]| | |] eqn:Eo; try discriminate. cbn [bind fst snd] in H. injection H as <- <-.
    apply IH in Eo. destruct Eo as (A & L & T & F & G). assert (P := pool_of_list _ _ _ _ _ Ea). apply add_roots_spec in Ea.
    destruct Ea as (A' & _ & _ & _ & F' & G'). cbn [flat_map].
    split; [intros n Hn; apply in_app_or in Hn; destruct Hn; auto|]. split; [cbn [List.length]; rewrite L; reflexivity|].
    split; [intros [|i] q pool' X Y; cbn [nth_error] in X, Y; [injection X as <-; injection Y as <-; exact P|apply (T i q pool' X Y)]|].
    split; intros l0 M; rewrite app_assoc; auto.
Qed.

Lemma make_pools_spec w b ps : make_pools w b = Ok ps ->
  (forall n, In n (all_lists b) -> exists c, stands_for w n c) /\
  (forall l, bc_client b = Some l -> forall c inter, trusted w (match po_client ps with None => w_system w | Some p => p end) inter c <-> trusted_by w l inter c) /\
  (forall ov, fst (settings b ps ov) = in_use b ov /\
     forall c inter, trusted w (match snd (settings b ps ov) with None => w_system w | Some p => p end) inter c <-> trusted_by w (pr_roots (in_use b ov)) inter c) /\
  map_from w (all_lists b) (po_map ps) /\ map_has w (all_lists b) (po_map ps).
Proof.
  unfold make_pools. set (l1 := match bc_client b with None => [] | Some l => l end). intro H.
  destruct (match bc_client b with None => Ok (None, []) | Some l => add_roots w l None [] end) as [[cp m1]| | |] eqn:E1; try discriminate. cbn [bind fst snd] in H.
  destruct (add_roots w (pr_roots (bc_own b)) None m1) as [[op m2]| | |] eqn:E2; try discriminate. cbn [bind fst snd] in H.
  destruct (add_over w (bc_over b) m2) as [[vp m3]| | |] eqn:E3; try discriminate. cbn [bind fst snd] in H. injection H as <-. cbn [po_client po_own po_over po_map].
  assert (X1 : (forall n, In n l1 -> exists c, stands_for w n c) /\
    (forall l, bc_client b = Some l -> forall c inter, trusted w (match cp with None => w_system w | Some p => p end) inter c <-> trusted_by w l inter c) /\
    map_from w l1 m1 /\ map_has w l1 m1).
  { subst l1. destruct (bc_client b) as [l|].
    - assert (P := pool_of_list _ _ _ _ _ E1). apply add_roots_spec in E1. destruct E1 as (A & _ & _ & _ & F & G).
      split; [exact A|]. split; [intros l' [= <-]; exact P|]. split; [apply (F []); intros k n X; discriminate|apply (G []); intros n ca []].
    - injection E1 as <- <-. split; [intros n []|]. split; [discriminate|]. split; [intros k n X; discriminate|intros n ca []]. }
  destruct X1 as (A1 & T1 & F1 & G1). assert (P2 := pool_of_list _ _ _ _ _ E2). apply add_roots_spec in E2. destruct E2 as (A2 & _ & _ & _ & F2 & G2).
  apply add_over_spec in E3. destruct E3 as (A3 & L3 & T3 & F3 & G3).
  split; [intros n Hn; unfold all_lists in Hn; fold l1 in Hn; apply in_app_or in Hn; destruct Hn as [Hn|Hn]; [auto|apply in_app_or in Hn; destruct Hn; auto]|].
  split; [exact T1|].
  split.
  { intros [i|]; unfold settings, in_use; cbn [po_own po_over].
    - destruct (nth_error (bc_over b) i) as [p|] eqn:Ep.
      + rewrite (nth_error_nth _ _ (bc_own b) Ep). split; [reflexivity|]. cbn [snd].
        destruct (nth_error vp i) as [pool|] eqn:Ev; [apply (T3 i p pool Ep Ev)|].
        exfalso. apply nth_error_None in Ev. assert (nth_error (bc_over b) i <> None) by congruence. apply nth_error_Some in H. lia.
      + apply nth_error_None in Ep. rewrite nth_overflow by exact Ep. split; [reflexivity|exact P2].
    - split; [reflexivity|exact P2]. }
  unfold all_lists. fold l1. split.
  - rewrite app_assoc. apply F3, F2, F1.
  - rewrite app_assoc. apply G3, G2, G1.
Qed.

(** When it is an error. *)
Lemma add_roots_total w l : forall pool m, (forall n, In n l -> exists c, stands_for w n c) -> exists x, add_roots w l pool m = Ok x.
Proof.
  induction l as [|n l IH]; intros pool m H; cbn [add_roots]; [eauto|]. cbv zeta.
  destruct (H n) as (c & S); [left; reflexivity|].
  destruct (assoc n (w_pkis w)) as [[ca|]|] eqn:En.
  - apply IH. intros n' Hn'. apply H. right. exact Hn'.
  - unfold stands_for in S. rewrite En in S. discriminate.
  - destruct (load_not_panic w (match pool with None => [] | Some p => p end) n) as [E|(p & E)].
    + exfalso. unfold load_certs in E. unfold stands_for in S. rewrite En in S. destruct S as (text & T & Hin).
      apply parsed_in in Hin. destruct n as [|a n].
      * subst. destruct (parsed (w_pem w [])); [destruct Hin|discriminate].
      * destruct (Ascii.eqb a "/"%char) eqn:Ea.
        -- apply Ascii.eqb_eq in Ea. subst a. rewrite T in E. destruct (parsed (w_pem w text)); [destruct Hin|discriminate].
        -- apply Ascii.eqb_neq in Ea. assert (text = a :: n) by (destruct a as [[] [] [] [] [] [] [] []]; try exact T; exfalso; apply Ea; reflexivity).
           subst. destruct (parsed (w_pem w (a :: n))); [destruct Hin|discriminate].
    + rewrite E. cbn [bind]. apply IH. intros n' Hn'. apply H. right. exact Hn'.
Qed.

Lemma add_roots_total' w l : forall pool m, ~ (forall n, In n l -> exists c, stands_for w n c) -> add_roots w l pool m = Err.
Proof.
  induction l as [|n l IH]; intros pool m H; [exfalso; apply H; intros n []|]. cbn [add_roots]. cbv zeta.
  destruct (assoc n (w_pkis w)) as [[ca|]|] eqn:En.
  - apply IH. intro G. apply H. intros n' [<-|Hn]; [|apply G; exact Hn]. exists ca. unfold stands_for. rewrite En. reflexivity.
  - reflexivity.
  - destruct (load_not_panic w (match pool with None => [] | Some p => p end) n) as [E|(p & E)]; rewrite E; cbn [bind]; [reflexivity|].
    apply IH. intro G. apply H. intros n' [<-|Hn]; [|apply G; exact Hn]. apply (proj1 (load_ok _ _ _ _ En E)).
Qed.
