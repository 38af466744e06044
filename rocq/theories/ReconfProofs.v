From Verif Require Import Base RouteModel ReconfModel.
Local Open Scope Z_scope.

Lemma check_dups_sound l seen r :
  check_dups l seen = Some r -> NoDup l /\ forall x, In x l -> ~ In x seen.
Proof.
  revert seen; induction l as [|n l IH]; intros seen H; simpl in H.
  { split; [constructor|]. intros x []. }
  destruct (mem n seen) eqn:E; try discriminate.
  apply mem_false in E. destruct (IH _ H) as (N & D). split.
  - constructor; auto. intros X. apply (D n X). left; auto.
  - intros x [-> | X]; auto. intros Y. apply (D x X). right; auto.
Qed.

Lemma set_limits_cons l g gs :
  set_limits l (g :: gs) = set_limits (assoc_set (to_lower (gName g)) (limits_of g) l) gs.
Proof. reflexivity. Qed.

Lemma set_limits_other n gs l :
  ~ In n (map (fun g => to_lower (gName g)) gs) -> assoc n (set_limits l gs) = assoc n l.
Proof.
  revert l; induction gs as [|g gs IH]; intros l H; [reflexivity|].
  rewrite set_limits_cons, IH by (intros X; apply H; right; auto).
  apply assoc_set_neq. intros E. apply H. left. auto.
Qed.

(** The last group with the name decides. *)
Lemma set_limits_last n gs l :
  (exists g, In g gs /\ to_lower (gName g) = n /\ assoc n (set_limits l gs) = Some (limits_of g)) \/
  (~ In n (map (fun g => to_lower (gName g)) gs) /\ assoc n (set_limits l gs) = assoc n l).
Proof.
  revert l; induction gs as [|g gs IH]; intros l.
  - right. split; auto.
  - rewrite set_limits_cons.
    destruct (IH (assoc_set (to_lower (gName g)) (limits_of g) l)) as [(g' & A & B & C) | (A & B)].
    + left. exists g'. repeat split; auto. right; auto.
    + destruct (str_eq_dec (to_lower (gName g)) n) as [E|E].
      * left. exists g. repeat split; auto; [left; auto|].
        rewrite B, <- E. apply assoc_set_eq.
      * right. split.
        -- intros [X|X]; auto.
        -- rewrite B. apply assoc_set_neq; auto.
Qed.

Lemma set_limits_defined n gs l :
  In n (map (fun g => to_lower (gName g)) gs) -> assoc n (set_limits l gs) <> None.
Proof.
  intros H. destruct (set_limits_last n gs l) as [(g & _ & _ & ->) | (N & _)]; [discriminate|contradiction].
Qed.

Lemma start_ok e lim idps pkis l act n :
  start e lim idps pkis l = (Some act, n) ->
  act = map (fun cb => (snd cb, match assoc (cbLimit (fst cb)) lim with
                                | Some _ => Some (cbLimit (fst cb)) | None => None end)) l /\
  n = running act.
Proof.
  revert act n; induction l as [|(c, b) l IH]; intros act n H; simpl in H.
  { injection H as <- <-. auto. }
  destruct (match cbSSO c with Some p => mem p idps | None => true end && load_cas e pkis (cbCAs c));
    try discriminate.
  destruct (start e lim idps pkis l) as [r m] eqn:E.
  destruct r as [r|]; try discriminate.
  destruct (IH _ _ eq_refl) as (-> & ->).
  injection H as <- <-. simpl. split; auto.
  unfold running; simpl. destruct (has_server (bMode b)); reflexivity.
Qed.

Lemma map_opt_len {A B} (f : A -> option B) l r : map_opt f l = Some r -> List.length r = List.length l.
Proof.
  revert r; induction l as [|x l IH]; intros r H; simpl in H.
  - injection H as <-. auto.
  - destruct (f x); try discriminate. destruct (map_opt f l); try discriminate.
    injection H as <-. simpl. f_equal. auto.
Qed.

Lemma check_inv e c bes : check e c = Some bes ->
  check_config (eQUIC e) (eIDNA e) (map cbRaw (cfBackends c)) = Some bes /\
  List.length bes = List.length (cfBackends c) /\
  NoDup (map gName (cfGroups c)) /\
  (forall b, In b (cfBackends c) -> cbLimit b = [] \/ In (cbLimit b) (map gName (cfGroups c))) /\
  (forall b, In b (cfBackends c) -> forall p, cbSSO b = Some p ->
     In p (cfOIDC c ++ cfSAML c ++ map fst (cfPasskey c))).
Proof.
  unfold check. intros H.
  destruct (check_dups (cfOIDC c ++ cfSAML c) []) as [seen|] eqn:E1; try discriminate.
  destruct (check_passkeys (cfPasskey c) seen) as [idps|] eqn:E2; try discriminate.
  destruct (check_config _ _ _) as [b0|] eqn:E3; try discriminate.
  destruct (_ && _) eqn:E4 in H; try discriminate. injection H as ->.
  rewrite !andb_true_iff in E4. destruct E4 as (((A & B) & C) & D).
  split; auto. split.
  { unfold check_config in E3. destruct (map_opt _ _) eqn:M; try discriminate.
    apply map_opt_len in M. rewrite map_length in M.
    destruct (_ && _); try discriminate. injection E3 as <-. exact M. }
  split.
  { destruct (check_dups (map gName (cfGroups c)) []) eqn:F; try discriminate.
    apply check_dups_sound in F. tauto. }
  rewrite forallb_forall in D.
  assert (S1 : forall x, In x seen -> In x (cfOIDC c ++ cfSAML c)).
  { assert (G : forall l s r, check_dups l s = Some r -> forall x, In x r -> In x l \/ In x s).
    { induction l as [|n l IH]; intros s r G x X; simpl in G.
      - injection G as <-. auto.
      - destruct (mem n s); try discriminate.
        destruct (IH _ _ G x X) as [Y|[Y|Y]]; simpl; auto. }
    intros x X. destruct (G _ _ _ E1 x X) as [Y|[]]. exact Y. }
  assert (S2 : forall x, In x idps -> In x (map fst (cfPasskey c)) \/ In x seen).
  { assert (G : forall l s r, check_passkeys l s = Some r -> forall x, In x r -> In x (map fst l) \/ In x s).
    { induction l as [|(n, o) l IH]; intros s r G x X; simpl in G.
      - injection G as <-. auto.
      - destruct (mem n s); try discriminate. destruct (str_eqb o []); try discriminate.
        destruct (negb _); try discriminate.
        destruct (IH _ _ G x X) as [Y|[Y|Y]]; simpl; auto. }
    intros x X. exact (G _ _ _ E2 x X). }
  split.
  - intros b I. specialize (D b I). unfold check_refs in D. rewrite !andb_true_iff in D.
    destruct D as ((D & _) & _). apply orb_true_iff in D as [D|D].
    + left. apply str_eqb_spec; auto.
    + right. apply mem_spec; auto.
  - intros b I p P. specialize (D b I). unfold check_refs in D. rewrite !andb_true_iff in D.
    destruct D as ((_ & D) & _). rewrite P in D. apply mem_spec in D.
    destruct (S2 _ D) as [X|X]; rewrite !in_app_iff; auto.
    apply S1 in X. rewrite in_app_iff in X. tauto.
Qed.

Lemma reconfigure_ok e c p p' : reconfigure e c p = (p', true) ->
  exists bes idps,
    check e c = Some bes /\ prepare e c = Some idps /\
    pLimits p' = set_limits (pLimits p) (cfGroups c) /\
    forallb (eSSH e) (cfSSH c) = true /\
    pServing p' = Some {| svBackends :=
        map (fun cb => (snd cb, match assoc (cbLimit (fst cb)) (pLimits p') with
                                | Some _ => Some (cbLimit (fst cb)) | None => None end))
            (combine (cfBackends c) bes);
        svPKI := cfPKI c; svDefault := cfDefault c |} /\
    pServers p' = (pServers p + match pServing p' with Some s => running (svBackends s) | None => 0 end -
                   match pServing p with Some s => running (svBackends s) | None => 0 end)%nat.
Proof.
  unfold reconfigure. intros H.
  destruct (check e c) as [bes|] eqn:C; [|discriminate].
  destruct (prepare e c) as [idps|] eqn:P; [|discriminate].
  destruct (start _ _ _ _ _) as [r n] eqn:S.
  destruct r as [act|]; [|discriminate].
  destruct (forallb (eSSH e) (cfSSH c)) eqn:X; [|discriminate].
  simpl in H. injection H as <-. exists bes, idps.
  apply start_ok in S as (-> & ->). cbn [pLimits pServing pServers].
  repeat split; auto.
Qed.

Lemma reconfigure_fail e c p p' : reconfigure e c p = (p', false) ->
  pServing p' = pServing p /\ (pServers p <= pServers p')%nat /\
  (p' = p \/
   (check e c <> None /\ prepare e c <> None /\
    pLimits p' = set_limits (pLimits p) (cfGroups c))).
Proof.
  unfold reconfigure. intros H.
  destruct (check e c) as [bes|] eqn:C; [|injection H as <-; auto].
  destruct (prepare e c) as [idps|] eqn:P; [|injection H as <-; auto].
  destruct (start _ _ _ _ _) as [r n] eqn:S.
  assert (X : p' = {| pLimits := set_limits (pLimits p) (cfGroups c); pServing := pServing p;
                      pServers := pServers p + n |}).
  { destruct r; [|injection H as <-; auto].
    destruct (negb _); [injection H as <-; auto|discriminate]. }
  subst p'. cbn. split; auto. split; [lia|]. right. repeat split; auto; discriminate.
Qed.

Lemma to_lower_fix_mem (gs : list group) :
  (forall g, In g gs -> to_lower (gName g) = gName g) ->
  map (fun g => to_lower (gName g)) gs = map gName gs.
Proof. intros H. apply map_ext_in. auto. Qed.

Lemma nodup_group (gs : list group) g g' :
  NoDup (map gName gs) -> In g gs -> In g' gs -> gName g = gName g' -> g = g'.
Proof.
  induction gs as [|x gs IH]; intros N A B E; [destruct A|].
  simpl in N. inversion N as [|? ? N1 N2]; subst.
  destruct A as [-> | A], B as [-> | B]; auto.
  - exfalso. apply N1. rewrite E. apply in_map; auto.
  - exfalso. apply N1. rewrite <- E. apply in_map; auto.
Qed.

Lemma nth_combine {A B} (l : list A) (r : list B) i :
  List.length r = List.length l ->
  nth_error (combine l r) i =
  match nth_error l i, nth_error r i with Some a, Some b => Some (a, b) | _, _ => None end.
Proof.
  revert r i; induction l as [|a l IH]; intros [|b r] [|i] H; simpl in *; try lia; auto.
Qed.

Lemma cell_after e c p p' i b :
  reconfigure e c p = (p', true) -> nth_error (cfBackends c) i = Some b ->
  cell_of p' i = match assoc (cbLimit b) (pLimits p') with Some _ => Some (cbLimit b) | None => None end.
Proof.
  intros H N. destruct (reconfigure_ok _ _ _ _ H) as (bes & idps & C & P & L & S & V & _).
  unfold cell_of. rewrite V. cbn [svBackends]. rewrite nth_error_map.
  destruct (check_inv _ _ _ C) as (_ & Len & _).
  rewrite nth_combine by auto. rewrite N.
  destruct (nth_error bes i) as [x|] eqn:E.
  - simpl. reflexivity.
  - apply nth_error_None in E. assert (X : (i < List.length (cfBackends c))%nat)
      by (apply nth_error_Some; congruence). lia.
Qed.

(** Which names p.bwLimits has. *)
Lemma after_limits h p n :
  assoc n (pLimits p) = None ->
  (forall e c g, In (e, c) h -> In g (cfGroups c) -> to_lower (gName g) <> n) ->
  assoc n (pLimits (after p h)) = None.
Proof.
  revert p; induction h as [|(e, c) h IH]; intros p P H; simpl; auto.
  apply IH; [|intros; eapply H; eauto; right; eauto].
  assert (X : ~ In n (map (fun g => to_lower (gName g)) (cfGroups c))).
  { intros X. apply in_map_iff in X as (g & E & I). eapply H; eauto. left; eauto. }
  destruct (reconfigure e c p) as [p' ok] eqn:R. cbn [fst]. destruct ok.
  - destruct (reconfigure_ok _ _ _ _ R) as (? & ? & _ & _ & -> & _). rewrite set_limits_other; auto.
  - destruct (reconfigure_fail _ _ _ _ R) as (_ & _ & [-> | (_ & _ & ->)]); auto.
    rewrite set_limits_other; auto.
Qed.
