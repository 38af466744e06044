From Verif Require Import Base IPModel RouteModel RouteSpec RouteProofs ReauthModel ReauthSpec.

Lemma mode_eqb_spec a b : mode_eqb a b = true <-> a = b.
Proof. destruct a, b; simpl; split; intros; congruence. Qed.

Lemma get_backend_protos p sn c : get_backend p sn [aProto c] = get_backend p sn (protos c).
Proof.
  unfold get_backend, lookup, protos. destruct (aProto c); [|reflexivity].
  cbn [find_proto]. destruct (ptable p (sn, [])); reflexivity.
Qed.

Lemma reauth_one_spec quic idna rs p c :
  check_config quic idna rs = Some (backs p) -> no_empty_proto (backs p) ->
  checkable p c ->
  (exists x, reauth_one p c = Ok x /\ (x = true <-> forbidden p c)).
Proof.
  intros Hc Hne Hck. unfold reauth_one. destruct (aName c) as [sn|] eqn:En.
  2:{ exists false. split; [reflexivity|]. split; [discriminate|].
      intros (sn & i & b & H & _). congruence. }
  destruct (Hck sn En) as (Ho & i & b & Hb & Hnth & Hs & Hcert).
  assert (Hnp : ~ In [] (protos c)).
  { unfold protos. destruct (aProto c); [intros []|intros [E|[]]; discriminate]. }
  assert (Hg : get_backend p sn [aProto c] = Some (i, b)).
  { rewrite get_backend_protos. apply (routing_iff quic idna rs p sn (protos c) i b Hc Hne Hnp). auto. }
  rewrite Hg. destruct (aOld c) as [m|] eqn:Em; [|congruence].
  assert (Huq : forall sn' j b', Some sn = Some sn' -> belongs (backs p) sn' (protos c) j ->
                 nth_error (backs p) j = Some b' -> j = i /\ b' = b).
  { intros sn' j b' E Hj Hn. injection E as <-.
    assert (j = i) by (eapply belongs_unique; eauto). subst j. split; congruence. }
  destruct (mode_eqb (bMode b) m) eqn:Emo; cbn [negb].
  2:{ exists true. split; [reflexivity|]. split; [intros _|reflexivity].
      exists sn, i, b. repeat split; try assumption. left. rewrite Em. intros E. injection E as ->.
      rewrite (proj2 (mode_eqb_spec _ _) eq_refl) in Emo. discriminate. }
  apply mode_eqb_spec in Emo.
  destruct (check_ip (bDeny b) (bAllow b) (aRemote c)) eqn:Ei; cbn [negb].
  2:{ exists true. split; [reflexivity|]. split; [intros _|reflexivity].
      exists sn, i, b. repeat split; try assumption. right. left. exact Ei. }
  assert (Hno : ~ (exists ca acl k, bClientAuth b = Some ca /\ caACL ca = Some acl /\
                   aCert c = Some k /\ ~ acl_accepts acl k) -> ~ forbidden p c).
  { intros Hn (sn' & j & b' & E & Hj & Hb' & H). rewrite En in E.
    destruct (Huq sn' j b' E Hj Hb') as [-> ->].
    destruct H as [H|[H|H]]; [rewrite Em, Emo in H; congruence|congruence|exact (Hn H)]. }
  destruct (bClientAuth b) as [ca|] eqn:Eca.
  2:{ exists false. split; [reflexivity|]. split; [discriminate|]. intros H. exfalso.
      apply (Hno ltac:(intros (ca & acl & k & H1 & _); congruence) H). }
  destruct (caACL ca) as [acl|] eqn:Eacl.
  2:{ unfold authorize. rewrite Eacl. exists false. split; [reflexivity|].
      split; [discriminate|]. intros H. exfalso.
      apply (Hno ltac:(intros (ca' & acl & k & H1 & H2 & _); congruence) H). }
  destruct (aCert c) as [k|] eqn:Ek.
  2:{ exfalso. apply (Hcert ca acl eq_refl Eacl). reflexivity. }
  destruct (authorize (Some ca) (Some k)) as [[]| | |] eqn:Ea.
  - exists false. split; [reflexivity|]. split; [discriminate|]. intros H. exfalso.
    apply authorize_spec in Ea. rewrite Eacl in Ea.
    refine (Hno _ H). intros (ca' & acl' & k' & H1 & H2 & H3 & H4).
    injection H1 as <-. rewrite Eacl in H2. injection H2 as <-. injection H3 as <-. exact (H4 Ea).
  - exists true. split; [reflexivity|]. split; [intros _|reflexivity].
    exists sn, i, b. repeat split; try assumption. right. right. exists ca, acl, k.
    repeat split; try assumption. intros Hacc.
    assert (Hx : authorize (Some ca) (Some k) = Ok tt) by (apply authorize_spec; rewrite Eacl; exact Hacc).
    congruence.
  - exfalso. unfold authorize in Ea. rewrite Eacl in Ea.
    repeat match type of Ea with context [if ?x then _ else _] => destruct x end; discriminate.
  - exfalso. unfold authorize in Ea. rewrite Eacl in Ea.
    repeat match type of Ea with context [if ?x then _ else _] => destruct x end; discriminate.
Qed.

Lemma reauthorize_spec quic idna rs p cs :
  check_config quic idna rs = Some (backs p) -> no_empty_proto (backs p) ->
  (forall c, In c cs -> checkable p c) ->
  exists closed, reauthorize p cs = (closed, Ok tt) /\
    forall c, In c closed <-> In c cs /\ forbidden p c.
Proof.
  intros Hc Hne. induction cs as [|c cs IH]; intros Hck; cbn [reauthorize].
  - exists []. split; [reflexivity|]. intros c. simpl. tauto.
  - destruct (reauth_one_spec quic idna rs p c Hc Hne (Hck c (or_introl eq_refl))) as (x & -> & Hx).
    destruct IH as (l & -> & Hl); [intros c' Hc'; apply Hck; right; exact Hc'|].
    exists (if x then c :: l else l). split; [reflexivity|]. intros d. destruct x; cbn [In].
    + rewrite Hl. split.
      * intros [<-|[H1 H2]]; [split; [auto|apply Hx; reflexivity]|auto].
      * intros [[<-|H1] H2]; auto.
    + rewrite Hl. split; [intros [H1 H2]; auto|].
      intros [[<-|H1] H2]; [|auto]. exfalso. apply Hx in H2. discriminate.
Qed.

Lemma reauthorize_skips p cs c :
  In c (fst (reauthorize p cs)) -> In c cs /\ aName c <> None.
Proof.
  induction cs as [|d cs IH]; cbn [reauthorize]; [intros []|].
  destruct (reauth_one p d) as [x| | |] eqn:E; cbn [fst]; try (intros []).
  destruct (reauthorize p cs) as [l r]. cbn [fst] in *.
  destruct x; cbn [In].
  - intros [<-|H].
    + split; [auto|]. unfold reauth_one in E. destruct (aName d); [congruence|discriminate].
    + destruct (IH H). auto.
  - intros H. destruct (IH H). auto.
Qed.
