From Verif Require Import Base ConnModel HelloModel IPModel IPSpec IPProofs RouteModel RouteSpec.

Lemma key_eqb_spec a b : key_eqb a b = true <-> a = b.
Proof.
  unfold key_eqb. rewrite andb_true_iff, !str_eqb_spec.
  destruct a, b; simpl. split; [intros [-> ->]; reflexivity|intros H; injection H as -> ->; auto].
Qed.

Lemma key_eqb_neq a b : key_eqb a b = false <-> a <> b.
Proof.
  rewrite <- (key_eqb_spec a b). destruct (key_eqb a b); split; congruence.
Qed.

Lemma key_mem_spec k l : key_mem k l = true <-> In k l.
Proof.
  induction l as [|x l IH]; simpl; [split; [discriminate|tauto]|].
  destruct (key_eqb k x) eqn:E.
  - apply key_eqb_spec in E. subst. tauto.
  - apply key_eqb_neq in E. rewrite IH. split; [tauto|intros [->|H]; [congruence|exact H]].
Qed.

(** ** Check's uniqueness test *)

Lemma check_protos_spec sn ps : forall keys keys',
  check_protos sn ps keys = Some keys' ->
  incl keys keys' /\
  forall p, In p ps -> In (sn, p) keys' /\ ~ In (sn, p) keys.
Proof.
  induction ps as [|p ps IH]; simpl; intros keys keys' H.
  - injection H as <-. split; [apply incl_refl|tauto].
  - destruct (key_mem (sn, p) keys) eqn:E; [discriminate|].
    apply IH in H as [H1 H2]. split.
    + intros x Hx. apply H1. right. exact Hx.
    + intros q [->|Hq].
      * split; [apply H1; left; reflexivity|].
        intros Hi. apply key_mem_spec in Hi. congruence.
      * destruct (H2 q Hq) as [Ha Hb]. split; [exact Ha|]. intros Hi. apply Hb. right. exact Hi.
Qed.

Lemma check_names_spec sns alpn : forall seen keys seen' keys',
  check_names sns alpn seen keys = Some (seen', keys') ->
  incl keys keys' /\ incl seen seen' /\ incl sns seen' /\
  (forall sn p, In sn sns -> In p alpn -> In (sn, p) keys' /\ ~ In (sn, p) keys) /\
  (forall sn, In sn sns -> In sn seen -> alpn <> []).
Proof.
  induction sns as [|sn sns IH]; cbn [check_names]; intros seen keys seen' keys' H.
  - injection H as <- <-. repeat split; try apply incl_refl; try (intros ? []); intros; contradiction.
  - destruct (mem sn seen && (List.length alpn =? 0)) eqn:E; [discriminate|].
    destruct (check_protos sn alpn keys) as [keys1|] eqn:Ep; [|discriminate].
    apply check_protos_spec in Ep as [P1 P2].
    apply IH in H as (N1 & N2 & N3 & N4 & N5).
    assert (Hs : incl seen seen' /\ In sn seen').
    { destruct (mem sn seen) eqn:Em.
      - split; [exact N2|]. apply N2. apply mem_spec. exact Em.
      - split; [intros x Hx; apply N2; right; exact Hx|apply N2; left; reflexivity]. }
    destruct Hs as [Hs1 Hs2].
    split; [eapply incl_tran; eauto|]. split; [exact Hs1|].
    split; [intros x [->|Hx]; [exact Hs2|apply N3; exact Hx]|]. split.
    + intros n p [->|Hn] Hp.
      * destruct (P2 p Hp) as [Ha Hb]. split; [apply N1; exact Ha|exact Hb].
      * destruct (N4 n p Hn Hp) as [Ha Hb]. split; [exact Ha|]. intros Hi. apply Hb. apply P1. exact Hi.
    + intros n [->|Hn] Hi.
      * apply mem_spec in Hi. rewrite Hi in E. cbn [andb] in E.
        intros ->. discriminate E.
      * apply (N5 n Hn). destruct (mem sn seen); [exact Hi|right; exact Hi].
Qed.

Lemma check_unique_spec bes : forall seen keys,
  check_unique bes seen keys = true ->
  (forall k sn p, claims bes k sn p -> ~ In (sn, p) keys) /\
  (forall k l sn p, claims bes k sn p -> claims bes l sn p -> k = l) /\
  (forall k b sn, nth_error bes k = Some b -> In sn (bNames b) -> bALPN b = [] ->
     ~ In sn seen /\ forall j, j < k -> ~ lists bes j sn).
Proof.
  induction bes as [|b bes IH]; cbn [check_unique]; intros seen keys H.
  - split; [|split].
    + intros k sn p (b & Hb & _). destruct k; discriminate.
    + intros k l sn p (b & Hb & _). destruct k; discriminate.
    + intros k b sn Hb. destruct k; discriminate.
  - destruct (check_names (bNames b) (bALPN b) seen keys) as [[seen' keys']|] eqn:E; [|discriminate].
    apply check_names_spec in E as (N1 & N2 & N3 & N4 & N5).
    destruct (IH _ _ H) as (I1 & I2 & I3). split; [|split].
    + intros k sn p (x & Hx & Hn & Hp). destruct k as [|k].
      * injection Hx as <-. apply N4; assumption.
      * intros Hi. apply (I1 k sn p); [exists x; auto|]. apply N1. exact Hi.
    + intros k l sn p (x & Hx & Hxn & Hxp) (y & Hy & Hyn & Hyp).
      destruct k as [|k], l as [|l].
      * reflexivity.
      * exfalso. injection Hx as <-. apply (I1 l sn p); [exists y; auto|]. apply N4; assumption.
      * exfalso. injection Hy as <-. apply (I1 k sn p); [exists x; auto|]. apply N4; assumption.
      * f_equal. apply (I2 k l sn p); [exists x|exists y]; auto.
    + intros k x sn Hx Hn Ha. destruct k as [|k].
      * injection Hx as <-. split; [intros Hi; exact (N5 sn Hn Hi Ha)|lia].
      * destruct (I3 k x sn Hx Hn Ha) as [J1 J2]. split; [intros Hi; apply J1; apply N2; exact Hi|].
        intros j Hj (y & Hy & Hyn). destruct j as [|j].
        -- injection Hy as <-. apply J1. apply N3. exact Hyn.
        -- apply (J2 j); [lia|]. exists y. auto.
Qed.

(** ** The table *)

Lemma t_set_eq t k v : t_set t k v k = Some v.
Proof. unfold t_set. assert (H : key_eqb k k = true) by (apply key_eqb_spec; reflexivity). rewrite H. reflexivity. Qed.

Lemma t_set_neq t k k' v : k <> k' -> t_set t k v k' = t k'.
Proof. intros H. unfold t_set. apply key_eqb_neq in H. rewrite H. reflexivity. Qed.

Lemma add_protos_in sn ps i : forall t (p : str), In p ps -> add_protos t sn ps i (sn, p) = Some i.
Proof.
  induction ps as [|q ps IH]; simpl; intros t p H; [contradiction|].
  destruct (in_dec str_eq_dec p ps) as [Hi|Hi]; [apply IH; exact Hi|].
  destruct H as [->|H]; [|contradiction].
  assert (G : forall t', add_protos t' sn ps i (sn, p) = t' (sn, p)).
  { clear IH. induction ps as [|r ps IH2]; simpl; intros t'; [reflexivity|].
    rewrite IH2 by (intros Hx; apply Hi; right; exact Hx).
    apply t_set_neq. intros Heq. injection Heq as ->. apply Hi. left. reflexivity. }
  rewrite G. apply t_set_eq.
Qed.

Lemma add_protos_out sn ps i : forall t k,
  (fst k <> sn \/ ~ In (snd k) ps) -> add_protos t sn ps i k = t k.
Proof.
  induction ps as [|q ps IH]; simpl; intros t [n p] H; [reflexivity|].
  rewrite IH.
  - apply t_set_neq. intros Heq. injection Heq as -> ->. simpl in H. tauto.
  - simpl in *. tauto.
Qed.

Lemma add_names_in sns alpn i : forall t (sn p : str),
  In sn sns -> In p alpn -> p <> [] -> add_names t sns alpn i (sn, p) = Some i.
Proof.
  induction sns as [|n sns IH]; simpl; intros t sn p Hs Hp Hne; [contradiction|].
  destruct (in_dec str_eq_dec sn sns) as [Hi|Hi]; [apply IH; assumption|].
  destruct Hs as [->|Hs]; [|contradiction].
  assert (G : forall t', add_names t' sns alpn i (sn, p) = t' (sn, p)).
  { clear IH. induction sns as [|r sns IH2]; simpl; intros t'; [reflexivity|].
    rewrite IH2 by (intros Hx; apply Hi; right; exact Hx).
    rewrite add_protos_out by (left; simpl; intros ->; apply Hi; left; reflexivity).
    destruct (t' (r, [])); [reflexivity|]. apply t_set_neq. congruence. }
  rewrite G. apply add_protos_in. exact Hp.
Qed.

Lemma add_names_out sns alpn i : forall t (sn p : str),
  p <> [] -> (~ In sn sns \/ ~ In p alpn) -> add_names t sns alpn i (sn, p) = t (sn, p).
Proof.
  induction sns as [|n sns IH]; simpl; intros t sn p Hne H; [reflexivity|].
  rewrite IH; [|exact Hne|tauto].
  rewrite add_protos_out.
  - destruct (t (n, [])); [reflexivity|]. apply t_set_neq. congruence.
  - simpl. destruct (str_eq_dec sn n) as [->|]; [|tauto]. right. tauto.
Qed.

Lemma add_names_default sns alpn i : ~ In [] alpn -> forall t sn,
  add_names t sns alpn i (sn, []) =
    match t (sn, []) with
    | Some j => Some j
    | None => if mem sn sns then Some i else None
    end.
Proof.
  intros Ha. induction sns as [|n sns IH]; cbn [add_names]; intros t sn.
  - destruct (t (sn, [])); reflexivity.
  - rewrite IH. rewrite add_protos_out by (right; exact Ha).
    destruct (str_eq_dec n sn) as [->|Hn].
    + destruct (t (sn, [])) as [j|] eqn:Et.
      * rewrite Et. reflexivity.
      * rewrite t_set_eq. cbn [mem]. rewrite str_eqb_refl. reflexivity.
    + assert (Hg : match t (n, []) with None => t_set t (n, []) i | Some _ => t end (sn, []) = t (sn, [])).
      { destruct (t (n, [])); [reflexivity|]. apply t_set_neq. congruence. }
      rewrite Hg. cbn [mem].
      assert (Hq : str_eqb sn n = false) by (apply str_eqb_neq; congruence).
      rewrite Hq. destruct (t (sn, [])); reflexivity.
Qed.

Lemma claims_cons b bes k sn p : claims (b :: bes) (S k) sn p <-> claims bes k sn p.
Proof. reflexivity. Qed.

Lemma build_table_proto bes : forall t i (sn p : str), p <> [] ->
  (exists k, build_table t bes i (sn, p) = Some (i + k) /\ claims bes k sn p) \/
  (build_table t bes i (sn, p) = t (sn, p) /\ forall k, ~ claims bes k sn p).
Proof.
  induction bes as [|b bes IH]; cbn [build_table]; intros t i sn p Hp.
  - right. split; [reflexivity|]. intros k (x & Hx & _). destruct k; discriminate.
  - destruct (IH (add_names t (bNames b) (bALPN b) i) (S i) sn p Hp) as [(k & Hk & Hc)|[Hk Hc]].
    + left. exists (S k). split; [rewrite Hk; f_equal; lia|exact Hc].
    + rewrite Hk. destruct (in_dec str_eq_dec sn (bNames b)) as [Hn|Hn].
      * destruct (in_dec str_eq_dec p (bALPN b)) as [Hq|Hq].
        -- left. exists 0. split; [rewrite add_names_in by assumption; f_equal; lia|].
           exists b. auto.
        -- right. split; [apply add_names_out; auto|].
           intros k (x & Hx & Hxn & Hxp). destruct k as [|k]; [injection Hx as <-; contradiction|].
           apply (Hc k). exists x. auto.
      * right. split; [apply add_names_out; auto|].
        intros k (x & Hx & Hxn & Hxp). destruct k as [|k]; [injection Hx as <-; contradiction|].
        apply (Hc k). exists x. auto.
Qed.

Lemma build_table_default bes : no_empty_proto bes -> forall t i sn,
  (exists j, t (sn, []) = Some j /\ build_table t bes i (sn, []) = Some j) \/
  (t (sn, []) = None /\
   ((exists k, build_table t bes i (sn, []) = Some (i + k) /\ lists bes k sn /\
               forall j, j < k -> ~ lists bes j sn) \/
    (build_table t bes i (sn, []) = None /\ forall k, ~ lists bes k sn))).
Proof.
  induction bes as [|b bes IH]; cbn [build_table]; intros Hne t i sn.
  - destruct (t (sn, [])) as [j|] eqn:E; [left; exists j; auto|right; split; [reflexivity|]].
    right. split; [reflexivity|]. intros k (x & Hx & _). destruct k; discriminate.
  - assert (Hb : ~ In [] (bALPN b)) by (apply Hne; left; reflexivity).
    assert (Hne' : no_empty_proto bes) by (intros x Hx; apply Hne; right; exact Hx).
    specialize (IH Hne' (add_names t (bNames b) (bALPN b) i) (S i) sn).
    rewrite add_names_default in IH by exact Hb.
    destruct (t (sn, [])) as [j|] eqn:E.
    + left. exists j. split; [reflexivity|].
      destruct IH as [(j' & Hj & Hj')|[Hx _]]; [|discriminate]. congruence.
    + right. split; [reflexivity|].
      destruct (mem sn (bNames b)) eqn:Em.
      * left. exists 0. destruct IH as [(j' & Hj & Hj')|[Hx _]]; [|discriminate].
        split; [rewrite Hj', <- Hj; f_equal; lia|].
        split; [exists b; split; [reflexivity|apply mem_spec; exact Em]|lia].
      * assert (Hnl : ~ lists (b :: bes) 0 sn).
        { intros (x & Hx & Hn). injection Hx as <-. apply mem_spec in Hn. congruence. }
        destruct IH as [(j' & Hj & Hj')|[_ [(k & Hk & Hl & Hf)|[Hk Hf]]]]; [discriminate| |].
        -- left. exists (S k). split; [rewrite Hk; f_equal; lia|]. split; [exact Hl|].
           intros j Hj. destruct j as [|j]; [exact Hnl|]. apply Hf. lia.
        -- right. split; [exact Hk|]. intros k. destruct k as [|k]; [exact Hnl|apply Hf].
Qed.

Lemma table_proto bes (sn p : str) : p <> [] ->
  (exists k, build_table empty_table bes 0 (sn, p) = Some k /\ claims bes k sn p) \/
  (build_table empty_table bes 0 (sn, p) = None /\ forall k, ~ claims bes k sn p).
Proof. intros Hp. exact (build_table_proto bes empty_table 0 sn p Hp). Qed.

Lemma table_default bes (sn : str) : no_empty_proto bes ->
  (exists k, build_table empty_table bes 0 (sn, []) = Some k /\ lists bes k sn /\
               forall j, j < k -> ~ lists bes j sn) \/
  (build_table empty_table bes 0 (sn, []) = None /\ forall k, ~ lists bes k sn).
Proof.
  intros Hne. destruct (build_table_default bes Hne empty_table 0 sn) as [(j & Hj & _)|[_ H]];
    [discriminate|exact H].
Qed.

Lemma claims_lists bes i sn p : claims bes i sn p -> lists bes i sn.
Proof. intros (b & H1 & H2 & _). exists b. auto. Qed.

Lemma find_proto_spec bes (sn : str) (protos : list str) : ~ In [] protos ->
  (exists i pre p post, find_proto (build_table empty_table bes 0) sn protos = Some i /\
     protos = pre ++ p :: post /\ claims bes i sn p /\
     forall q j, In q pre -> ~ claims bes j sn q) \/
  (find_proto (build_table empty_table bes 0) sn protos = None /\
   forall q j, In q protos -> ~ claims bes j sn q).
Proof.
  induction protos as [|p protos IH]; cbn [find_proto]; intros Hne.
  - right. split; [reflexivity|]. intros q j [].
  - destruct (table_proto bes sn p) as [(k & Hk & Hc)|[Hk Hc]].
    { intros ->. apply Hne. left. reflexivity. }
    + left. exists k, [], p, protos. rewrite Hk. repeat split; try exact Hc. intros q j [].
    + rewrite Hk. destruct IH as [(i & pre & q & post & Hf & -> & Hcl & Hpre)|[Hf Hno]].
      { intros Hi. apply Hne. right. exact Hi. }
      * left. exists i, (p :: pre), q, post. repeat split; try assumption.
        intros r j [->|Hr]; [apply Hc|apply Hpre; exact Hr].
      * right. split; [exact Hf|]. intros q j [->|Hq]; [apply Hc|apply Hno; exact Hq].
Qed.

Lemma lookup_belongs bes (sn : str) (protos : list str) i :
  check_unique bes [] [] = true -> no_empty_proto bes -> ~ In [] protos ->
  lookup (build_table empty_table bes 0) sn protos = Some i <-> belongs bes sn protos i.
Proof.
  intros Hu Hne Hnp. destruct (check_unique_spec _ _ _ Hu) as (_ & Huniq & _).
  unfold lookup. destruct (find_proto_spec bes sn protos Hnp)
    as [(j & pre & p & post & -> & -> & Hcl & Hpre)|[-> Hno]].
  - split.
    + intros H. injection H as <-. left. exists pre, p, post. auto.
    + intros [(pre' & p' & post' & Heq & Hcl' & Hpre')|[Hno' _]].
      * f_equal.
        assert (Hpp : pre = pre' /\ p = p').
        { clear - Heq Hcl Hcl' Hpre Hpre'. revert pre' Heq Hpre'.
          induction pre as [|x pre IH]; intros [|y pre'] Heq Hpre'; cbn [app] in Heq.
          - injection Heq as -> _. auto.
          - exfalso. injection Heq as -> _. apply (Hpre' y j); [left; reflexivity|exact Hcl].
          - exfalso. injection Heq as <- _. apply (Hpre x i); [left; reflexivity|exact Hcl'].
          - injection Heq as -> Heq. destruct (IH (fun q k Hq => Hpre q k (or_intror Hq)) pre' Heq
              (fun q k Hq => Hpre' q k (or_intror Hq))) as [-> ->]. auto. }
        destruct Hpp as [_ <-]. apply (Huniq j i sn p); assumption.
      * exfalso. apply (Hno' p j); [apply in_or_app; right; left; reflexivity|exact Hcl].
  - destruct (table_default bes sn Hne) as [(k & Hk & Hl & Hf)|[Hk Hf]]; rewrite Hk.
    + split.
      * intros H. injection H as <-. right. auto.
      * intros [(pre & p & post & Heq & Hcl & _)|[_ [Hl' Hf']]].
        -- exfalso. apply (Hno p i); [rewrite Heq; apply in_or_app; right; left; reflexivity|exact Hcl].
        -- f_equal. destruct (Nat.lt_trichotomy k i) as [H|[H|H]]; [|exact H|].
           ++ exfalso. exact (Hf' k H Hl).
           ++ exfalso. exact (Hf i H Hl').
    + split; [discriminate|].
      intros [(pre & p & post & Heq & Hcl & _)|[_ [Hl' Hf']]].
      * exfalso. apply (Hf i). eapply claims_lists; eauto.
      * exfalso. exact (Hf i Hl').
Qed.

(** Without the restriction on empty protocol names one thing still holds: a
    connection never goes to a backend that does not list its server name. *)
Lemma build_table_lists bes : forall t i (sn p : str) j,
  build_table t bes i (sn, p) = Some j ->
  t (sn, p) = Some j \/ exists k, j = i + k /\ lists bes k sn.
Proof.
  induction bes as [|b bes IH]; cbn [build_table]; intros t i sn p j H; [left; exact H|].
  apply IH in H as [H|(k & -> & Hl)].
  - assert (G : forall sns alpn t, add_names t sns alpn i (sn, p) = Some j ->
               t (sn, p) = Some j \/ (j = i /\ In sn sns)).
    { clear. induction sns as [|n sns IH]; cbn [add_names]; intros alpn t H; [left; exact H|].
      apply IH in H as [H|[-> H]]; [|right; split; [reflexivity|right; exact H]].
      assert (G2 : forall ps t, add_protos t n ps i (sn, p) = Some j ->
                t (sn, p) = Some j \/ (j = i /\ sn = n)).
      { clear. induction ps as [|q ps IH]; cbn [add_protos]; intros t H; [left; exact H|].
        apply IH in H as [H|H]; [|right; exact H].
        unfold t_set in H. destruct (key_eqb (n, q) (sn, p)) eqn:E; [|left; exact H].
        apply key_eqb_spec in E. injection E as -> ->. injection H as ->. auto. }
      apply G2 in H as [H|[-> ->]]; [|right; split; [reflexivity|left; reflexivity]].
      destruct (t (n, [])) eqn:E0; [left; exact H|].
      unfold t_set in H. destruct (key_eqb (n, []) (sn, p)) eqn:E; [|left; exact H].
      apply key_eqb_spec in E. injection E as -> <-. injection H as ->.
      right. split; [reflexivity|left; reflexivity]. }
    apply G in H as [H|[-> H]]; [left; exact H|].
    right. exists 0. split; [lia|]. exists b. auto.
  - right. exists (S k). split; [lia|]. destruct Hl as (x & Hx & Hn). exists x. auto.
Qed.

Lemma lookup_lists bes sn protos i :
  lookup (build_table empty_table bes 0) sn protos = Some i -> lists bes i sn.
Proof.
  unfold lookup. intros H.
  assert (G : exists p, build_table empty_table bes 0 (sn, p) = Some i).
  { destruct (find_proto _ sn protos) as [j|] eqn:E.
    - injection H as <-. clear - E. induction protos as [|p ps IH]; [discriminate|].
      cbn [find_proto] in E. destruct (build_table empty_table bes 0 (sn, p)) as [k|] eqn:Ek.
      + injection E as <-. exists p. exact Ek.
      + apply IH. exact E.
    - exists []. exact H. }
  destruct G as (p & Hp). apply build_table_lists in Hp as [Hp|(k & -> & Hl)]; [discriminate|].
  exact Hl.
Qed.

Lemma get_backend_inv p sn protos i b :
  get_backend p sn protos = Some (i, b) ->
  lookup (ptable p) sn protos = Some i /\ shut p i = false /\ nth_error (backs p) i = Some b.
Proof.
  unfold get_backend. destruct (lookup (ptable p) sn protos) as [j|]; [|discriminate].
  destruct (shut p j) eqn:Es; [discriminate|].
  destruct (nth_error (backs p) j) as [x|] eqn:En; [|discriminate].
  intros H. injection H as -> ->. auto.
Qed.

(** ** authorize *)

Lemma authorize_spec ca c :
  authorize ca (Some c) = Ok tt <->
  match ca with
  | None => True
  | Some a => match caACL a with None => True | Some acl => acl_accepts acl c end
  end.
Proof.
  unfold authorize. destruct ca as [a|]; [|tauto]. destruct (caACL a) as [acl|]; [|tauto].
  unfold acl_accepts.
  destruct (negb (str_eqb (cSubject c) []) &&
           (mem (cSubject c) acl || mem (!"SUBJECT:" ++ cSubject c) acl)) eqn:E1.
  { split; [|reflexivity]. intros _. left.
    apply andb_true_iff in E1 as [E0 E1]. apply negb_true_iff, str_eqb_neq in E0.
    apply orb_true_iff in E1. rewrite !mem_spec in E1. auto. }
  assert (N1 : ~ (cSubject c <> [] /\ (In (cSubject c) acl \/ In (!"SUBJECT:" ++ cSubject c) acl))).
  { intros [Ha Hb]. apply str_eqb_neq in Ha. rewrite Ha in E1. cbn [negb andb] in E1.
    rewrite <- !mem_spec in Hb. destruct Hb as [Hb|Hb]; rewrite Hb in E1; try discriminate.
    rewrite orb_true_r in E1. discriminate. }
  destruct (existsb (fun v => mem (!"DNS:" ++ v) acl) (cDNS c)) eqn:E2.
  { split; [|reflexivity]. intros _. right. left. apply existsb_exists in E2 as (d & Hd & Hm).
    exists d. rewrite mem_spec in Hm. auto. }
  assert (N2 : ~ exists d, In d (cDNS c) /\ In (!"DNS:" ++ d) acl).
  { intros (d & Hd & Hm). rewrite <- mem_spec in Hm.
    assert (Hx : existsb (fun v => mem (!"DNS:" ++ v) acl) (cDNS c) = true)
      by (apply existsb_exists; eauto). congruence. }
  destruct (existsb (fun v => mem (!"EMAIL:" ++ v) acl) (cEmails c)) eqn:E3.
  { split; [|reflexivity]. intros _. right. right. left. apply existsb_exists in E3 as (d & Hd & Hm).
    exists d. rewrite mem_spec in Hm. auto. }
  assert (N3 : ~ exists d, In d (cEmails c) /\ In (!"EMAIL:" ++ d) acl).
  { intros (d & Hd & Hm). rewrite <- mem_spec in Hm.
    assert (Hx : existsb (fun v => mem (!"EMAIL:" ++ v) acl) (cEmails c) = true)
      by (apply existsb_exists; eauto). congruence. }
  destruct (existsb (fun v => mem (!"URI:" ++ v) acl) (cURIs c)) eqn:E4.
  { split; [|reflexivity]. intros _. right. right. right. apply existsb_exists in E4 as (d & Hd & Hm).
    exists d. rewrite mem_spec in Hm. auto. }
  assert (N4 : ~ exists d, In d (cURIs c) /\ In (!"URI:" ++ d) acl).
  { intros (d & Hd & Hm). rewrite <- mem_spec in Hm.
    assert (Hx : existsb (fun v => mem (!"URI:" ++ v) acl) (cURIs c) = true)
      by (apply existsb_exists; eauto). congruence. }
  split; [discriminate|]. tauto.
Qed.

(** ** ALPN negotiation *)

Lemma nego_client_spec s cps f h : nego_client s cps = (f, h) -> (f = true <-> In s cps).
Proof.
  revert f h. induction cps as [|c cps IH]; cbn [nego_client]; intros f h H.
  - injection H as <- _. split; [discriminate|intros []].
  - destruct (str_eqb s c) eqn:E.
    + injection H as <- _. apply str_eqb_spec in E. subst. split; [left; reflexivity|reflexivity].
    + destruct (nego_client s cps) as [f' h'] eqn:E2. injection H as <- _.
      rewrite (IH _ _ eq_refl). apply str_eqb_neq in E. simpl. split; [tauto|].
      intros [->|H]; [congruence|exact H].
Qed.

Lemma nego_server_spec sps cps : forall fb r,
  nego_server sps cps fb = Some r ->
  (In r sps /\ In r cps) \/ (r = [] /\ forall s, In s sps -> ~ In s cps).
Proof.
  induction sps as [|s sps IH]; cbn [nego_server]; intros fb r H.
  - destruct fb; [|discriminate]. injection H as <-. right. split; [reflexivity|intros s []].
  - destruct (nego_client s cps) as [f h] eqn:E. pose proof (nego_client_spec _ _ _ _ E) as Hs.
    destruct f.
    + injection H as <-. left. split; [left; reflexivity|]. apply Hs. reflexivity.
    + apply IH in H as [[H1 H2]|[-> H]]; [left; split; [right; exact H1|exact H2]|].
      right. split; [reflexivity|]. intros x [->|Hx]; [|apply H; exact Hx].
      intros Hi. apply Hs in Hi. discriminate.
Qed.

Lemma negotiate_spec q sps cps r :
  negotiate_alpn q sps cps = Some r ->
  (In r sps /\ In r cps) \/ (r = [] /\ forall s, In s sps -> ~ In s cps).
Proof.
  unfold negotiate_alpn. destruct sps as [|s sps]; cbn [List.length Nat.eqb orb negb andb].
  - rewrite andb_false_r. intros H. injection H as <-. right. split; [reflexivity|intros s []].
  - destruct cps as [|c cps]; cbn [List.length Nat.eqb orb negb andb].
    + rewrite andb_true_r. destruct q; [discriminate|]. intros H. injection H as <-.
      right. split; [reflexivity|]. intros x _ [].
    + apply nego_server_spec.
Qed.

Lemma next_tcp_in b p : In p (next_protos_tcp b) <-> In p (bALPN b) /\ p <> !"h3".
Proof.
  unfold next_protos_tcp, next_protos_quic. rewrite !filter_In.
  unfold quic_only. rewrite !negb_true_iff.
  split.
  - intros [[H1 _] H2]. apply str_eqb_neq in H2. auto.
  - intros [H1 H2]. apply str_eqb_neq in H2. rewrite H2. auto.
Qed.

Lemma next_quic_in b p : In p (next_protos_quic b) -> In p (bALPN b).
Proof. unfold next_protos_quic. rewrite filter_In. tauto. Qed.

(** ** Check on a whole configuration *)

Lemma map_opt_nth {A B} (f : A -> option B) l : forall l' i y,
  map_opt f l = Some l' -> nth_error l' i = Some y -> exists x, nth_error l i = Some x /\ f x = Some y.
Proof.
  induction l as [|x l IH]; cbn [map_opt]; intros l' i y H Hn.
  - injection H as <-. destruct i; discriminate.
  - destruct (f x) as [z|] eqn:E; [|discriminate].
    destruct (map_opt f l) as [l''|]; [|discriminate]. injection H as <-.
    destruct i as [|i]; [injection Hn as <-; exists x; auto|].
    apply (IH l'' i y eq_refl Hn).
Qed.

Lemma check_config_inv quic idna rs bes :
  check_config quic idna rs = Some bes ->
  check_unique bes [] [] = true /\
  (forall i b, nth_error bes i = Some b ->
     (bMode b = ModeTLSPassthrough -> bClientAuth b = None) /\ bNames b <> []).
Proof.
  unfold check_config. destruct (map_opt (check_mode quic idna) rs) as [l|] eqn:E; [|discriminate].
  destruct (check_unique l [] []) eqn:Eu; [|discriminate].
  destruct (forallb check_addrs l) eqn:Ea; [|discriminate].
  intros H. injection H as <-. split; [exact Eu|].
  intros i b Hb. destruct (map_opt_nth _ _ _ _ _ E Hb) as (r & _ & Hr).
  split.
  - unfold check_mode in Hr. destruct (parse_mode (rMode r)) as [m|]; [|discriminate].
    destruct (mode_eqb m ModeTLSPassthrough && _) eqn:Em; [discriminate|].
    injection Hr as <-. cbn [bMode bClientAuth]. intros ->. cbn [mode_eqb andb] in Em.
    destruct (rClientAuth r); [discriminate|reflexivity].
  - rewrite forallb_forall in Ea. specialize (Ea b (nth_error_In _ _ Hb)).
    unfold check_addrs in Ea. destruct (bNames b); [discriminate|congruence].
Qed.

(** ** handle_connection *)

Lemma handle_reaches p e n r hello a i :
  handle_connection p e n r hello = a -> reaches a i ->
  exists h b, hello = Ok h /\ n < maxOpen p /\
    get_backend p (requested_name p h) (alpnProtos h) = Some (i, b) /\
    check_ip (bDeny b) (bAllow b) r = true /\
    ((bMode b = ModeTLSPassthrough /\ session a = None) \/
     exists proto c, session a = Some (proto, c) /\
       authorize_tls p e (requested_name p h) b (alpnProtos h) = Ok (proto, c)).
Proof.
  unfold handle_connection. intros H Hr.
  destruct (Nat.leb_spec (maxOpen p) n) as [Hm|Hm]; [subst a; contradiction|].
  destruct hello as [h| | |]; try (subst a; contradiction).
  exists h. cbv zeta in H.
  replace (match serverName h with [] => defName p | _ :: _ => serverName h end)
    with (requested_name p h) in H by (unfold requested_name; destruct (serverName h); reflexivity).
  destruct (get_backend p (requested_name p h) (alpnProtos h)) as [[j b]|] eqn:Eg;
    [|subst a; contradiction].
  destruct (mode_eqb (bMode b) ModeTLSPassthrough) eqn:Em.
  - destruct (check_ip (bDeny b) (bAllow b) r) eqn:Ei; [|subst a; contradiction].
    destruct (waitOK e); subst a; [|contradiction]. simpl in Hr. subst j.
    exists b. repeat split; try assumption. left. split; [|reflexivity].
    destruct (bMode b); discriminate || reflexivity.
  - destruct ((List.length (alpnProtos h) =? 1) && _ && _); [subst a; contradiction|].
    destruct (check_ip (bDeny b) (bAllow b) r) eqn:Ei; cbn [negb] in H; [|subst a; contradiction].
    destruct (authorize_tls p e (requested_name p h) b (alpnProtos h)) as [[proto c]| | |] eqn:Ea;
      try (subst a; contradiction).
    destruct (waitOK e); [|subst a; contradiction].
    exists b.
    assert (Hj : j = i /\ session a = Some (proto, c)).
    { destruct (bMode b); subst a; simpl in Hr; auto. }
    destruct Hj as [-> Hs]. repeat split; try assumption. right. exists proto, c. auto.
Qed.

Lemma authorize_tls_inv p e sn b cps proto c :
  authorize_tls p e sn b cps = Ok (proto, c) ->
  (hsName e = sn \/ (hsName e = [] /\ sn = defName p)) /\
  cert_rules e b c /\
  negotiate_alpn false (next_protos_tcp b) cps = Some proto /\
  (bClientAuth b <> None -> verify_connection p e (hsName e) proto c = true).
Proof.
  unfold authorize_tls, tls_handshake. intros H.
  destruct (hsOK e); cbn [negb] in H; [|discriminate].
  destruct (negotiate_alpn false (next_protos_tcp b) cps) as [pr|] eqn:En; [|discriminate].
  destruct (bClientAuth b) as [ca|] eqn:Eca.
  - destruct (hsCert e) as [k|] eqn:Ek; [|discriminate].
    destruct (verifies e (caRoots ca) k && verify_connection p e (hsName e) pr (Some k)) eqn:Ev;
      [|discriminate].
    apply andb_true_iff in Ev as [Ev1 Ev2].
    destruct ((str_eqb (hsName e) [] && negb (str_eqb sn (defName p))) ||
         (negb (str_eqb (hsName e) []) && negb (str_eqb (hsName e) sn))) eqn:Eq; [discriminate|].
    assert (Hn : hsName e = sn \/ (hsName e = [] /\ sn = defName p)).
    { destruct (str_eqb (hsName e) []) eqn:E0; cbn [negb andb orb] in Eq.
      - rewrite orb_false_r in Eq. apply negb_false_iff, str_eqb_spec in Eq.
        apply str_eqb_spec in E0. auto.
      - apply negb_false_iff, str_eqb_spec in Eq. auto. }
    assert (Hr : proto = pr /\ c = Some k /\
              match caACL ca with None => True | Some acl => acl_accepts acl k end).
    { destruct (caACL ca) as [acl|] eqn:Eacl.
      - destruct (authorize (Some ca) (Some k)) as [[]| | |] eqn:Eau; try discriminate.
        cbn [bind] in H. injection H as <- <-.
        apply authorize_spec in Eau. rewrite Eacl in Eau. auto.
      - injection H as <- <-. auto. }
    destruct Hr as (-> & -> & Hacl).
    repeat split; try assumption; [|intros _; exact Ev2].
    unfold cert_rules. rewrite Eca. exists k. auto.
  - destruct ((str_eqb (hsName e) [] && negb (str_eqb sn (defName p))) ||
         (negb (str_eqb (hsName e) []) && negb (str_eqb (hsName e) sn))) eqn:Eq; [discriminate|].
    injection H as <- <-.
    assert (Hn : hsName e = sn \/ (hsName e = [] /\ sn = defName p)).
    { destruct (str_eqb (hsName e) []) eqn:E0; cbn [negb andb orb] in Eq.
      - rewrite orb_false_r in Eq. apply negb_false_iff, str_eqb_spec in Eq.
        apply str_eqb_spec in E0. auto.
      - apply negb_false_iff, str_eqb_spec in Eq. auto. }
    repeat split; try assumption; [|congruence].
    unfold cert_rules. rewrite Eca. exact I.
Qed.

(** The negotiated protocol leads back to the backend the handshake started
    with. *)
Lemma renegotiated_backend bes sn protos i b proto :
  check_unique bes [] [] = true -> no_empty_proto bes -> ~ In [] protos ->
  lookup (build_table empty_table bes 0) sn protos = Some i ->
  nth_error bes i = Some b ->
  ((forall j, j < i -> ~ lists bes j sn) \/ ~ (In !"h3" protos /\ In !"h3" (bALPN b))) ->
  (In proto (next_protos_tcp b) /\ In proto protos \/
   proto = [] /\ forall s, In s (next_protos_tcp b) -> ~ In s protos) ->
  lookup (build_table empty_table bes 0) sn [proto] = Some i.
Proof.
  intros Hu Hne Hnp Hl Hb Hh Hneg.
  destruct (check_unique_spec _ _ _ Hu) as (_ & Huniq & _).
  pose proof (lookup_lists _ _ _ _ Hl) as (b' & Hb' & Hsn).
  assert (b' = b) by congruence. subst b'.
  destruct Hneg as [[Hp1 Hp2]|[-> Hno]].
  - apply next_tcp_in in Hp1 as [Hp1 _].
    apply (lookup_belongs bes sn [proto] i Hu Hne).
    { intros [E|[]]. apply Hnp. rewrite <- E. exact Hp2. }
    left. exists [], proto, []. split; [reflexivity|]. split; [exists b; auto|]. intros q j [].
  - assert (Hf : forall j, j < i -> ~ lists bes j sn).
    { destruct Hh as [Hf|Hh]; [exact Hf|].
      apply (lookup_belongs bes sn protos i Hu Hne Hnp) in Hl.
      destruct Hl as [(pre & q & post & -> & Hc & _)|[_ [_ Hf]]]; [|exact Hf].
      exfalso. destruct Hc as (b' & Hb'' & _ & Hq). assert (b' = b) by congruence. subst b'.
      assert (Hin : In q (pre ++ q :: post)) by (apply in_or_app; right; left; reflexivity).
      destruct (str_eq_dec q !"h3") as [->|Hq3]; [apply Hh; auto|].
      apply (Hno q); [apply next_tcp_in; auto|exact Hin]. }
    unfold lookup. cbn [find_proto].
    assert (Hd : build_table empty_table bes 0 (sn, []) = Some i).
    { destruct (table_default bes sn Hne) as [(k & Hk & Hlk & Hfk)|[Hk Hfk]].
      - rewrite Hk. f_equal. destruct (Nat.lt_trichotomy k i) as [H|[H|H]]; [|exact H|].
        + exfalso. exact (Hf k H Hlk).
        + exfalso. apply (Hfk i H). exists b. auto.
      - exfalso. apply (Hfk i). exists b. auto. }
    rewrite Hd. reflexivity.
Qed.

Lemma verify_connection_rules p e sn proto k i b :
  get_backend p sn [proto] = Some (i, b) ->
  verify_connection p e sn proto (Some k) = true ->
  revocation_rules e b (Some k) /\
  (bClientAuth b <> None -> authorize (bClientAuth b) (Some k) = Ok tt).
Proof.
  unfold verify_connection, revocation_rules. intros Hg H. rewrite Hg in H.
  destruct (bClientAuth b) as [ca|]; [|split; [exact I|congruence]].
  destruct (not_revoked e b k) eqn:En; [|discriminate].
  split.
  - unfold not_revoked in En. destruct (assoc (cAKI k) (bPki b)).
    + apply negb_true_iff in En. exact En.
    + destruct (cOCSP k); [left; reflexivity|]. right. exact En.
  - intros _. destruct (authorize (Some ca) (Some k)) as [[]| | |]; try discriminate. reflexivity.
Qed.

Lemma session_revocation p e sn b i cps proto c :
  check_unique (backs p) [] [] = true -> no_empty_proto (backs p) -> ~ In [] cps ->
  (forall j, ~ lists (backs p) j []) ->
  get_backend p sn cps = Some (i, b) ->
  ((forall j, j < i -> ~ lists (backs p) j sn) \/ ~ (In !"h3" cps /\ In !"h3" (bALPN b))) ->
  authorize_tls p e sn b cps = Ok (proto, c) ->
  revocation_rules e b c.
Proof.
  intros Hu Hne Hnp Hnl Hg Hh Ha.
  apply authorize_tls_inv in Ha as (Hn & Hr & Hneg & Hv).
  unfold revocation_rules. destruct (bClientAuth b) as [ca|] eqn:Eca; [|exact I].
  specialize (Hv ltac:(congruence)).
  unfold cert_rules in Hr. rewrite Eca in Hr. destruct Hr as (k & -> & _).
  apply get_backend_inv in Hg as (Hl & Hs & Hb).
  assert (Hname : hsName e = sn).
  { destruct Hn as [Hn|[Hn Hd]]; [exact Hn|exfalso].
    rewrite Hn in Hv. unfold verify_connection, get_backend in Hv.
    destruct (lookup (ptable p) [] [proto]) as [j|] eqn:El; [|discriminate].
    apply (Hnl j). eapply lookup_lists. exact El. }
  rewrite Hname in Hv.
  assert (Hl2 : lookup (ptable p) sn [proto] = Some i).
  { eapply renegotiated_backend; eauto. apply negotiate_spec in Hneg. exact Hneg. }
  assert (Hg2 : get_backend p sn [proto] = Some (i, b)).
  { unfold get_backend. rewrite Hl2, Hs, Hb. reflexivity. }
  apply (verify_connection_rules p e sn proto k i b Hg2) in Hv as [Hv _].
  unfold revocation_rules in Hv. rewrite Eca in Hv. exact Hv.
Qed.

(** ** QUIC *)

Lemma quic_config_inv p sn cps b :
  quic_config p sn cps = Some b ->
  exists i c, In c cps /\ ptable p (sn, c) = Some i /\ nth_error (backs p) i = Some b /\
    bMode b <> ModeTLSPassthrough.
Proof.
  induction cps as [|c cps IH]; cbn [quic_config]; intros H; [discriminate|].
  assert (G : quic_config p sn cps = Some b ->
    exists i c0, In c0 (c :: cps) /\ ptable p (sn, c0) = Some i /\ nth_error (backs p) i = Some b /\
    bMode b <> ModeTLSPassthrough).
  { intros Hx. destruct (IH Hx) as (i & c0 & Hi & Hr). exists i, c0. split; [right; exact Hi|exact Hr]. }
  destruct (ptable p (sn, c)) as [i|] eqn:Et; [|apply G; exact H].
  destruct (nth_error (backs p) i) as [x|] eqn:En; [|apply G; exact H].
  destruct (mode_eqb (bMode x) ModeTLSPassthrough) eqn:Em; [apply G; exact H|].
  injection H as <-. exists i, c. repeat split; try assumption; [left; reflexivity|].
  intros Hm. rewrite Hm in Em. discriminate.
Qed.

Lemma handle_quic_serves p e n r cps i proto c :
  check_unique (backs p) [] [] = true -> no_empty_proto (backs p) -> ~ In [] cps ->
  (forall b, In b (backs p) -> In !"h3" (bALPN b) -> bMode b <> ModeTLS /\ bMode b <> ModeTCP) ->
  handle_quic p p e n r cps = QServe i proto c ->
  exists b, nth_error (backs p) i = Some b /\ claims (backs p) i (hsName e) proto /\ In proto cps /\
    shut p i = false /\ n < maxOpen p /\ bMode b <> ModeTLSPassthrough /\
    check_ip (bDeny b) (bAllow b) r = true /\ cert_rules e b c /\ revocation_rules e b c.
Proof.
  intros Hu Hne Hnp Hmode. unfold handle_quic.
  destruct (quic_config p (hsName e) cps) as [b0|] eqn:Eq; [|discriminate].
  destruct (tls_handshake p e true b0 cps) as [[pr k]|] eqn:Eh; [|discriminate].
  destruct (get_backend p (hsName e) [pr]) as [[j b]|] eqn:Eg; [|discriminate].
  destruct (Nat.leb_spec (maxOpen p) n) as [Hm|Hm]; [discriminate|].
  destruct (check_ip (bDeny b) (bAllow b) r) eqn:Ei; cbn [negb]; [|discriminate].
  destruct (waitOK e); [|discriminate].
  intros H. injection H as -> -> ->.
  destruct (check_unique_spec _ _ _ Hu) as (_ & Huniq & _).
  apply quic_config_inv in Eq as (i0 & c0 & Hc0 & Ht0 & Hb0 & Hm0).
  pose proof Eg as Eg'. apply get_backend_inv in Eg' as (Hl & Hs & Hb).
  unfold tls_handshake in Eh. destruct (hsOK e); cbn [negb] in Eh; [|discriminate].
  destruct (negotiate_alpn true (next_protos_quic b0) cps) as [pr|] eqn:En; [|discriminate].
  assert (Hpr : pr = proto).
  { destruct (bClientAuth b0); [|congruence]. destruct (hsCert e); [|discriminate].
    destruct (verifies _ _ _ && _); [congruence|discriminate]. }
  subst pr.
  assert (Hc0ne : c0 <> []) by (intros ->; contradiction).
  assert (Hcl0 : claims (backs p) i0 (hsName e) c0).
  { destruct (table_proto (backs p) (hsName e) c0 Hc0ne) as [(k & Hk & Hc)|[Hk _]];
      unfold ptable in Ht0; rewrite Hk in Ht0; [injection Ht0 as <-; exact Hc|discriminate]. }
  pose proof (nth_error_In _ _ Hb0) as Hin0.
  apply negotiate_spec in En as [[Hp1 Hp2]|[-> Hno]].
  2:{ exfalso. destruct Hcl0 as (x & Hx & _ & Hc0a). assert (x = b0) by congruence. subst x.
      apply (Hno c0); [|exact Hc0]. unfold next_protos_quic. apply filter_In. split; [exact Hc0a|].
      unfold quic_only. destruct (str_eqb c0 !"h3") eqn:E3; [|reflexivity].
      apply str_eqb_spec in E3. subst c0. destruct (Hmode b0 Hin0 Hc0a) as [M1 M2].
      destruct (bMode b0); try reflexivity; congruence. }
  apply next_quic_in in Hp1.
  assert (Hclp : claims (backs p) i0 (hsName e) proto).
  { destruct Hcl0 as (x & Hx & Hxn & _). assert (x = b0) by congruence. subst x. exists b0. auto. }
  assert (Hij : i = i0).
  { assert (Hpn : ~ In [] [proto]) by (intros [E|[]]; apply Hnp; rewrite <- E; exact Hp2).
    apply (lookup_belongs (backs p) (hsName e) [proto] i Hu Hne Hpn) in Hl.
    destruct Hl as [(pre & q & post & Heq & Hcq & _)|[Hx _]].
    - destruct pre as [|y [|? ?]]; [|discriminate Heq|discriminate Heq].
      cbn [app] in Heq. injection Heq as <- _. apply (Huniq i i0 _ _ Hcq Hclp).
    - exfalso. apply (Hx proto i0); [left; reflexivity|exact Hclp]. }
  subst i0. assert (b0 = b) by congruence. subst b0.
  exists b. repeat split; try assumption.
  - unfold cert_rules. destruct (bClientAuth b) as [ca|] eqn:Eca; [|exact I].
    destruct (hsCert e) as [k|] eqn:Ek; [|discriminate].
    destruct (verifies e (caRoots ca) k && verify_connection p e (hsName e) proto (Some k)) eqn:Ev;
      [|discriminate]. injection Eh as <-.
    apply andb_true_iff in Ev as [Ev1 Ev2].
    exists k. repeat split; try assumption.
    apply (verify_connection_rules p e _ _ _ _ _ Eg) in Ev2 as [_ Ev2].
    rewrite Eca in Ev2. specialize (Ev2 ltac:(congruence)). apply authorize_spec in Ev2. exact Ev2.
  - unfold revocation_rules. destruct (bClientAuth b) as [ca|] eqn:Eca; [|exact I].
    destruct (hsCert e) as [k|] eqn:Ek; [|discriminate].
    destruct (verifies e (caRoots ca) k && verify_connection p e (hsName e) proto (Some k)) eqn:Ev;
      [|discriminate]. injection Eh as <-.
    apply andb_true_iff in Ev as [Ev1 Ev2].
    apply (verify_connection_rules p e _ _ _ _ _ Eg) in Ev2 as [Ev2 _].
    unfold revocation_rules in Ev2. rewrite Eca in Ev2. exact Ev2.
Qed.

(** ** Statements used by RouteProps *)

Lemma routing_iff quic idna rs p sn protos i b :
  check_config quic idna rs = Some (backs p) -> no_empty_proto (backs p) -> ~ In [] protos ->
  get_backend p sn protos = Some (i, b) <->
  belongs (backs p) sn protos i /\ nth_error (backs p) i = Some b /\ shut p i = false.
Proof.
  intros Hc Hne Hnp. destruct (check_config_inv _ _ _ _ Hc) as [Hu _].
  pose proof (lookup_belongs (backs p) sn protos i Hu Hne Hnp) as Hl. fold (ptable p) in Hl.
  unfold get_backend. split.
  - intros H. destruct (lookup (ptable p) sn protos) as [j|] eqn:E; [|discriminate].
    destruct (shut p j) eqn:Es; [discriminate|].
    destruct (nth_error (backs p) j) as [x|] eqn:En; [|discriminate].
    injection H as -> ->. split; [apply Hl; reflexivity|auto].
  - intros (H1 & H2 & H3). apply Hl in H1. rewrite H1, H3, H2. reflexivity.
Qed.

Lemma belongs_unique quic idna rs bes sn protos i j :
  check_config quic idna rs = Some bes ->
  belongs bes sn protos i -> belongs bes sn protos j -> i = j.
Proof.
  intros Hc Hi Hj. destruct (check_config_inv _ _ _ _ Hc) as [Hu _].
  destruct (check_unique_spec _ _ _ Hu) as (_ & Huniq & _).
  destruct Hi as [(pre & p & post & E1 & C1 & N1)|(N1 & L1 & F1)];
    destruct Hj as [(pre' & p' & post' & E2 & C2 & N2)|(N2 & L2 & F2)].
  - assert (p = p').
    { rewrite E1 in E2. clear E1. revert pre' E2 N2. revert N1.
      induction pre as [|x pre IH]; intros N1 [|y pre'] E2 N2; cbn [app] in E2.
      - injection E2 as -> _. reflexivity.
      - injection E2 as -> _. exfalso. apply (N2 y i); [left; reflexivity|exact C1].
      - injection E2 as -> _. exfalso. apply (N1 p' j); [left; reflexivity|exact C2].
      - injection E2 as -> E2. apply (IH (fun q k Hq => N1 q k (or_intror Hq)) pre' E2).
        intros q k Hq. apply N2. right. exact Hq. }
    subst p'. apply (Huniq i j sn p C1 C2).
  - exfalso. apply (N2 p i); [|exact C1]. rewrite E1. apply in_or_app. right. left. reflexivity.
  - exfalso. apply (N1 p' j); [|exact C2]. rewrite E2. apply in_or_app. right. left. reflexivity.
  - destruct (Nat.lt_trichotomy i j) as [H|[H|H]]; [|exact H|]; exfalso.
    + exact (F2 i H L1). + exact (F1 j H L2).
Qed.

Lemma claims_distinct quic idna rs bes sn pr i j :
  check_config quic idna rs = Some bes -> claims bes i sn pr -> claims bes j sn pr -> i = j.
Proof.
  intros Hc. destruct (check_config_inv _ _ _ _ Hc) as [Hu _].
  destruct (check_unique_spec _ _ _ Hu) as (_ & Huniq & _). apply Huniq.
Qed.

Lemma reaches_listed p e n r hello i :
  reaches (handle_connection p e n r hello) i ->
  exists h, hello = Ok h /\ lists (backs p) i (requested_name p h) /\ shut p i = false.
Proof.
  intros H. destruct (handle_reaches p e n r hello _ i eq_refl H) as (h & b & -> & _ & Hg & _).
  exists h. split; [reflexivity|]. apply get_backend_inv in Hg as (Hl & Hs & _).
  split; [|exact Hs]. eapply lookup_lists. exact Hl.
Qed.

Lemma unlisted_refused p e n r h :
  (forall i, lists (backs p) i (requested_name p h) -> shut p i = true) ->
  handle_connection p e n r (Ok h) = ActTooMany \/ handle_connection p e n r (Ok h) = ActUnrecognized.
Proof.
  intros H. unfold handle_connection. destruct (maxOpen p <=? n); [left; reflexivity|right].
  cbv zeta.
  replace (match serverName h with [] => defName p | _ :: _ => serverName h end)
    with (requested_name p h) by (unfold requested_name; destruct (serverName h); reflexivity).
  destruct (get_backend p (requested_name p h) (alpnProtos h)) as [[i b]|] eqn:Eg; [|reflexivity].
  apply get_backend_inv in Eg as (Hl & Hs & _). apply lookup_lists in Hl.
  rewrite (H i Hl) in Hs. discriminate.
Qed.

Lemma reaches_ip_ok p e n r hello i :
  reaches (handle_connection p e n r hello) i ->
  exists b, nth_error (backs p) i = Some b /\ check_ip (bDeny b) (bAllow b) r = true.
Proof.
  intros H. destruct (handle_reaches p e n r hello _ i eq_refl H) as (h & b & -> & _ & Hg & Hi & _).
  apply get_backend_inv in Hg as (_ & _ & Hb). exists b. auto.
Qed.

Lemma reaches_cert_ok quic idna rs p e n r hello i :
  check_config quic idna rs = Some (backs p) ->
  reaches (handle_connection p e n r hello) i ->
  exists b, nth_error (backs p) i = Some b /\
    match session (handle_connection p e n r hello) with
    | Some (_, c) => cert_rules e b c
    | None => bClientAuth b = None
    end.
Proof.
  intros Hc H. destruct (handle_reaches p e n r hello _ i eq_refl H)
    as (h & b & -> & _ & Hg & Hi & Hs).
  apply get_backend_inv in Hg as (_ & _ & Hb). exists b. split; [exact Hb|].
  destruct Hs as [[Hm Hs]|(proto & c & Hs & Ha)]; rewrite Hs.
  - destruct (check_config_inv _ _ _ _ Hc) as [_ Hx]. destruct (Hx i b Hb) as [Hx' _]. auto.
  - apply authorize_tls_inv in Ha as (_ & Hr & _). exact Hr.
Qed.

Lemma session_name p e n r hello i proto c :
  reaches (handle_connection p e n r hello) i ->
  session (handle_connection p e n r hello) = Some (proto, c) ->
  exists h b, hello = Ok h /\ nth_error (backs p) i = Some b /\
    lists (backs p) i (requested_name p h) /\
    (hsName e = requested_name p h \/ hsName e = [] /\ requested_name p h = defName p) /\
    cert_rules e b c /\
    (proto = [] \/ In proto (bALPN b) /\ In proto (alpnProtos h)).
Proof.
  intros H Hs0. destruct (handle_reaches p e n r hello _ i eq_refl H)
    as (h & b & -> & _ & Hg & Hi & Hs).
  exists h, b. apply get_backend_inv in Hg as (Hl & Hs' & Hb).
  destruct Hs as [[Hm Hs]|(pr & c' & Hs & Ha)]; rewrite Hs0 in Hs; [discriminate|].
  injection Hs as <- <-. apply authorize_tls_inv in Ha as (Hn & Hr & Hneg & _).
  repeat split; try assumption.
  - eapply lookup_lists. exact Hl.
  - apply negotiate_spec in Hneg as [[H1 H2]|[-> _]]; [right|left; reflexivity].
    apply next_tcp_in in H1 as [H1 _]. auto.
Qed.

Lemma session_revoked quic idna rs p e n r h i b proto c :
  check_config quic idna rs = Some (backs p) -> no_empty_proto (backs p) -> ~ In [] (alpnProtos h) ->
  (forall j, ~ lists (backs p) j []) ->
  reaches (handle_connection p e n r (Ok h)) i ->
  session (handle_connection p e n r (Ok h)) = Some (proto, c) ->
  nth_error (backs p) i = Some b ->
  ((forall j, j < i -> ~ lists (backs p) j (requested_name p h)) \/
   ~ (In !"h3" (alpnProtos h) /\ In !"h3" (bALPN b))) ->
  revocation_rules e b c.
Proof.
  intros Hc Hne Hnp Hnl H Hs0 Hb Hh. destruct (check_config_inv _ _ _ _ Hc) as [Hu _].
  destruct (handle_reaches p e n r (Ok h) _ i eq_refl H) as (h' & b' & E & _ & Hg & Hi & Hs).
  injection E as <-. pose proof Hg as Hg'. apply get_backend_inv in Hg' as (_ & _ & Hb').
  assert (b' = b) by congruence. subst b'.
  destruct Hs as [[Hm Hs]|(pr & c' & Hs & Ha)]; rewrite Hs0 in Hs; [discriminate|].
  injection Hs as <- <-. eapply session_revocation; eauto.
Qed.

Lemma acl_empty c : ~ acl_accepts [] c.
Proof. intros [(_ & [[]|[]])|[(d & _ & [])|[(d & _ & [])|(d & _ & [])]]]. Qed.
