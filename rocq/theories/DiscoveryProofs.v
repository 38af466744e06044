From Verif Require Import Base PathModel PathSpec PathProofs TokenModel HttpModel HttpSpec HttpProofs HttpProofs2 HttpProps LoginModel DiscoveryModel DiscoverySpec.
Open Scope list_scope.

Lemma found : forall be p h host, serves be p -> In h (oidc_handlers p) ->
  find (handler_matches host (lh_path h)) (be_handlers be) = Some h.
Proof.
  intros be p h host (_ & _ & In1 & Uniq) Ih.
  assert (Hh : lh_host h = []).
  { unfold oidc_handlers in Ih. destruct (p_names p); [destruct Ih|]. cbn in Ih.
    repeat (destruct Ih as [<-|Ih]; [reflexivity|]). destruct Ih. }
  assert (M : handler_matches host (lh_path h) h = true) by (apply C24_matches; auto).
  destruct (find (handler_matches host (lh_path h)) (be_handlers be)) as [h'|] eqn:F.
  - destruct (find_some _ _ F) as [I' M']. f_equal. exact (Uniq h h' host Ih I' M').
  - pose proof (find_none _ _ F h (In1 h Ih)). congruence.
Qed.

(** ** Rewrites *)
Lemma rewrites_keep : forall rw k c, rules_keep rw k -> assoc k (apply_rewrites rw c) = assoc k c.
Proof.
  unfold apply_rewrites. induction rw as [|[k' v] rw IH]; intros k c H; cbn [fold_left]; [reflexivity|].
  rewrite IH by (intros w J; apply (H w); right; exact J).
  apply assoc_set_neq. intros ->. apply (H v). now left.
Qed.

Lemma pick_type : forall now t keys tk k, pick now t keys tk = Some k -> (forall k0, tk = Some k0 -> ktyp k0 = t) -> ktyp k = t.
Proof.
  induction keys as [|x keys IH]; intros tk k H T; cbn [pick] in H; [apply T; exact H|].
  destruct (ktype_eqb (ktyp x) t) eqn:E; cbn [negb] in H; [|eapply IH; eauto].
  assert (ktyp x = t) by (destruct (ktyp x), t; cbn in E; congruence).
  eapply IH; [exact H|]. intros k0 E0. destruct tk as [k1|]; [destruct (created x + 2 * hour <? now)%Z|]; try (injection E0 as <-; assumption). apply T. exact E0.
Qed.

(** ** Paths with an empty element *)
Lemma no_double_app : forall (e r : str), e <> [] -> ~ In slash e -> (forall c r', r = c :: r' -> c <> slash) ->
  (forall a b, r <> a ++ slash :: slash :: b) -> forall a b, e ++ slash :: r <> a ++ slash :: slash :: b.
Proof.
  intros e r N H R D. induction e as [|c e IH]; [now destruct N|]. intros a b E. destruct a as [|a0 a].
  - apply H. left. cbn [app] in E. congruence.
  - cbn [app] in E. assert (E' : e ++ slash :: r = a ++ slash :: slash :: b) by congruence. destruct e as [|c2 e].
    + cbn [app] in E'. destruct a as [|a1 a].
      * cbn [app] in E'. assert (F : r = slash :: b) by congruence. exact (R _ _ F eq_refl).
      * cbn [app] in E'. assert (F : r = a ++ slash :: slash :: b) by congruence. exact (D _ _ F).
    + apply (IH ltac:(discriminate) (fun J => H (or_intror J)) a b E').
Qed.

Lemma plain_head : forall es c r, Forall plain es -> join slash es = c :: r -> c <> slash.
Proof.
  intros [|e es] c r H E; [discriminate|]. inversion H as [|x y P Q]; subst. destruct P as (P1 & _ & _ & P4).
  destruct e as [|d e]; [now destruct P1|]. intros ->. apply P4. left. destruct es; cbn in E; congruence.
Qed.

Lemma plain_join_no_double : forall es, Forall plain es -> forall a b, join slash es <> a ++ slash :: slash :: b.
Proof.
  induction es as [|e es IH]; intros H a b; [destruct a; discriminate|].
  inversion H as [|x y P Q]; subst. destruct P as (P1 & _ & _ & P4). destruct es as [|e2 es].
  - cbn. intros E. apply P4. rewrite E. apply in_or_app. right. now left.
  - change (join slash (e :: e2 :: es)) with (e ++ slash :: join slash (e2 :: es)). apply no_double_app; auto.
    intros c r. apply plain_head. exact Q.
Qed.

Lemma plain_last : forall es, es <> [] -> Forall plain es -> exists m c, join slash es = m ++ [c] /\ c <> slash.
Proof.
  induction es as [|e es IH]; intros N P; [now destruct N|]. inversion P as [|q r P1 P2]; subst. destruct es as [|e2 es].
  - destruct P1 as (N1 & _ & _ & N'). cbn.
    destruct (exists_last N1) as (m & c & ->). exists m, c. split; [reflexivity|]. intros ->. apply N'. apply in_or_app. right. now left.
  - destruct (IH ltac:(discriminate) P2) as (m & c & E & N2).
    exists (e ++ slash :: m), c. split; [|exact N2].
    change (join slash (e :: e2 :: es)) with (e ++ slash :: join slash (e2 :: es)). rewrite E. rewrite <- app_assoc. reflexivity.
Qed.

Lemma clean_no_double : forall p a b, pathClean p <> a ++ slash :: slash :: b.
Proof.
  intros p a b E. rewrite pathClean_spec in E. unfold clean_request_path in E. pose proof (elements_plain p) as P.
  destruct (elements true p) as [|e es] eqn:El.
  - destruct a as [|a0 a]; [discriminate|]. injection E as _ E. destruct a; discriminate.
  - set (l := e :: es) in *. assert (Hl : l <> []) by discriminate.
    assert (D : forall x y, slash :: join slash l <> x ++ slash :: slash :: y).
    { intros x y F. destruct x as [|x0 x].
      - cbn [app] in F. assert (F' : join slash l = slash :: y) by congruence. exact (plain_head _ _ _ P F' eq_refl).
      - assert (F' : join slash l = x ++ slash :: slash :: y) by (cbn [app] in F; congruence). exact (plain_join_no_double l P x y F'). }
    destruct (has_suffix p [slash]).
    + (* a slash at the end *)
      assert (La : exists m c, slash :: join slash l = m ++ [c] /\ c <> slash).
      { pose proof (plain_last l Hl P) as X.
        destruct X as (m & c & -> & N). exists (slash :: m), c. split; [reflexivity|exact N]. }
      destruct La as (m & c & E2 & N). rewrite app_comm_cons, E2 in E.
      destruct (list_eq_dec ascii_dec b []) as [->|Hb].
      * change (a ++ [slash; slash]) with (a ++ [slash] ++ [slash]) in E. rewrite app_assoc in E.
        apply app_inj_tail in E. destruct E as [E _]. apply app_inj_tail in E. destruct E as [_ E]. congruence.
      * destruct (exists_last Hb) as (b' & z & ->).
        change (a ++ slash :: slash :: b' ++ [z]) with (a ++ (slash :: slash :: b') ++ [z]) in E. rewrite app_assoc in E.
        apply app_inj_tail in E. destruct E as [E _]. apply (D a b'). rewrite E2. exact E.
    + rewrite app_nil_r in E. exact (D a b E).
Qed.

Lemma profile_assoc : forall (u : claims) k l, mem k l = false ->
  assoc k (List.concat (map (fun k' => match assoc k' u with Some v => [(k', v)] | None => [] end) l)) = None.
Proof.
  intros u k. induction l as [|x l IH]; intros H; [reflexivity|]. cbn [mem] in H. apply orb_false_iff in H as [H1 H2].
  cbn [map List.concat]. destruct (assoc x u); cbn [app assoc]; [|exact (IH H2)].
  rewrite H1. exact (IH H2).
Qed.

(** ** Host and port *)
Lemma split_plain : forall host port, ~ In colon host -> ~ In "["%char host -> ~ In "]"%char host ->
  ~ In colon port -> ~ In "["%char port -> ~ In "]"%char port -> split_host_port (host ++ colon :: port) = Some host.
Proof.
  intros host port H1 H2 H3 P1 P2 P3. unfold split_host_port. rewrite (cut_last_at colon host port P1).
  assert (B1 : has_char "[" (host ++ colon :: port) = false).
  { apply has_char_false. intros J. apply in_app_iff in J as [J|[J|J]]; [contradiction|discriminate J|contradiction]. }
  assert (B2 : has_char "]" (host ++ colon :: port) = false).
  { apply has_char_false. intros J. apply in_app_iff in J as [J|[J|J]]; [contradiction|discriminate J|contradiction]. }
  apply has_char_false in H1.
  destruct (host ++ colon :: port) as [|c rest] eqn:E; [destruct host; discriminate|].
  destruct (Ascii.eqb c "[") eqn:Ec.
  - apply Ascii.eqb_eq in Ec. subst c. destruct host as [|c host]; [discriminate|]. injection E as -> _. exfalso. apply H2. now left.
  - rewrite H1, B1, B2. reflexivity.
Qed.

Lemma local_found : forall ev be r c h, local_and_authorize ev be r c = inl (Local h) ->
  In h (be_handlers be) /\ handler_matches (host_from_req (rq_host r)) (pathClean (rq_path r)) h = true.
Proof.
  intros ev be r c h L. unfold local_and_authorize in L. cbv zeta in L.
  assert (K : forall y, enforce ev be r c <> inl (Local y)).
  { intros y X. unfold enforce in X. destruct (be_sso be); [|discriminate]. destruct (negb _); [discriminate|].
    destruct (needs_login _ _ _ _); [destruct (str_eqb (rq_method r) _); discriminate|]. cbv zeta in X. destruct (acl_ok _ _); discriminate. }
  destruct (find _ (be_handlers be)) as [h'|] eqn:F.
  - assert (h' = h).
    { destruct (if lh_bypass h' then inr r else enforce ev be r c) as [res|r2] eqn:E.
      - destruct (lh_bypass h'); [discriminate|]. exfalso. apply (K h). congruence.
      - destruct (str_eqb _ _); congruence. }
    subst h'. apply find_some in F. exact F.
  - destruct (enforce ev be r c) as [res|r2] eqn:E; [exfalso; apply (K h); congruence|].
    destruct (existsb _ _); discriminate.
Qed.
