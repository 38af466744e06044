From Verif Require Import Base PathModel PathProofs TokenModel TokenSpec TokenProofs HttpModel HttpSpec HttpProofs HttpProofs2 BrowserModel BrowserSpec BrowserProofs BrowserProofs2.
Open Scope Z_scope.

(** * Cookies for one host *)
Lemma receive_keeps2 br e j x : In x j -> (forall c, wanted br (ev_host e) (ev_set e) = Some c -> same_place x c = false) ->
  In x (receive br (ev_host e) (ev_time e) (ev_set e) j).
Proof.
  intros H N. unfold receive. destruct (wanted br (ev_host e) (ev_set e)) as [c|] eqn:E; [|exact H].
  specialize (N c eq_refl). destruct (at_gone (ev_set e) || expired (at_expires (ev_set e)) (ev_time e)); [apply evict_In; auto|apply store_keeps; assumption].
Qed.
Lemma run_keeps2 br evs : forall j x, In x j ->
  (forall e c, In e evs -> wanted br (ev_host e) (ev_set e) = Some c -> same_place x c = false) -> In x (run br j evs).
Proof.
  induction evs as [|e evs IH]; intros j x H N; [exact H|]. cbn [run fold_left]. apply IH.
  - apply receive_keeps2; [exact H|]. intros c W. exact (N e c (or_introl eq_refl) W).
  - intros e' c H'. apply N. right. exact H'.
Qed.
Lemma wanted_fits br h a c : wanted br h a = Some c -> fits br (at_name a) (at_value a).
Proof.
  intro W. unfold wanted in W. cbv zeta in W. unfold fits.
  destruct (br_max br <? size (at_name a) + size (at_value a))%N eqn:L; [discriminate|]. apply N.ltb_ge in L. exact L.
Qed.
Lemma wanted_local br h a c : wanted br h a = Some c -> at_domain a = [] ->
  c = {| st_name := at_name a; st_value := at_value a; st_domain := h; st_host_only := true; st_path := at_path a; st_expires := at_expires a |}.
Proof.
  intros W D. rewrite (proj1 (wanted_shape br h a (wanted_fits _ _ _ _ W)) D) in W.
  match type of W with Some ?z = _ => assert (Ez : c = z) by congruence end. exact Ez.
Qed.
(** No cookie with this name for this host. *)
Definition elsewhere (n h : str) (evs : list event) : Prop :=
  forall e, In e evs -> at_name (ev_set e) = n -> at_domain (ev_set e) = [] /\ at_path (ev_set e) = [slash] /\ ev_host e <> h.
Lemma local_cookie br before after h a t0 T path now more :
  received_ok before -> received_ok after -> words a -> is_token (at_name a) = true -> plain_value (at_value a) ->
  at_domain a = [] -> at_path a = [slash] -> at_expires a = Some T -> at_gone a = false -> t0 < T ->
  all_local (at_name a) before -> elsewhere (at_name a) h after ->
  fits br (at_name a) (at_value a) -> rooted path -> now < T -> h_values (lit "cookie") more = [] ->
  get_cookie (at_name a) (rq_headers (browse br (jar_after br (before ++ {| ev_host := h; ev_time := t0; ev_set := a |} :: after)) h path now more))
    = Some (at_value a).
Proof.
  intros R1 R2 W0 Tk V D P E G T0 A N F Hp Hn M. set (evs := before ++ {| ev_host := h; ev_time := t0; ev_set := a |} :: after).
  set (c := {| st_name := at_name a; st_value := at_value a; st_domain := h; st_host_only := true; st_path := at_path a; st_expires := at_expires a |}).
  assert (Wc : wanted br h a = Some c) by (apply (proj1 (wanted_shape br h a F)); exact D).
  assert (Hin : In c (jar_after br evs)).
  { unfold evs. rewrite jar_after_app. cbn [run fold_left]. apply run_keeps2.
    - cbn [ev_host ev_time ev_set]. unfold receive. rewrite Wc, G, E.
      replace (false || expired (Some T) t0) with false; [apply store_has|].
      symmetry. cbn [expired orb]. apply Z.leb_gt. lia.
    - intros e x He W. destruct (same_place c x) eqn:S; [|reflexivity]. exfalso. apply same_place_spec in S. destruct S as (S1 & S2 & _).
      assert (Ne : at_name (ev_set e) = at_name a) by (destruct (wanted_fields _ _ _ _ W) as [E0 _]; cbn [c st_name] in S1; congruence).
      destruct (N e He Ne) as (De & _ & He'). rewrite (wanted_local _ _ _ _ W De) in S2. cbn [c st_domain] in S2. congruence. }
  replace (Some (at_value a)) with (Some (st_value c)) by reflexivity. apply get_only.
  - apply Forall_app. split; [exact R1|]. constructor; [exact W0|exact R2].
  - exact M.
  - exact Hin.
  - unfold goes. cbn [c st_host_only st_domain st_path st_expires]. rewrite str_eqb_refl, P, (root_match _ Hp), E.
    cbn [expired]. replace (T <=? now) with false by (symmetry; apply Z.leb_gt; lia). reflexivity.
  - reflexivity.
  - exact Tk.
  - exact V.
  - intros x Hx Nx Gx. destruct (jar_origin _ _ _ Hx) as (e & He & W).
    assert (Ne : at_name (ev_set e) = at_name a) by (destruct (wanted_fields _ _ _ _ W) as [E0 _]; cbn [c st_name] in Nx; congruence).
    assert (De : at_domain (ev_set e) = [] /\ at_path (ev_set e) = [slash]).
    { unfold evs in He. apply in_app_iff in He. destruct He as [He|[<-|He]]; [apply A; assumption|split; assumption|].
      destruct (N e He Ne) as (De & Pe & _). split; assumption. }
    assert (Fe : fits br (at_name (ev_set e)) (at_value (ev_set e))).
    { unfold wanted in W. cbv zeta in W. unfold fits.
      destruct (br_max br <? size (at_name (ev_set e)) + size (at_value (ev_set e)))%N eqn:L; [discriminate|]. apply N.ltb_ge in L. exact L. }
    rewrite (proj1 (wanted_shape br (ev_host e) (ev_set e) Fe)) in W by tauto.
    apply (place_unique _ (jar_places br evs)); [exact Hx|exact Hin|].
    match type of W with Some ?z = _ => assert (Ez : x = z) by congruence end. subst x.
    unfold goes in Gx. cbn [st_host_only st_domain] in Gx. rewrite !andb_true_iff in Gx. destruct Gx as [[Gx _] _]. apply str_eqb_spec in Gx.
    unfold place. cbn [c st_name st_domain st_host_only st_path]. destruct De as [_ De]. rewrite De, P, Ne, Gx. reflexivity.
Qed.

(** * Which cookie is read *)
Lemma first_cookie br evs host path now more n c l1 l2 : received_ok evs -> h_values (lit "cookie") more = [] ->
  jar_after br evs = l1 ++ c :: l2 -> goes br host path now c = true -> st_name c = n -> is_token n = true -> plain_value (st_value c) ->
  (forall x, In x l1 -> st_name x = n -> goes br host path now x = true -> (plen x < plen c)%nat) ->
  (forall x, In x l2 -> st_name x = n -> goes br host path now x = true -> (plen x <= plen c)%nat) ->
  get_cookie n (rq_headers (browse br (jar_after br evs) host path now more)) = Some (st_value c).
Proof.
  intros R M E G N T V H1 H2. cbn [browse rq_headers]. assert (F := sent_ok br evs host path now R).
  unfold sent in *. rewrite E in *. rewrite filter_app in *. cbn [filter] in *. rewrite G in *.
  destruct (arrange_split (filter (goes br host path now) l1) c (filter (goes br host path now) l2)) as (m1 & m2 & Es & Hs).
  apply (get_first _ _ n c m1 m2 F M Es); try assumption.
  intros x Hx Nx. destruct (Hs x Hx) as [[Hi L]|[Hi L]]; apply filter_In in Hi; destruct Hi as [Hi Gx].
  - specialize (H1 x Hi Nx Gx). lia.
  - specialize (H2 x Hi Nx Gx). lia.
Qed.

(** A cookie at the head of the store stays there while others come. *)
Lemma run_head br evs : forall c j, (forall e x, In e evs -> wanted br (ev_host e) (ev_set e) = Some x -> same_place c x = false) ->
  exists j', run br (c :: j) evs = c :: j' /\
  (forall x, In x j' -> In x j \/ exists e, In e evs /\ wanted br (ev_host e) (ev_set e) = Some x).
Proof.
  induction evs as [|e evs IH]; intros c j H; [exists j; split; [reflexivity|auto]|]. cbn [run fold_left].
  assert (S : exists j1, receive br (ev_host e) (ev_time e) (ev_set e) (c :: j) = c :: j1 /\
    (forall x, In x j1 -> In x j \/ wanted br (ev_host e) (ev_set e) = Some x)).
  { unfold receive. destruct (wanted br (ev_host e) (ev_set e)) as [w|] eqn:W; [|exists j; split; [reflexivity|auto]].
    assert (Sp := H e w (or_introl eq_refl) W). destruct (at_gone (ev_set e) || expired (at_expires (ev_set e)) (ev_time e)).
    - exists (evict w j). cbn [evict filter]. rewrite Sp. cbn [negb]. split; [reflexivity|]. intros x Hx. apply evict_In in Hx. tauto.
    - exists (store w j). cbn [store]. rewrite Sp. split; [reflexivity|]. intros x Hx. destruct (store_In _ _ _ Hx) as [->|Hx']; auto. }
  destruct S as (j1 & -> & S). destruct (IH c j1) as (j' & E & O); [intros e' x He Hw; exact (H e' x (or_intror He) Hw)|].
  exists j'. split; [exact E|]. intros x Hx. destruct (O x Hx) as [Hx'|(e' & He & Hw)].
  - destruct (S x Hx') as [Hj|Hw]; [left; exact Hj|right; exists e; split; [left; reflexivity|exact Hw]].
  - right. exists e'. split; [right; exact He|exact Hw].
Qed.

(** The older session cookie of another Domain is the one that is read. *)
Lemma older_cookie br domain domain' h0 h0' h1 token t0 logins path now more :
  reach br domain h0 h1 -> fits br auth_cookie token -> plain_value token -> our_domain domain' h0' <> our_domain domain h0 ->
  reach br domain' h0' h1 -> Forall (fun l => plain_value (fst l)) logins -> rooted path -> now < t0 + day ->
  h_values (lit "cookie") more = [] ->
  get_cookie auth_cookie (rq_headers (browse br (jar_after br
     (login_at h0 domain token t0 :: map (fun l => login_at h0' domain' (fst l) (snd l)) logins)) h1 path now more)) = Some token.
Proof.
  intros R F V D R' L Hp Hn M. set (evs := login_at h0 domain token t0 :: map (fun l => login_at h0' domain' (fst l) (snd l)) logins).
  assert (Wl : forall e x, In e (map (fun l => login_at h0' domain' (fst l) (snd l)) logins) -> wanted br (ev_host e) (ev_set e) = Some x ->
     st_domain x = our_domain domain' h0' /\ st_path x = [slash]).
  { intros e x He W. apply in_map_iff in He. destruct He as ([tk t] & <- & Hl). cbn [fst snd login_at ev_host ev_set] in W.
    assert (Fx : fits br auth_cookie tk).
    { unfold wanted in W. cbv zeta in W. unfold fits. cbn [auth_attrs at_name at_value] in W.
      destruct (br_max br <? size auth_cookie + size tk)%N eqn:Lx; [discriminate|]. apply N.ltb_ge in Lx. exact Lx. }
    rewrite (wanted_ours br domain' h0' h1 tk t R' Fx) in W. injection W as <-. split; reflexivity. }
  assert (J : exists j', jar_after br evs = our_cookie domain h0 token t0 :: j' /\ forall x, In x j' -> st_path x = [slash]).
  { unfold evs. change (jar_after br (?a :: ?b)) with (run br (receive br (ev_host a) (ev_time a) (ev_set a) []) b).
    cbn [login_at ev_host ev_time ev_set]. unfold receive. rewrite (wanted_ours br domain h0 h1) by assumption.
    replace (at_gone (auth_attrs domain token t0) || expired (at_expires (auth_attrs domain token t0)) t0) with false.
    2:{ symmetry. cbn [auth_attrs at_gone at_expires expired orb]. apply Z.leb_gt. unfold day, hour. lia. }
    cbn [store]. destruct (run_head br (map (fun l => login_at h0' domain' (fst l) (snd l)) logins) (our_cookie domain h0 token t0) []) as (j' & E & O).
    - intros e x He W. destruct (Wl e x He W) as [W1 _]. destruct (same_place (our_cookie domain h0 token t0) x) eqn:S; [|reflexivity].
      apply same_place_spec in S. destruct S as (_ & S & _). cbn [our_cookie st_domain] in S. congruence.
    - exists j'. split; [exact E|]. intros x Hx. destruct (O x Hx) as [[]|(e & He & W)]. exact (proj2 (Wl e x He W)). }
  destruct J as (j' & E & P).
  replace (Some token) with (Some (st_value (our_cookie domain h0 token t0))) by reflexivity.
  apply (first_cookie br evs h1 path now more auth_cookie (our_cookie domain h0 token t0) [] j').
  - constructor; [apply login_words; exact V|]. apply Forall_forall. intros e He. apply in_map_iff in He. destruct He as (l & <- & Hl).
    apply login_words. rewrite Forall_forall in L. exact (L l Hl).
  - exact M.
  - exact E.
  - apply ours_goes; assumption.
  - reflexivity.
  - reflexivity.
  - exact V.
  - contradiction.
  - intros x Hx _ _. unfold plen. rewrite (P x Hx). cbn. lia.
Qed.

(** * Logging out *)
Lemma wanted_name_domain br domain h t :
  (domain = [] \/ (domain_name (bare domain) /\ br_public br (bare domain) = false /\ br_ip br h = false /\ under h (bare domain))) ->
  (size auth_cookie <= br_max br)%N ->
  wanted br h (hd (auth_attrs [] [] t) (clear_attrs domain)) = Some {| st_name := auth_cookie; st_value := []; st_domain := our_domain domain h;
    st_host_only := match domain with [] => true | _ => false end; st_path := [slash]; st_expires := None |}.
Proof.
  intros R F. set (a := hd (auth_attrs [] [] t) (clear_attrs domain)).
  destruct (wanted_shape br h a) as [A B]; [unfold fits; cbn; unfold size in *; cbn in *; lia|]. destruct domain as [|x d].
  - rewrite A by reflexivity. reflexivity.
  - destruct R as [R|(D & P & I0 & U0)]; [discriminate|]. rewrite B; [reflexivity|exact D|exact P|]. apply under_match; assumption.
Qed.

Lemma run_app br j a b : run br j (a ++ b) = run br (run br j a) b.
Proof. apply fold_left_app. Qed.

Lemma receive_gone br h t a j c x : wanted br h a = Some c -> at_gone a = true -> In x (receive br h t a j) -> In x j /\ same_place x c = false.
Proof. intros W G. unfold receive. rewrite W, G. cbn [orb]. apply evict_In. Qed.
Lemma receive_gone_In br h t a j x : at_gone a = true -> In x (receive br h t a j) -> In x j.
Proof. intros G. unfold receive. destruct (wanted br h a); [|auto]. rewrite G. cbn [orb]. intro H. apply evict_In in H. tauto. Qed.

Lemma logout_jar br evs domain h t x :
  (domain = [] \/ (domain_name (bare domain) /\ br_public br (bare domain) = false /\ br_ip br h = false /\ under h (bare domain))) ->
  (size id_cookie <= br_max br)%N ->
  In x (jar_after br (evs ++ logout_at h domain t)) ->
  In x (jar_after br evs) /\
  place x <> (auth_cookie, our_domain domain h, match domain with [] => true | _ => false end, [slash]) /\
  place x <> (id_cookie, h, true, [slash]).
Proof.
  intros R F. rewrite jar_after_app. unfold logout_at, clear_attrs. cbn [map run fold_left ev_host ev_time ev_set].
  match goal with |- In x (receive _ _ _ ?b (receive _ _ _ ?a _)) -> _ => set (a1 := a); set (a2 := b) end. intro H.
  assert (F' : (size auth_cookie <= br_max br)%N) by (revert F; unfold size; cbn; lia).
  assert (W1 := wanted_name_domain br domain h t R F'). cbn [hd clear_attrs] in W1. fold a1 in W1.
  assert (W2 : wanted br h a2 = Some {| st_name := id_cookie; st_value := []; st_domain := h; st_host_only := true; st_path := [slash]; st_expires := None |}).
  { apply (proj1 (wanted_shape br h a2 ltac:(unfold fits; cbn; unfold size in *; cbn in *; lia))). reflexivity. }
  destruct (receive_gone _ _ _ _ _ _ _ W2 eq_refl H) as [H1 S2].
  destruct (receive_gone _ _ _ _ _ _ _ W1 eq_refl H1) as [H2 S1]. split; [exact H2|]. split; intro E.
  - assert (same_place x {| st_name := auth_cookie; st_value := []; st_domain := our_domain domain h;
      st_host_only := match domain with [] => true | _ => false end; st_path := [slash]; st_expires := None |} = true)
      by (apply same_place_place; exact E). congruence.
  - assert (same_place x {| st_name := id_cookie; st_value := []; st_domain := h; st_host_only := true; st_path := [slash]; st_expires := None |} = true)
      by (apply same_place_place; exact E). congruence.
Qed.

Lemma logout_words h domain t : received_ok (logout_at h domain t).
Proof.
  unfold received_ok, logout_at, clear_attrs. cbn [map].
  repeat constructor; cbn [ev_set at_name at_value]; try discriminate; try reflexivity; intro H; vm_compute in H; intuition discriminate.
Qed.
