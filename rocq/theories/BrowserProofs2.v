From Verif Require Import Base PathModel PathProofs TokenModel TokenSpec TokenProofs HttpModel HttpSpec HttpProofs HttpProofs2 BrowserModel BrowserSpec BrowserProofs.
Open Scope Z_scope.

(** * Domains of cookies *)
Definition small (c : ascii) : bool := let n := N_of_ascii c in ((97 <=? n) && (n <=? 122))%N.
Lemma ldh_cases c : ldh c -> (small c = true) \/ (small c = false /\ (48 <= N_of_ascii c <= 57)%N) \/ c = "-"%char.
Proof.
  unfold ldh, small. cbv zeta. intros [H|[H|H]].
  - left. apply andb_true_intro. split; apply N.leb_le; lia.
  - right. left. split; [|lia]. apply andb_false_iff. left. apply N.leb_gt. lia.
  - right. right. rewrite <- (ascii_N_embedding c), H. reflexivity.
Qed.
Lemma loop_step c r last part ok : ldh c -> (c = "-"%char -> last <> "."%char) ->
  domain_loop (c :: r) last part ok = domain_loop r c (part + 1) (ok || small c).
Proof.
  intros H D. cbn [domain_loop]. cbv zeta. destruct (ldh_cases c H) as [E|[[E L]|E]].
  - rewrite E. unfold small in E. cbv zeta in E. rewrite E. cbn [orb]. rewrite orb_true_r. reflexivity.
  - rewrite E, orb_false_r. unfold small in E. cbv zeta in E. rewrite E. cbn [orb].
    replace ((65 <=? N_of_ascii c) && (N_of_ascii c <=? 90))%N with false
      by (symmetry; apply andb_false_iff; left; apply N.leb_gt; lia).
    replace ((48 <=? N_of_ascii c) && (N_of_ascii c <=? 57))%N with true
      by (symmetry; apply andb_true_intro; split; apply N.leb_le; lia).
    reflexivity.
  - subst c. replace (ok || small "-") with ok by (destruct ok; reflexivity).
    change ((97 <=? N_of_ascii "-") && (N_of_ascii "-" <=? 122) || (65 <=? N_of_ascii "-") && (N_of_ascii "-" <=? 90))%N with false.
    change ((48 <=? N_of_ascii "-") && (N_of_ascii "-" <=? 57))%N with false. cbv iota. rewrite Ascii.eqb_refl.
    replace (Ascii.eqb last ".") with false by (symmetry; apply Ascii.eqb_neq; auto). reflexivity.
Qed.
Lemma ldh_not_dot c : ldh c -> c <> "."%char.
Proof. intros H E. subst c. unfold ldh in H. vm_compute in H. destruct H as [[H _]|[[H _]|H]]; [apply H|apply H|discriminate H]; reflexivity. Qed.

Lemma loop_label l : forall last part ok rest, l <> [] -> (forall c, In c l -> ldh c) ->
  (last = "."%char -> forall r, l <> "-"%char :: r) ->
  exists c r, l = r ++ [c] /\
  domain_loop (l ++ rest) last part ok = domain_loop rest c (part + size l) (ok || existsb small l).
Proof.
  induction l as [|c l IH]; intros last part ok rest N H D; [congruence|]. cbn [app].
  rewrite loop_step; [|apply H; left; reflexivity|].
  2:{ intros -> E. exact (D E l eq_refl). }
  destruct l as [|d l].
  - exists c, []. split; [reflexivity|]. cbn [app existsb]. rewrite orb_false_r. reflexivity.
  - destruct (IH c (part + 1)%N (ok || small c) rest) as (x & r & E & L); [discriminate| | |].
    + intros y Hy. apply H. right. exact Hy.
    + intros E. exfalso. exact (ldh_not_dot c (H c (or_introl eq_refl)) E).
    + exists x, (c :: r). rewrite E. split; [reflexivity|]. rewrite <- E. rewrite L. cbn [existsb].
      rewrite <- orb_assoc. f_equal. unfold size. cbn [List.length]. lia.
Qed.

Lemma loop_labels ls : forall ok, ls <> [] -> Forall label ls ->
  domain_loop (join "."%char ls) "." 0 ok = ok || existsb small (join "."%char ls).
Proof.
  induction ls as [|l ls IH]; intros ok N H; [congruence|]. inversion H as [|? ? L F]; subst.
  destruct L as (L1 & L2 & L3 & L4 & L5). destruct ls as [|l2 ls].
  - cbn [join]. destruct (loop_label l "."%char 0%N ok [] L1 L3 (fun _ => L4)) as (c & r & E & D). rewrite app_nil_r in D.
    rewrite D. cbn [domain_loop]. replace (Ascii.eqb c "-") with false.
    2:{ symmetry. apply Ascii.eqb_neq. intros ->. exact (L5 r E). }
    replace (0 + size l <=? 63)%N with true by (symmetry; apply N.leb_le; lia). reflexivity.
  - rewrite join_cons by discriminate.
    destruct (loop_label l "."%char 0%N ok ("."%char :: join "."%char (l2 :: ls)) L1 L3 (fun _ => L4)) as (c & r & E & D).
    rewrite D. cbn [domain_loop]. cbv zeta.
    change ((97 <=? N_of_ascii ".") && (N_of_ascii "." <=? 122) || (65 <=? N_of_ascii ".") && (N_of_ascii "." <=? 90))%N with false.
    change ((48 <=? N_of_ascii ".") && (N_of_ascii "." <=? 57))%N with false. cbv iota.
    change (Ascii.eqb "." "-") with false. cbv iota. change (Ascii.eqb "." ".") with true. cbv iota.
    replace (Ascii.eqb c ".") with false.
    2:{ symmetry. apply Ascii.eqb_neq. apply ldh_not_dot. apply L3. rewrite E. apply in_or_app. right. left. reflexivity. }
    replace (Ascii.eqb c "-") with false.
    2:{ symmetry. apply Ascii.eqb_neq. intros ->. exact (L5 r E). }
    replace (0 + size l <=? 63)%N with true by (symmetry; apply N.leb_le; lia).
    replace (0 + size l =? 0)%N with false.
    2:{ symmetry. apply N.eqb_neq. unfold size. destruct l; [congruence|]. cbn [List.length]. lia. }
    cbn [orb negb andb]. rewrite IH by (discriminate || assumption). rewrite existsb_app. cbn [existsb].
    change (small ".") with false. cbn [orb]. rewrite orb_assoc. reflexivity.
Qed.

Lemma domain_name_chars d c : domain_name d -> In c d -> ldh c \/ c = "."%char.
Proof.
  intros (F & _) Hc. rewrite <- (join_split "."%char d) in Hc. revert F Hc. generalize (split_on "."%char d). intros ls F.
  induction F as [|l ls L F IH]; [contradiction|]. intro H. destruct ls as [|m ls].
  - left. apply L. exact H.
  - rewrite join_cons in H by discriminate. apply in_app_iff in H. destruct H as [H|[H|H]]; [left; apply L; exact H|right; congruence|exact (IH H)].
Qed.
Lemma domain_name_lower d : domain_name d -> to_lower d = d.
Proof.
  intro H. assert (A : forall c, In c d -> to_lower [c] = [c]).
  { intros c Hc. destruct (domain_name_chars d c H Hc) as [L| ->]; [|reflexivity]. clear - L. revert L.
    unfold ldh. destruct c as [b0 b1 b2 b3 b4 b5 b6 b7]; destruct b0, b1, b2, b3, b4, b5, b6, b7; vm_compute; intro L; try reflexivity;
    exfalso; destruct L as [[A B]|[[A B]|A]]; solve [apply A; reflexivity|apply B; reflexivity|discriminate A]. }
  clear H. induction d as [|c d IH]; [reflexivity|].
  assert (E := A c (or_introl eq_refl)). unfold to_lower in *. cbn [map] in *. f_equal; [congruence|]. apply IH. intros x Hx. apply A. right. exact Hx.
Qed.
Lemma undot_bare d : undot d = bare d.
Proof.
  destruct d as [|c r]; [reflexivity|]. unfold undot. destruct (Ascii.eqb c ".") eqn:E.
  - apply Ascii.eqb_eq in E. subst c. reflexivity.
  - apply Ascii.eqb_neq in E. unfold bare. destruct c as [b0 b1 b2 b3 b4 b5 b6 b7]; destruct b0, b1, b2, b3, b4, b5, b6, b7; try reflexivity. congruence.
Qed.
Lemma bare_size d : (size d <= size (bare d) + 1)%N.
Proof. rewrite <- undot_bare. unfold size. destruct d as [|c r]; cbn [undot]; [lia|]. destruct (Ascii.eqb c "."); cbn [List.length]; lia. Qed.
Lemma written_name d : domain_name (bare d) -> written_domain d = bare d /\ bare d <> [] /\ d <> [].
Proof.
  intros (F & L & c & Hc1 & Hc2).
  assert (N : bare d <> []) by (intro E; rewrite E in Hc1; contradiction).
  assert (N' : d <> []) by (intros ->; exact (N eq_refl)).
  split; [|split; [exact N|exact N']]. unfold written_domain, cookie_domain_name. rewrite undot_bare.
  replace (str_eqb d []) with false by (symmetry; apply str_eqb_neq; exact N').
  replace (size d <=? 255)%N with true by (symmetry; apply N.leb_le; assert (B := bare_size d); lia). cbn [negb andb].
  assert (J := loop_labels (split_on "."%char (bare d)) false (split_on_nonempty _ _) F). rewrite join_split in J. rewrite J. cbn [orb].
  replace (existsb small (bare d)) with true; [reflexivity|]. symmetry. apply existsb_exists. exists c. split; [exact Hc1|].
  unfold small. cbv zeta. apply andb_true_intro. split; apply N.leb_le; lia.
Qed.

(** * The place of a session cookie *)
Definition our_domain (domain h0 : str) : str := match domain with [] => h0 | _ => bare domain end.
Definition our_cookie (domain h0 token : str) (t0 : Z) : stored :=
  {| st_name := auth_cookie; st_value := token; st_domain := our_domain domain h0;
     st_host_only := match domain with [] => true | _ => false end; st_path := [slash]; st_expires := Some (t0 + day) |}.

Lemma under_match br host d : under host d -> br_ip br host = false -> domain_match br host d = true.
Proof.
  intros [->|[p ->]] Hi; unfold domain_match; [rewrite str_eqb_refl; reflexivity|]. rewrite Hi.
  replace (has_suffix (p ++ "."%char :: d) ("."%char :: d)) with true; [apply orb_true_r|].
  symmetry. apply has_suffix_spec. exists p. reflexivity.
Qed.

Lemma wanted_shape br host a : fits br (at_name a) (at_value a) -> (at_domain a = [] ->
    wanted br host a = Some {| st_name := at_name a; st_value := at_value a; st_domain := host; st_host_only := true;
              st_path := at_path a; st_expires := at_expires a |}) /\
  (domain_name (bare (at_domain a)) -> br_public br (bare (at_domain a)) = false -> domain_match br host (bare (at_domain a)) = true ->
    wanted br host a = Some {| st_name := at_name a; st_value := at_value a; st_domain := bare (at_domain a); st_host_only := false;
              st_path := at_path a; st_expires := at_expires a |}).
Proof.
  intro F. unfold wanted. cbv zeta. unfold fits in F.
  replace (br_max br <? size (at_name a) + size (at_value a))%N with false by (symmetry; apply N.ltb_ge; exact F). split.
  - intros ->. change (to_lower (written_domain [])) with (@nil ascii).
    replace (if br_public br [] && str_eqb [] host then [] else []) with (@nil ascii) by (destruct (br_public br [] && str_eqb [] host); reflexivity).
    reflexivity.
  - intros D P M. destruct (written_name _ D) as (-> & N & _). rewrite (domain_name_lower _ D), P. cbn [andb].
    replace (str_eqb (bare (at_domain a)) []) with false by (symmetry; apply str_eqb_neq; exact N). rewrite P, M. reflexivity.
Qed.

Lemma wanted_ours br domain h0 h1 token t0 : reach br domain h0 h1 -> fits br auth_cookie token ->
  wanted br h0 (auth_attrs domain token t0) = Some (our_cookie domain h0 token t0).
Proof.
  intros R F. destruct (wanted_shape br h0 (auth_attrs domain token t0) F) as [A B]. destruct domain as [|x d].
  - rewrite A by reflexivity. reflexivity.
  - destruct R as (D & P & I0 & I1 & U0 & U1). rewrite B; [reflexivity|exact D|exact P|]. apply under_match; assumption.
Qed.

(** Any session cookie for the same Domain that goes to the host takes that place. *)
Lemma wanted_same br domain h0 h1 e x path now : reach br domain h0 h1 ->
  at_name (ev_set e) = auth_cookie -> at_domain (ev_set e) = domain -> at_path (ev_set e) = [slash] ->
  wanted br (ev_host e) (ev_set e) = Some x -> goes br h1 path now x = true ->
  place x = (auth_cookie, our_domain domain h0, match domain with [] => true | _ => false end, [slash]).
Proof.
  intros R N D P W G. assert (F : fits br (at_name (ev_set e)) (at_value (ev_set e))).
  { unfold wanted in W. cbv zeta in W. unfold fits.
    destruct (br_max br <? size (at_name (ev_set e)) + size (at_value (ev_set e)))%N eqn:E; [discriminate|]. apply N.ltb_ge in E. exact E. }
  destruct (wanted_shape br (ev_host e) (ev_set e) F) as [A B]. rewrite D in *. destruct domain as [|y d].
  - rewrite A in W by reflexivity. injection W as <-. unfold goes in G. cbn [st_host_only st_domain] in G.
    rewrite !andb_true_iff in G. destruct G as [[G _] _]. apply str_eqb_spec in G. cbn [reach] in R. unfold place. cbn [st_name st_domain st_host_only st_path our_domain]. rewrite N, P. subst. reflexivity.
  - destruct R as (Dn & Pu & _). unfold wanted in W. cbv zeta in W. unfold fits in F.
    replace (br_max br <? size (at_name (ev_set e)) + size (at_value (ev_set e)))%N with false in W by (symmetry; apply N.ltb_ge; exact F).
    rewrite D in W. destruct (written_name _ Dn) as (E0 & N0 & _). rewrite E0, (domain_name_lower _ Dn), Pu in W. cbn [andb] in W.
    replace (str_eqb (bare (y :: d)) []) with false in W by (symmetry; apply str_eqb_neq; exact N0). rewrite Pu in W. cbn [orb] in W.
    destruct (negb (domain_match br (ev_host e) (bare (y :: d)))); [discriminate W|].
    match type of W with Some ?z = _ => assert (Ez : x = z) by congruence end. subst x. unfold place. cbn [st_name st_domain st_host_only st_path our_domain]. rewrite N, P. reflexivity.
Qed.

Lemma root_match path : rooted path -> path_match path [slash] = true.
Proof.
  intros [p ->]. unfold path_match. change (has_suffix [slash] [slash]) with true.
  replace (has_prefix (slash :: p) [slash]) with true; [apply orb_true_r|]. symmetry. apply has_prefix_spec. exists p. reflexivity.
Qed.

Lemma ours_goes br domain h0 h1 token t0 path now : reach br domain h0 h1 -> rooted path -> now < t0 + day ->
  goes br h1 path now (our_cookie domain h0 token t0) = true.
Proof.
  intros R Hp Hn. unfold goes. cbn [our_cookie st_host_only st_domain st_path st_expires]. rewrite (root_match _ Hp).
  replace (expired (Some (t0 + day)) now) with false by (symmetry; cbn [expired]; apply Z.leb_gt; lia).
  destruct domain as [|x d]; cbn [our_domain].
  - cbn [reach] in R. subst h1. rewrite str_eqb_refl. reflexivity.
  - destruct R as (_ & _ & _ & I1 & _ & U1). rewrite under_match by assumption. reflexivity.
Qed.

Lemma place_unique l : NoDup (map place l) -> forall a b, In a l -> In b l -> place a = place b -> a = b.
Proof.
  induction l as [|x l IH]; [contradiction|]. cbn [map]. intro H. inversion H as [|? ? N1 N2]; subst.
  intros a b [<-|Ha] [<-|Hb] E; [reflexivity| | |exact (IH N2 a b Ha Hb E)]; exfalso; apply N1; [rewrite E|rewrite <- E]; apply in_map; assumption.
Qed.

Lemma login_words domain h0 token t0 : plain_value token -> words (ev_set (login_at h0 domain token t0)).
Proof.
  intro V. unfold words. cbn [login_at ev_set auth_attrs at_name at_value]. repeat split; try discriminate; try reflexivity.
  - intro H. vm_compute in H. intuition discriminate.
  - intro H. vm_compute in H. intuition discriminate.
  - apply trim_id.
    + destruct token as [|c r]; [exact I|]. apply token_char_not. apply V. left. reflexivity.
    + destruct (rev token) as [|c r] eqn:E; [exact I|]. apply token_char_not. apply V. apply in_rev. rewrite E. left. reflexivity.
  - intro H. apply V in H. vm_compute in H. discriminate H.
Qed.

Lemma login_cookie br before after domain h0 h1 token t0 path now more :
  received_ok before -> received_ok after -> plain_value token -> all_from domain before -> none_named auth_cookie after ->
  reach br domain h0 h1 -> fits br auth_cookie token -> rooted path -> now < t0 + day -> h_values (lit "cookie") more = [] ->
  get_cookie auth_cookie (rq_headers (browse br (jar_after br (before ++ login_at h0 domain token t0 :: after)) h1 path now more)) = Some token.
Proof.
  intros R1 R2 V A N Re F Hp Hn M. set (evs := before ++ login_at h0 domain token t0 :: after).
  assert (Hin : In (our_cookie domain h0 token t0) (jar_after br evs)).
  { unfold evs. rewrite jar_after_app. cbn [run fold_left]. apply run_keeps.
    - cbn [login_at ev_host ev_time ev_set]. unfold receive. rewrite (wanted_ours br domain h0 h1) by assumption.
      replace (at_gone (auth_attrs domain token t0) || expired (at_expires (auth_attrs domain token t0)) t0) with false; [apply store_has|].
      symmetry. cbn [auth_attrs at_gone at_expires expired orb]. apply Z.leb_gt. unfold day, hour. lia.
    - intros e He. cbn [our_cookie st_name]. apply N. exact He. }
  replace (Some token) with (Some (st_value (our_cookie domain h0 token t0))) by reflexivity. apply get_only.
  - apply Forall_app. split; [exact R1|]. constructor; [apply login_words; exact V|exact R2].
  - exact M.
  - exact Hin.
  - apply ours_goes; assumption.
  - reflexivity.
  - reflexivity.
  - exact V.
  - intros x Hx Nx Gx. destruct (jar_origin _ _ _ Hx) as (e & He & W).
    assert (Ne : at_name (ev_set e) = auth_cookie) by (destruct (wanted_fields _ _ _ _ W) as [E _]; congruence).
    assert (D : at_domain (ev_set e) = domain /\ at_path (ev_set e) = [slash]).
    { unfold evs in He. apply in_app_iff in He. destruct He as [He|[<-|He]]; [apply A; assumption|split; reflexivity|].
      exfalso. exact (N e He Ne). }
    apply (place_unique _ (jar_places br evs)); [exact Hx|exact Hin|].
    rewrite (wanted_same br domain h0 h1 e x path now Re Ne (proj1 D) (proj2 D) W Gx). reflexivity.
Qed.

(** * The same for any cookie with a Domain *)
Definition site_stored (a : attrs) (h0 : str) : stored :=
  {| st_name := at_name a; st_value := at_value a; st_domain := our_domain (at_domain a) h0;
     st_host_only := match at_domain a with [] => true | _ => false end; st_path := at_path a; st_expires := at_expires a |}.
Lemma wanted_site br a h0 h1 : reach br (at_domain a) h0 h1 -> fits br (at_name a) (at_value a) ->
  wanted br h0 a = Some (site_stored a h0).
Proof.
  intros R F. destruct (wanted_shape br h0 a F) as [A B]. unfold site_stored. destruct (at_domain a) as [|x d] eqn:E.
  - rewrite A by reflexivity. reflexivity.
  - destruct R as (D & P & I0 & I1 & U0 & U1). rewrite B; [reflexivity|exact D|exact P|]. apply under_match; assumption.
Qed.
Lemma wanted_same_site br a h0 h1 e x path now : reach br (at_domain a) h0 h1 -> at_path a = [slash] ->
  at_name (ev_set e) = at_name a -> at_domain (ev_set e) = at_domain a -> at_path (ev_set e) = [slash] ->
  wanted br (ev_host e) (ev_set e) = Some x -> goes br h1 path now x = true -> place x = place (site_stored a h0).
Proof.
  intros R Pa N D P W G. assert (F : fits br (at_name (ev_set e)) (at_value (ev_set e))).
  { unfold wanted in W. cbv zeta in W. unfold fits.
    destruct (br_max br <? size (at_name (ev_set e)) + size (at_value (ev_set e)))%N eqn:E; [discriminate|]. apply N.ltb_ge in E. exact E. }
  unfold site_stored, place at 2. cbn [st_name st_domain st_host_only st_path]. rewrite Pa.
  destruct (wanted_shape br (ev_host e) (ev_set e) F) as [A B]. rewrite D in *. destruct (at_domain a) as [|y d].
  - rewrite A in W by reflexivity. injection W as <-. unfold goes in G. cbn [st_host_only st_domain] in G.
    rewrite !andb_true_iff in G. destruct G as [[G _] _]. apply str_eqb_spec in G. cbn [reach] in R.
    unfold place. cbn [st_name st_domain st_host_only st_path our_domain]. rewrite N, P. subst. reflexivity.
  - destruct R as (Dn & Pu & _). unfold wanted in W. cbv zeta in W. unfold fits in F.
    replace (br_max br <? size (at_name (ev_set e)) + size (at_value (ev_set e)))%N with false in W by (symmetry; apply N.ltb_ge; exact F).
    rewrite D in W. destruct (written_name _ Dn) as (E0 & N0 & _). rewrite E0, (domain_name_lower _ Dn), Pu in W. cbn [andb] in W.
    replace (str_eqb (bare (y :: d)) []) with false in W by (symmetry; apply str_eqb_neq; exact N0). rewrite Pu in W. cbn [orb] in W.
    destruct (negb (domain_match br (ev_host e) (bare (y :: d)))); [discriminate W|].
    match type of W with Some ?z = _ => assert (Ez : x = z) by congruence end. subst x.
    unfold place. cbn [st_name st_domain st_host_only st_path our_domain]. rewrite N, P. reflexivity.
Qed.
Lemma site_cookie br before after a h0 h1 t0 path now more :
  received_ok before -> received_ok after -> words a -> is_token (at_name a) = true -> plain_value (at_value a) ->
  (forall e, In e before -> at_name (ev_set e) = at_name a -> at_domain (ev_set e) = at_domain a /\ at_path (ev_set e) = [slash]) ->
  none_named (at_name a) after -> at_path a = [slash] -> at_gone a = false -> expired (at_expires a) t0 = false -> expired (at_expires a) now = false ->
  reach br (at_domain a) h0 h1 -> fits br (at_name a) (at_value a) -> rooted path -> h_values (lit "cookie") more = [] ->
  get_cookie (at_name a) (rq_headers (browse br (jar_after br (before ++ {| ev_host := h0; ev_time := t0; ev_set := a |} :: after)) h1 path now more))
    = Some (at_value a).
Proof.
  intros R1 R2 W0 Tk V A N Pa G X0 X1 Re F Hp M. set (evs := before ++ {| ev_host := h0; ev_time := t0; ev_set := a |} :: after).
  assert (Hin : In (site_stored a h0) (jar_after br evs)).
  { unfold evs. rewrite jar_after_app. cbn [run fold_left]. apply run_keeps.
    - cbn [ev_host ev_time ev_set]. unfold receive. rewrite (wanted_site br a h0 h1) by assumption. rewrite G, X0. apply store_has.
    - intros e He. cbn [site_stored st_name]. apply N. exact He. }
  replace (Some (at_value a)) with (Some (st_value (site_stored a h0))) by reflexivity. apply get_only.
  - apply Forall_app. split; [exact R1|]. constructor; [exact W0|exact R2].
  - exact M.
  - exact Hin.
  - unfold goes. cbn [site_stored st_host_only st_domain st_path st_expires]. rewrite Pa, (root_match _ Hp), X1.
    destruct (at_domain a) as [|x d] eqn:E; cbn [our_domain].
    + cbn [reach] in Re. subst h1. rewrite str_eqb_refl. reflexivity.
    + destruct Re as (_ & _ & _ & I1 & _ & U1). rewrite under_match by assumption. reflexivity.
  - reflexivity.
  - exact Tk.
  - exact V.
  - intros x Hx Nx Gx. destruct (jar_origin _ _ _ Hx) as (e & He & W).
    assert (Ne : at_name (ev_set e) = at_name a) by (destruct (wanted_fields _ _ _ _ W) as [E _]; congruence).
    assert (D : at_domain (ev_set e) = at_domain a /\ at_path (ev_set e) = [slash]).
    { unfold evs in He. apply in_app_iff in He. destruct He as [He|[<-|He]]; [apply A; assumption|split; [reflexivity|exact Pa]|].
      exfalso. exact (N e He Ne). }
    apply (place_unique _ (jar_places br evs)); [exact Hx|exact Hin|].
    exact (wanted_same_site br a h0 h1 e x path now Re Pa Ne (proj1 D) (proj2 D) W Gx).
Qed.
