(** Proofs about the headers the proxy adds. *)
From Verif Require Import Base TokenModel HttpModel HttpSpec HttpProofs HttpProofs2 ProxyHdrModel HeadersModel HeadersSpec.
Open Scope list_scope.
Local Open Scope nat_scope.

Lemma alnum_spec c : alnum c = true <-> word_char c.
Proof.
  unfold alnum, word_char. cbv zeta. rewrite !orb_true_iff, !andb_true_iff, !N.leb_le, Ascii.eqb_eq. tauto.
Qed.

Lemma has_char_In c s : has_char c s = true <-> In c s.
Proof.
  induction s as [|x s IH]; cbn [has_char]; [split; [discriminate|intros []]|]. cbn [In].
  destruct (Ascii.eqb x c) eqn:E; cbn [orb].
  - apply Ascii.eqb_eq in E. subst. tauto.
  - rewrite IH. split; [tauto|]. intros [->|H]; [rewrite Ascii.eqb_refl in E; discriminate|exact H].
Qed.

Lemma special_In c : special c = true <-> special_char c.
Proof. apply has_char_In. Qed.

Lemma digit_special c : (48 <= N_of_ascii c <= 57)%N -> special_char c.
Proof.
  intros H. rewrite <- (ascii_N_embedding c). remember (N_of_ascii c) as k eqn:Ek. clear Ek.
  assert (E : (k = 48 \/ k = 49 \/ k = 50 \/ k = 51 \/ k = 52 \/ k = 53 \/ k = 54 \/ k = 55 \/ k = 56 \/ k = 57)%N) by lia.
  unfold special_char. repeat (destruct E as [->|E]; [vm_compute; tauto|]). subst k. vm_compute. tauto.
Qed.

Lemma cut_none s : ~ In "}"%char s -> snd (cut "}" s) = false.
Proof.
  induction s as [|a s IH]; intros N; [reflexivity|]. cbn [cut].
  destruct (Ascii.eqb a "}") eqn:E; [exfalso; apply N; left; apply Ascii.eqb_eq in E; congruence|].
  assert (N' : ~ In "}"%char s) by (intro X; apply N; right; exact X). specialize (IH N').
  destruct (cut "}" s) as [[x y] b]. exact IH.
Qed.

Lemma word_special c : word_char c -> ~ (48 <= N_of_ascii c <= 57)%N -> special c = false.
Proof.
  intros Hw Hd. destruct (special c) eqn:E; [|reflexivity]. exfalso. unfold special in E. apply has_char_In in E.
  cbn in E. repeat (destruct E as [E|E]; [subst c; first [now (apply Hd; cbn; lia) | destruct Hw as [H|H]; [discriminate H|cbn in H; lia]]|]). destruct E.
Qed.

Lemma cut_brace n r : ~ In "}"%char n -> cut "}" (n ++ "}"%char :: r) = (n, r, true).
Proof.
  induction n as [|a n IH]; intro N; cbn [app cut]; [rewrite Ascii.eqb_refl; reflexivity|].
  destruct (Ascii.eqb a "}") eqn:E; [exfalso; apply N; left; apply Ascii.eqb_eq in E; congruence|].
  rewrite IH; [reflexivity|]. intro X. apply N. right. exact X.
Qed.

Lemma alnums_word n r : Forall word_char n -> (forall c t, r = c :: t -> ~ word_char c) -> alnums (n ++ r) = n.
Proof.
  intros H Hr. induction H as [|c n Hc Hn IH]; cbn [app].
  - destruct r as [|c t]; [reflexivity|]. cbn. destruct (alnum c) eqn:E; [|reflexivity]. apply alnum_spec in E. exfalso. apply (Hr c t eq_refl E).
  - cbn [alnums]. apply alnum_spec in Hc. rewrite Hc, IH. reflexivity.
Qed.

Lemma expand_skip m n r : expand_from m (n ++ r) (List.length n) = expand_from m r 0.
Proof. induction n as [|c n IH]; [reflexivity|exact IH]. Qed.

Lemma expand_text m s r : ~ In "$"%char s -> expand_from m (s ++ r) 0 = s ++ expand_from m r 0.
Proof.
  induction s as [|c s IH]; intro H; [reflexivity|]. cbn [app expand_from].
  destruct (Ascii.eqb c "$") eqn:E; [exfalso; apply H; left; apply Ascii.eqb_eq in E; congruence|]. cbn [andb].
  rewrite IH; [reflexivity|]. intro X. apply H. right. exact X.
Qed.

Lemma expand_var m r n w : r <> [] -> shell_name r = (n, w) -> n <> [] ->
  expand_from m ("$"%char :: r) 0 = m n ++ expand_from m r w.
Proof.
  intros Hr Hs Hn. cbn [expand_from]. rewrite Ascii.eqb_refl, Hs. destruct r; [congruence|]. destruct n; [congruence|reflexivity].
Qed.

Lemma expand_print m l : well_written l -> expand m (print l) = fill m l.
Proof.
  unfold expand. induction l as [|p l IH]; [reflexivity|]. intros [Hp Hl]. specialize (IH Hl).
  unfold print, fill in *. cbn [map List.concat]. destruct p as [s|n|n|c| | |]; cbn [print1 fill1].
  - rewrite expand_text by exact Hp. rewrite IH. reflexivity.
  - destruct Hp as [Hn Hb]. change (lit "${") with ("$"%char :: "{"%char :: []). cbn [app]. rewrite <- app_assoc. cbn [app lit list_ascii_of_string].
    rewrite (expand_var m _ n (List.length n + 2)); [|discriminate| |exact Hn].
    2:{ cbn [shell_name]. rewrite Ascii.eqb_refl, cut_brace by exact Hb. reflexivity. }
    f_equal.
    replace (List.length n + 2) with (List.length ("{"%char :: n ++ ["}"%char])) by (cbn [List.length]; rewrite app_length; cbn; lia).
    replace ("{"%char :: n ++ "}"%char :: List.concat (map print1 l)) with (("{"%char :: n ++ ["}"%char]) ++ List.concat (map print1 l))
      by (cbn [app]; rewrite <- app_assoc; reflexivity).
    rewrite expand_skip. exact IH.
  - destruct Hp as ((c & r & -> & Hd) & Hw & Hf). assert (Hc : word_char c) by (inversion Hw; assumption).
    cbn [app]. change (c :: r ++ List.concat (map print1 l)) with ((c :: r) ++ List.concat (map print1 l)).
    rewrite (expand_var m _ (c :: r) (List.length (c :: r))); [|discriminate| |discriminate].
    2:{ cbn [app shell_name]. destruct (Ascii.eqb c "{") eqn:E.
        { apply Ascii.eqb_eq in E. subst c. destruct Hc as [H|H]; [discriminate H|cbn in H; lia]. }
        rewrite (word_special c Hc Hd).
        change (c :: r ++ List.concat (map print1 l)) with ((c :: r) ++ List.concat (map print1 l)).
        rewrite alnums_word; [reflexivity|exact Hw|exact Hf]. }
    f_equal. rewrite expand_skip. exact IH.
  - cbn [app]. rewrite (expand_var m _ [c] 1); [|discriminate| |discriminate].
    2:{ cbn [shell_name]. apply special_In in Hp. destruct (Ascii.eqb c "{") eqn:E.
        { apply Ascii.eqb_eq in E. subst c. discriminate Hp. }
        rewrite Hp. reflexivity. }
    f_equal. exact IH.
  - cbn [app lit list_ascii_of_string]. cbn [expand_from]. rewrite Ascii.eqb_refl.
    destruct (List.concat (map print1 l)) as [|c r] eqn:El.
    + cbn [str_eqb negb andb]. rewrite IH. reflexivity.
    + destruct (Hp c r eq_refl) as (Hw & Hs & Hb). change (negb (str_eqb (c :: r) [])) with true. cbn [andb].
      cbn [shell_name alnums]. apply Ascii.eqb_neq in Hb. rewrite Hb.
      destruct (special c) eqn:Es; [apply special_In in Es; contradiction|].
      destruct (alnum c) eqn:Ea; [apply alnum_spec in Ea; contradiction|]. cbn [List.length app].
      rewrite IH. reflexivity.
  - cbn [app lit list_ascii_of_string]. cbn [expand_from]. rewrite Ascii.eqb_refl.
    change (negb (str_eqb ("{"%char :: "}"%char :: List.concat (map print1 l)) [])) with true. cbn [andb].
    cbn [shell_name cut]. rewrite !Ascii.eqb_refl. cbn [List.length Nat.add app expand_from]. exact IH.
  - cbn [app lit list_ascii_of_string]. cbn [expand_from]. rewrite Ascii.eqb_refl.
    change (negb (str_eqb ("{"%char :: List.concat (map print1 l)) [])) with true. cbn [andb].
    cbn [shell_name]. rewrite Ascii.eqb_refl. unfold print in Hp. pose proof (cut_none _ Hp) as Ec.
    destruct (cut "}" (List.concat (map print1 l))) as [[x y] b]. cbn [snd] in Ec. subst b. cbn [app expand_from]. exact IH.
Qed.

(** Every text is the text of some template. *)
Lemma text_split s : exists a b, s = a ++ b /\ ~ In "$"%char a /\ (b = [] \/ exists r, b = "$"%char :: r).
Proof.
  induction s as [|c s (a & b & -> & N & H)]; [exists [], []; split; [reflexivity|]; split; [intros []|left; reflexivity]|].
  destruct (Ascii.eqb c "$") eqn:E.
  - apply Ascii.eqb_eq in E. subst c. exists [], ("$"%char :: a ++ b). split; [reflexivity|]. split; [intros []|right; eauto].
  - apply Ascii.eqb_neq in E. exists (c :: a), b. split; [reflexivity|]. split; [intros [X|X]; [congruence|exact (N X)]|exact H].
Qed.

Lemma alnums_split s : exists b, s = alnums s ++ b /\ Forall word_char (alnums s) /\ (forall c r, b = c :: r -> ~ word_char c).
Proof.
  induction s as [|c s (b & E & F & H)]; [exists []; split; [reflexivity|]; split; [constructor|discriminate]|].
  cbn [alnums]. destruct (alnum c) eqn:Ea.
  - exists b. cbn [app]. rewrite <- E. split; [reflexivity|]. split; [constructor; [apply alnum_spec; exact Ea|exact F]|exact H].
  - exists (c :: s). split; [reflexivity|]. split; [constructor|]. intros c' r [= <- <-] W. apply alnum_spec in W. congruence.
Qed.

Lemma cut_split s : (exists n b, s = n ++ "}"%char :: b /\ ~ In "}"%char n) \/ ~ In "}"%char s.
Proof.
  induction s as [|c s [(n & b & -> & N)|N]]; [right; intros []| |].
  - left. destruct (Ascii.eqb c "}") eqn:E.
    + apply Ascii.eqb_eq in E. subst c. exists [], (n ++ "}"%char :: b). split; [reflexivity|intros []].
    + apply Ascii.eqb_neq in E. exists (c :: n), b. split; [reflexivity|]. intros [X|X]; [congruence|exact (N X)].
  - destruct (Ascii.eqb c "}") eqn:E.
    + apply Ascii.eqb_eq in E. subst c. left. exists [], s. split; [reflexivity|intros []].
    + apply Ascii.eqb_neq in E. right. intros [X|X]; [congruence|exact (N X)].
Qed.

Lemma print_all : forall n s, List.length s <= n -> exists l, well_written l /\ print l = s.
Proof.
  induction n as [|n IH]; intros s L; [destruct s; [exists []; split; [exact I|reflexivity]|cbn in L; lia]|].
  destruct (text_split s) as (a & b & -> & Na & Hb). rewrite app_length in L.
  assert (W : exists l, well_written l /\ print l = b).
  { destruct Hb as [-> | (r & ->)]; [exists []; split; [exact I|reflexivity]|]. cbn [List.length] in L.
    assert (Go : forall r', List.length r' <= List.length r -> exists l, well_written l /\ print l = r') by (intros; apply IH; lia).
    destruct r as [|c r].
    { exists [Dollar]. split; [|reflexivity]. split; [|exact I]. intros c r. discriminate. }
    destruct (Ascii.eqb c "{") eqn:Ec.
    { apply Ascii.eqb_eq in Ec. subst c. destruct (cut_split r) as [(x & b & -> & Nx)|Nr].
      - destruct (Go b) as (l & Wl & El); [cbn; rewrite app_length; cbn; lia|]. destruct x as [|x0 x].
        + exists (Nameless :: l). split; [split; [exact I|exact Wl]|]. unfold print in *. cbn [map List.concat print1]. rewrite El. reflexivity.
        + exists (Braced (x0 :: x) :: l). split; [split; [split; [discriminate|exact Nx]|exact Wl]|].
          unfold print in *. cbn [map List.concat print1]. rewrite El, <- !app_assoc. reflexivity.
      - destruct (Go r) as (l & Wl & El); [cbn; lia|]. exists (Unclosed :: l). split; [split; [rewrite El; exact Nr|exact Wl]|].
        unfold print in *. cbn [map List.concat print1]. rewrite El. reflexivity. }
    apply Ascii.eqb_neq in Ec. destruct (special c) eqn:Es.
    { destruct (Go r) as (l & Wl & El); [cbn; lia|]. exists (Special c :: l). split; [split; [apply special_In; exact Es|exact Wl]|].
      unfold print in *. cbn [map List.concat print1]. rewrite El. reflexivity. }
    assert (Ns : ~ special_char c) by (intros X; apply special_In in X; congruence).
    destruct (alnums_split (c :: r)) as (b & E & F & Hn). destruct (alnums (c :: r)) as [|c0 w] eqn:Ew.
    - cbn [app] in E. subst b. destruct (Go (c :: r)) as (l & Wl & El); [lia|]. exists (Dollar :: l).
      split; [split; [|exact Wl]|].
      + rewrite El. intros c' r' [= <- <-]. split; [exact (Hn c r eq_refl)|]. split; assumption.
      + unfold print in *. cbn [map List.concat print1]. rewrite El. reflexivity.
    - assert (c0 = c) by (cbn [app] in E; congruence). subst c0. rewrite E.
      destruct (Go b) as (l & Wl & El); [rewrite E, app_length; lia|]. exists (Plain (c :: w) :: l).
      split; [split; [|exact Wl]|].
      + split; [|split; [exact F|rewrite El; exact Hn]]. exists c, w. split; [reflexivity|].
        intros D. apply Ns. apply digit_special. exact D.
      + unfold print in *. cbn [map List.concat print1]. rewrite El. reflexivity. }
  destruct W as (l & Wl & El). exists (Text a :: l). split; [split; [exact Na|exact Wl]|].
  unfold print in *. cbn [map List.concat print1]. rewrite El. reflexivity.
Qed.

(** ** Configured headers *)

Lemma rules_for_rules be ov extra : rules_for be ov extra -> extra = rules be ov.
Proof.
  destruct ov as [i|]; cbn; [|auto]. intros (po & E & ->). rewrite E. reflexivity.
Qed.

Lemma apply_headers_one ev c extra h host k v :
  NoDup (map (fun kv => to_lower (fst kv)) extra) -> In (k, v) extra ->
  h_values k (fst (fold_left (apply_header ev c) extra (h, host))) =
  if str_eqb (ev_expand ev c v) [] then [] else [ev_expand ev c v].
Proof.
  revert h host. induction extra as [|[k' v'] extra IH]; intros h host ND Hin; [destruct Hin|].
  cbn [map fst] in ND. inversion ND as [|x l Hx ND' E]; subst. cbn [fold_left].
  destruct (apply_header ev c (h, host) (k', v')) as [h' host'] eqn:Ea. destruct Hin as [Heq|Hin].
  - injection Heq as -> ->. rewrite apply_headers_values.
    + unfold apply_header in Ea. cbn [fst snd] in Ea. destruct (str_eqb (ev_expand ev c v) []); injection Ea as <- _.
      * rewrite h_values_del, same_name_refl. reflexivity.
      * rewrite h_values_set, same_name_refl. reflexivity.
    + intros kv Hkv. unfold same_name. apply str_eqb_neq. intro E. apply Hx. rewrite <- E. apply (in_map (fun kv => to_lower (fst kv)) _ _ Hkv).
  - apply IH; assumption.
Qed.

Lemma authenticate_session ev be r r1 c : authenticate ev be r = Some (r1, c) -> c = session_of ev be r.
Proof.
  unfold authenticate, session_of. cbv zeta. destruct (be_sso be) as [s|]; [|intro H; injection H as _ <-; reflexivity].
  unfold check_cookies. rewrite check_bearer_del, check_session_del.
  assert (Ee : forall cl, match assoc (lit "email") cl with Some (VStr (_ :: _)) => Some cl | _ => None end = match email_of cl with Some _ => Some cl | None => None end).
  { intro cl. unfold email_of. destruct (assoc (lit "email") cl) as [[[|x y]| | |]|]; reflexivity. }
  destruct (check_bearer ev (sso_cm s) r) as [cl|].
  - rewrite Ee. destruct (email_of cl); intro H; injection H as _ <-; reflexivity.
  - destruct (check_session ev (sso_cm s) r) as [cl|]; [|intro H; injection H as _ <-; reflexivity]. rewrite Ee.
    destruct (email_of cl) as [e|] eqn:E; [|intro H; injection H as _ <-; reflexivity].
    destruct (negb (sso_gen_id s)); [rewrite E; intro H; injection H as _ <-; reflexivity|].
    destruct (negb _); [rewrite E; intro H; injection H as _ <-; reflexivity|].
    destruct (check_id_cookie _ _ _ _); [rewrite E; intro H; injection H as _ <-; reflexivity|discriminate].
Qed.

Lemma configured_values ev be cn r f k v :
  reverse_proxy ev be cn r = Forward f -> In (k, v) (rules be (fw_override f)) -> distinct (rules be (fw_override f)) ->
  rules_leave be (lit "connection") ->
  same_name (lit "te") k = false -> same_name (lit "upgrade") k = false -> same_name xff k = false -> same_name xfcc k = false ->
  h_values k (fw_headers f) = if conn_names (rq_headers r) k || is_hop k then [] else rendered ev be r v.
Proof.
  intros H Hin ND Hc Hte Hup Hxf Hxc. apply reverse_forward in H. destruct H as (r1 & c & r2 & Ha & He & Hf).
  apply forward_spec in Hf. cbv zeta in Hf. destruct Hf as (_ & _ & extra & h1 & Hr & _ & Eh1 & -> & _).
  pose proof (rules_leave_for be _ _ _ Hc Hr) as Hco. apply rules_for_rules in Hr. subst extra.
  rewrite outgoing_values; try assumption.
  2:{ specialize (Hco (k, v) Hin). cbn in Hco. rewrite same_name_sym. exact Hco. }
  assert (Ec : conn_names (fst (fold_left (apply_header ev c) (rules be (fw_override f)) (h1, rq_host r2))) k = conn_names (rq_headers r) k).
  { unfold conn_names. rewrite (connection_options_ext _ (rq_headers r)); [reflexivity|].
    rewrite apply_headers_values by exact Hco. rewrite Eh1, !h_values_set.
    change (same_name via (lit "connection")) with false. change (same_name (lit "host") (lit "connection")) with false. cbv iota.
    apply (pre_forward _ _ _ _ _ _ _ Ha He); reflexivity. }
  rewrite Ec, director_values, Hxc, Hxf. destruct (_ || _); [reflexivity|]. rewrite (apply_headers_one ev c _ _ _ k v) by assumption.
  unfold rendered. rewrite <- (authenticate_session _ _ _ _ _ Ha). destruct (ev_expand ev c v); reflexivity.
Qed.

(** A rule for the Host header. *)
Lemma apply_headers_host ev c extra h host k v :
  distinct extra -> In (k, v) extra -> same_name k (lit "host") = true -> ev_expand ev c v <> [] ->
  snd (fold_left (apply_header ev c) extra (h, host)) = ev_expand ev c v.
Proof.
  intros ND Hin Hk Hv. revert h host ND Hin. induction extra as [|[k' v'] extra IH]; intros h host ND Hin; [destruct Hin|].
  unfold distinct in *. cbn [map fst] in ND. inversion ND as [|x l Hx ND' E]; subst. cbn [fold_left].
  destruct Hin as [Heq|Hin].
  - injection Heq as -> ->. unfold apply_header at 2. cbn [fst snd]. apply str_eqb_neq in Hv. rewrite Hv, Hk.
    assert (G : forall l h0, (forall kv, In kv l -> same_name (fst kv) k = false) -> snd (fold_left (apply_header ev c) l (h0, ev_expand ev c v)) = ev_expand ev c v).
    { clear - Hk. induction l as [|[k2 v2] l IH]; intros h0 Hl; [reflexivity|]. cbn [fold_left]. unfold apply_header at 2. cbn [fst snd].
      assert (E2 : same_name k2 (lit "host") = false).
      { destruct (same_name k2 (lit "host")) eqn:E; [|reflexivity]. specialize (Hl (k2, v2) (or_introl eq_refl)). cbn [fst] in Hl.
        rewrite same_name_sym in Hk. rewrite <- (same_name_trans _ _ _ E), Hk in Hl. discriminate. }
      rewrite E2. destruct (str_eqb (ev_expand ev c v2) []); apply IH; intros kv Hkv; apply Hl; right; exact Hkv. }
    apply G. intros kv Hkv. unfold same_name. apply str_eqb_neq. intro E. apply Hx. rewrite <- E. apply (in_map (fun kv => to_lower (fst kv)) _ _ Hkv).
  - destruct (apply_header ev c (h, host) (k', v')) as [h' host']. apply IH; assumption.
Qed.

(** ** Responses *)

Lemma alt_svc_values b proto host h n : same_name altsvc n = false -> h_values n (set_alt_svc b proto host h) = h_values n h.
Proof.
  intro Hn. unfold set_alt_svc. destruct (negb (h3_server b)); [reflexivity|]. destruct (match proto with Some _ => _ | None => _ end); [reflexivity|].
  destruct (negb _); [reflexivity|]. cbv zeta. destruct (atoi _); [|reflexivity]. destruct (_ && _)%N; [|reflexivity].
  rewrite h_values_set, Hn. reflexivity.
Qed.

Lemma alt_svc_set b proto host h :
  h3_server b = true -> proto <> Some (lit "h3") -> (exists l, h3_alpn b = Some l /\ In (lit "h3") l) ->
  forall p, port_in host p -> set_alt_svc b proto host h = h_set altsvc (lit "h3="":" ++ dec p ++ lit """; ma=2592000;") h.
Proof.
  intros Hs Hp (l & El & Hl) p P. unfold set_alt_svc. rewrite Hs, El. cbn [negb].
  assert (E1 : match proto with Some q => str_eqb q (lit "h3") | None => false end = false).
  { destruct proto as [q|]; [|reflexivity]. apply str_eqb_neq. congruence. } rewrite E1.
  apply mem_spec in Hl. rewrite Hl. cbn [negb]. cbv zeta.
  destruct P as [(E & ->)|(E & Ea & Hr)].
  - rewrite E. reflexivity.
  - destruct (port_of host) as [|c r] eqn:Eh; [congruence|]. rewrite Ea.
    destruct (0 <? p)%N eqn:A1; [|apply N.ltb_ge in A1; lia]. destruct (p <? 65536)%N eqn:A2; [|apply N.ltb_ge in A2; lia]. reflexivity.
Qed.

Lemma alt_svc_only b proto host h :
  set_alt_svc b proto host h = h \/
  h3_server b = true /\ proto <> Some (lit "h3") /\ (exists l, h3_alpn b = Some l /\ In (lit "h3") l) /\
  exists p, port_in host p /\ set_alt_svc b proto host h = h_set altsvc (lit "h3="":" ++ dec p ++ lit """; ma=2592000;") h.
Proof.
  unfold set_alt_svc. destruct (h3_server b); [|left; reflexivity]. cbn [negb].
  destruct (match proto with Some _ => _ | None => _ end) eqn:E1; [left; reflexivity|].
  destruct (h3_alpn b) as [l|]; [|left; reflexivity]. destruct (mem (lit "h3") l) eqn:El; [|left; reflexivity]. cbn [negb]. cbv zeta.
  destruct (atoi _) as [p|] eqn:Ea; [|left; reflexivity]. destruct (_ && _)%N eqn:Er; [|left; reflexivity]. right.
  split; [reflexivity|]. split; [destruct proto as [q|]; [|discriminate]; apply str_eqb_neq in E1; congruence|].
  split; [exists l; split; [reflexivity|]; apply mem_spec; exact El|]. exists p. split; [|reflexivity].
  apply andb_true_iff in Er. destruct Er as [R1 R2]. apply N.ltb_lt in R1, R2. unfold port_in.
  destruct (port_of host) as [|c r] eqn:Eh; [left; split; [reflexivity|]; vm_compute in Ea; congruence|right]. split; [congruence|]. auto.
Qed.

Lemma alt_svc_if (x : bool) b proto host h n :
  same_name altsvc n = false -> h_values n (if x then set_alt_svc b proto host h else h) = h_values n h.
Proof. intro Hn. destruct x; [apply alt_svc_values; exact Hn|reflexivity]. Qed.
