(** Lemmas about OauthModel. *)
From Verif Require Import Base XfccModel SamlModel SamlSpec SamlProofs OauthModel OauthSpec.
From Verif Require SamlProofs2 XfccProofs JwksModel LoginModel RefreshModel.
Open Scope nat_scope.

(** *** The address *)

Definition auth_params (l : lib) (cfg : OauthModel.config) (lo : options) (nonce verifier : str) : list (str * str) :=
  [(lit "response_type", lit "code"); (lit "client_id", o_client cfg); (lit "scope", join " " (scopes_of cfg));
   (lit "redirect_uri", o_redirect cfg); (lit "state", nonce); (lit "nonce", nonce);
   (lit "code_challenge", challenge l verifier); (lit "code_challenge_method", lit "S256")] ++
  (if str_eqb (o_domain cfg) [] then [] else [(lit "hd", o_domain cfg)]) ++
  (if str_eqb (lo_hint lo) [] then [] else [(lit "login_hint", lo_hint lo)]) ++
  (if lo_select lo then [(lit "prompt", lit "select_account")] else []).

Lemma query_escape_id : forall s, forallb unreserved s = true -> query_escape s = s.
Proof.
  induction s as [|c s IH]; intros H; [reflexivity|]. cbn [forallb] in H. apply andb_true_iff in H as [H1 H2].
  unfold query_escape in *. cbn [map List.concat]. unfold escape_byte at 1. rewrite H1, IH by exact H2. reflexivity.
Qed.
Lemma hex_byte_unreserved : forall c, forallb unreserved [hex_digit false (N_of_ascii c / 16); hex_digit false (N_of_ascii c mod 16)] = true.
Proof. intros [[] [] [] [] [] [] [] []]; reflexivity. Qed.
Lemma hex_unreserved : forall s, forallb unreserved (hex s) = true.
Proof.
  induction s as [|c s IH]; [reflexivity|]. unfold hex in *. cbn [map List.concat]. rewrite forallb_app, IH, hex_byte_unreserved. reflexivity.
Qed.
Lemma b64u_char_unreserved : forall a b c d e f, unreserved (JwksModel.b64u_char a b c d e f) = true.
Proof. intros [] [] [] [] [] []; reflexivity. Qed.
Lemma b64u_unreserved : forall s, forallb unreserved (JwksModel.b64u s) = true.
Proof.
  fix IH 1. intros [|[a0 a1 a2 a3 a4 a5 a6 a7] [|[b0 b1 b2 b3 b4 b5 b6 b7] [|[c0 c1 c2 c3 c4 c5 c6 c7] r]]]; cbn [JwksModel.b64u forallb];
    rewrite ?b64u_char_unreserved; [reflexivity..|]. apply IH.
Qed.
Lemma b64u_length : forall s, List.length (JwksModel.b64u s) = (4 * List.length s + 2) / 3.
Proof.
  fix IH 1. intros [|[a0 a1 a2 a3 a4 a5 a6 a7] [|[b0 b1 b2 b3 b4 b5 b6 b7] [|[c0 c1 c2 c3 c4 c5 c6 c7] r]]]; cbn [JwksModel.b64u List.length]; [reflexivity..|].
  rewrite IH. replace (4 * S (S (S (List.length r))) + 2) with (4 * List.length r + 2 + 4 * 3) by lia. rewrite Nat.div_add by lia. lia.
Qed.

Lemma join_cons_app : forall c (x : str) l, l <> [] -> join c (x :: l) = x ++ c :: join c l.
Proof. intros c x [|y l] H; [contradiction|reflexivity]. Qed.
Lemma join_app : forall c (a b : list str), a <> [] -> b <> [] -> join c (a ++ b) = join c a ++ c :: join c b.
Proof.
  intros c a b Ha Hb. induction a as [|x a IH]; [contradiction|]. destruct a as [|y a].
  - cbn [app]. rewrite join_cons_app by exact Hb. reflexivity.
  - change ((x :: y :: a) ++ b) with (x :: ((y :: a) ++ b)). rewrite join_cons_app by discriminate. rewrite (join_cons_app c x (y :: a)) by discriminate.
    rewrite IH by discriminate. rewrite <- app_assoc. reflexivity.
Qed.
Lemma join_opt : forall c (a : list str) b, a <> [] -> join c (a ++ b) = join c a ++ match b with [] => [] | _ => c :: join c b end.
Proof. intros c a [|x b] H; [rewrite !app_nil_r; reflexivity|]. now apply join_app. Qed.

Definition texts (l : list (str * str)) : list str := map (fun kv => pair_text (fst kv) (snd kv)) l.
Lemma auth_url_join : forall l cfg lo raw secret,
  auth_url l cfg lo (hex raw) (JwksModel.b64u secret) = o_auth cfg ++ lit "?" ++ join "&" (texts (auth_params l cfg lo (hex raw) (JwksModel.b64u secret))).
Proof.
  intros l cfg lo raw secret. unfold auth_url, auth_params, challenge. f_equal. f_equal. unfold texts. rewrite map_app, join_opt by discriminate.
  assert (E1 : query_escape (hex raw) = hex raw) by apply query_escape_id, hex_unreserved.
  assert (E2 : forall s, query_escape (JwksModel.b64u s) = JwksModel.b64u s) by (intros; apply query_escape_id, b64u_unreserved).
  cbn [map fst snd join]. unfold pair_text. rewrite E1, E2.
  generalize (hex raw) as n; intros n. generalize (JwksModel.b64u (l_sha256 l (JwksModel.b64u secret))) as ch; intros ch.
  generalize (query_escape (o_client cfg)) as cl; intros cl. generalize (query_escape (o_redirect cfg)) as re; intros re.
  generalize (query_escape (join " " (scopes_of cfg))) as sc; intros sc.
  change (query_escape (lit "response_type")) with (lit "response_type"). change (query_escape (lit "code")) with (lit "code").
  change (query_escape (lit "client_id")) with (lit "client_id"). change (query_escape (lit "scope")) with (lit "scope").
  change (query_escape (lit "redirect_uri")) with (lit "redirect_uri"). change (query_escape (lit "state")) with (lit "state").
  change (query_escape (lit "nonce")) with (lit "nonce"). change (query_escape (lit "code_challenge")) with (lit "code_challenge").
  change (query_escape (lit "code_challenge_method")) with (lit "code_challenge_method"). change (query_escape (lit "S256")) with (lit "S256").
  cbn [lit list_ascii_of_string app]. repeat (rewrite <- ?app_assoc; cbn [app]). repeat (f_equal; []). 
  repeat (apply f_equal).
  destruct (str_eqb (o_domain cfg) []); destruct (str_eqb (lo_hint lo) []); destruct (lo_select lo); cbn [app map join fst snd]; unfold pair_text;
    rewrite ?app_nil_r; rewrite <- ?app_assoc; try reflexivity.
Qed.
Lemma params_texts : forall l, l <> [] -> params (join "&" (texts l)) = l.
Proof.
  intros l NE. unfold params, texts. rewrite split_join.
  - clear NE. induction l as [|[k v] l IH]; [reflexivity|]. cbn [map flat_map fst snd]. rewrite query_escape_head, !unescape_query.
    assert (E : str_eqb (pair_text k v) [] = false) by (apply str_eqb_neq; unfold pair_text; destruct (query_escape k); discriminate).
    rewrite E, IH. reflexivity.
  - intros H. apply map_eq_nil in H. contradiction.
  - apply Forall_forall. intros p P I. apply in_map_iff in P as [[k v] [<- _]]. apply pair_text_plain in I as [I _]. apply I. cbn. tauto.
Qed.
Lemma texts_plain : forall l x, In x (join "&" (texts l)) -> x <> "#"%char /\ x <> "?"%char /\ (N_of_ascii x < 128)%N.
Proof.
  intros l x I. apply join_in in I as [->|[p [P I]]]; [repeat split; discriminate|]. apply in_map_iff in P as [[k v] [<- _]].
  apply pair_text_plain in I as [I B]. repeat split; [| |lia]; intros ->; apply I; cbn; tauto.
Qed.
Lemma cut_found_app : forall c a b x y, cut c a = (x, y, true) -> cut c (a ++ b) = (x, y ++ b, true).
Proof.
  intros c a. induction a as [|d a IH]; intros b x y H; [discriminate H|]. cbn [app cut] in *. destruct (Ascii.eqb d c); [injection H as <- <-; reflexivity|].
  destruct (cut c a) as [[x' y'] f] eqn:E. injection H as <- <- ->. rewrite (IH b x' y' eq_refl). reflexivity.
Qed.
Lemma has_scheme_app : forall u r, has_scheme u = true -> has_scheme (u ++ r) = true.
Proof. intros u r H. apply has_scheme_spec in H as (s & r' & -> & O). rewrite <- app_assoc. cbn [app]. now apply has_scheme_intro. Qed.
Lemma location_url : forall dir u, plain_url u -> location dir u = u.
Proof.
  intros dir u [S A]. unfold location. rewrite S. cbn [orb]. apply hex_escape_ascii. rewrite Forall_forall in A. exact A.
Qed.
Lemma plain_auth : forall l cfg lo raw secret, plain_url (o_auth cfg) -> plain_url (auth_url l cfg lo (hex raw) (JwksModel.b64u secret)).
Proof.
  intros l cfg lo raw secret [S A]. rewrite auth_url_join. split; [now apply has_scheme_app|]. rewrite !Forall_app. split; [exact A|]. split.
  - repeat constructor.
  - apply Forall_forall. intros x I. now apply texts_plain in I.
Qed.
Lemma auth_parts : forall l cfg lo raw secret, ~ In "?"%char (o_auth cfg) -> ~ In "#"%char (o_auth cfg) ->
  page_of (auth_url l cfg lo (hex raw) (JwksModel.b64u secret)) = o_auth cfg /\
  params (query_of (auth_url l cfg lo (hex raw) (JwksModel.b64u secret))) = auth_params l cfg lo (hex raw) (JwksModel.b64u secret).
Proof.
  intros l cfg lo raw secret N1 N2. rewrite auth_url_join. set (ps := auth_params _ _ _ _ _).
  assert (C : cut "#" (o_auth cfg ++ lit "?" ++ join "&" (texts ps)) = (o_auth cfg ++ lit "?" ++ join "&" (texts ps), [], false)).
  { apply cut_no. rewrite !in_app_iff. intros [I|[[I|[]]|I]]; [contradiction|discriminate|]. apply texts_plain in I as (I & _). congruence. }
  unfold page_of, query_of. rewrite C. change (lit "?" ++ join "&" (texts ps)) with ("?"%char :: join "&" (texts ps)). rewrite (cut_at _ _ _ N1).
  split; [reflexivity|]. apply params_texts. discriminate.
Qed.

Lemma apply_options_from : forall opts lo, lo_hint (fold_left apply_option opts lo) = match hint_of opts with Some h => h | None => lo_hint lo end /\
  lo_select (fold_left apply_option opts lo) = match select_of opts with Some b => b | None => lo_select lo end.
Proof.
  induction opts as [|o opts IH]; intros lo; [split; reflexivity|]. cbn [fold_left hint_of select_of]. destruct (IH (apply_option lo o)) as [A B]. rewrite A, B.
  split; [destruct (hint_of opts)|destruct (select_of opts)]; try reflexivity; destruct o; reflexivity.
Qed.

(** *** The request for tokens *)

Definition token_params (cfg : OauthModel.config) (code verifier : str) : list (str * str) :=
  [(lit "code", code); (lit "client_id", o_client cfg); (lit "client_secret", o_secret cfg); (lit "redirect_uri", o_redirect cfg);
   (lit "grant_type", lit "authorization_code"); (lit "code_verifier", verifier)].
Lemma token_body_values : forall cfg code verifier k, values_of k (params (token_body cfg code verifier)) = values_of k (token_params cfg code verifier).
Proof.
  intros cfg code verifier k. unfold token_body. fold (token_params cfg code verifier). set (m := fold_left add (token_params cfg code verifier) []).
  assert (K : NoDup (map fst m)) by (apply add_keys; constructor).
  rewrite params_encode.
  - rewrite values_flat by exact K. unfold m. rewrite vals_add. reflexivity.
  - intros E. pose proof (values_flat (lit "code") m K) as V. rewrite E in V. unfold m in V. rewrite vals_add in V. discriminate V.
Qed.
Lemma token_one : forall cfg code verifier k, one k (params (token_body cfg code verifier)) = one k (token_params cfg code verifier).
Proof. intros. unfold one. rewrite token_body_values. reflexivity. Qed.

(** *** Claims *)

Lemma extra_spec : forall c k, assoc k (extra_claims c) = claim_of c k.
Proof.
  intros c k. unfold extra_claims, claim_of, unless_empty. cbn [app assoc].
  destruct (str_eqb k (lit "source")) eqn:K1; [reflexivity|].
  assert (O : forall k' v r, assoc k ((if str_eqb v [] then [] else [(k', v)]) ++ r) = if str_eqb k k' then (if str_eqb v [] then assoc k r else Some v) else assoc k r).
  { intros k' v r. destruct (str_eqb v []); cbn [app assoc]; destruct (str_eqb k k'); reflexivity. }
  assert (D : forall a b, a <> b -> str_eqb k a = true -> str_eqb k b = false).
  { intros a b N E. apply str_eqb_spec in E. subst. now apply str_eqb_neq. }
  rewrite !O.
  destruct (str_eqb k (lit "hd")) eqn:K2; destruct (str_eqb k (lit "name")) eqn:K3; destruct (str_eqb k (lit "given_name")) eqn:K4;
    destruct (str_eqb k (lit "middle_name")) eqn:K5; destruct (str_eqb k (lit "family_name")) eqn:K6; destruct (str_eqb k (lit "picture")) eqn:K7;
    try (match goal with H : str_eqb k ?a = true, H' : str_eqb k ?b = true |- _ => rewrite (D a b) in H' by (discriminate || assumption); discriminate H' end);
    repeat match goal with |- context [if str_eqb ?v [] then _ else _] => destruct (str_eqb v []) eqn:?; cbn [assoc app] end; rewrite ?K7; try reflexivity.
Qed.

(** *** Users *)

Lemma empty_false : forall s, str_eqb s [] = false <-> s <> [].
Proof. intros s. split; intros H; [intros ->; discriminate H|now apply str_eqb_neq]. Qed.
Definition refused_domain (cfg : OauthModel.config) (c : user_claims) : bool :=
  negb (str_eqb (o_domain cfg) []) && (str_eqb (u_domain c) [] || (negb (str_eqb (o_domain cfg) (lit "*")) && negb (str_eqb (u_domain c) (o_domain cfg)))).
Lemma domain_ok : forall cfg c, refused_domain cfg c = false <->
  (o_domain cfg <> [] -> u_domain c <> [] /\ (o_domain cfg = lit "*" \/ u_domain c = o_domain cfg)).
Proof.
  intros cfg c. unfold refused_domain. split.
  - intros H N. apply empty_false in N. rewrite N in H. cbn [negb andb] in H. apply orb_false_iff in H as [H1 H2]. split; [now apply empty_false|].
    apply andb_false_iff in H2 as [H2|H2]; apply negb_false_iff in H2; [left|right]; now apply str_eqb_spec.
  - intros H. destruct (str_eqb (o_domain cfg) []) eqn:N; [reflexivity|]. apply empty_false in N. cbn [negb andb]. destruct (H N) as [A B].
    apply empty_false in A. rewrite A. cbn [orb]. destruct B as [ -> | -> ]; rewrite str_eqb_refl; [reflexivity|]. apply andb_false_r.
Qed.
Lemma finish_ok : forall cfg id state c st s, let nonce := if str_eqb (u_nonce c) [] then state else u_nonce c in
  assoc nonce (oc_states st) = Some s -> acceptable cfg c ->
  finish cfg id state c st = (done id {| oc_states := assoc_del nonce (oc_states st); oc_waiting := oc_waiting st |},
    Session (u_sub c) (u_email c) nonce (os_host s) (extra_claims c) (location (url_dir (o_token cfg)) (os_url s))).
Proof.
  intros cfg id state c st s nonce A (B & C & D & E). unfold finish. fold nonce. rewrite A. apply empty_false in B, C. rewrite B, C.
  assert (V : match u_verified c with Some false => true | _ => false end = false) by (destruct (u_verified c) as [[]|]; [reflexivity|contradiction|reflexivity]).
  rewrite V. fold (refused_domain cfg c). apply domain_ok in E. rewrite E. reflexivity.
Qed.
Lemma finish_session : forall cfg id state c st st' user email sid host claims loc,
  finish cfg id state c st = (st', Session user email sid host claims loc) ->
  acceptable cfg c /\ user = u_sub c /\ email = u_email c /\ sid = (if str_eqb (u_nonce c) [] then state else u_nonce c) /\ claims = extra_claims c /\
  assoc sid (oc_states st') = None /\
  exists s, assoc sid (oc_states st) = Some s /\ host = os_host s /\ loc = location (url_dir (o_token cfg)) (os_url s).
Proof.
  intros cfg id state c st st' user email sid host claims loc H. unfold finish in H. set (nonce := if str_eqb (u_nonce c) [] then state else u_nonce c) in *.
  destruct (assoc nonce (oc_states st)) as [s|] eqn:A; [|discriminate H].
  destruct (str_eqb (u_email c) []) eqn:E1; [discriminate H|].
  destruct (match u_verified c with Some false => true | _ => false end) eqn:E2; [discriminate H|]. fold (refused_domain cfg c) in H.
  destruct (refused_domain cfg c) eqn:E3; [discriminate H|]. destruct (str_eqb (u_sub c) []) eqn:E4; [discriminate H|]. cbn [orb] in H.
  injection H as <- <- <- <- <- <- <-.
  split; [split; [now apply empty_false|]; split; [now apply empty_false|]; split; [intros V; rewrite V in E2; discriminate E2|now apply domain_ok]|].
  do 4 (split; [reflexivity|]). split; [cbn [done oc_states]; apply assoc_del_eq|]. exists s. auto.
Qed.

(** *** Histories *)

Definition apart (n : str) (id : nat) (st : client) : Prop := forall id' p n', In (id', (p, n')) (oc_waiting st) -> id' <> id -> n' <> n.
Lemma done_waits : forall id id' st, id' <> id -> find (fun w => Nat.eqb (fst w) id) (oc_waiting (done id' st)) = find (fun w => Nat.eqb (fst w) id) (oc_waiting st).
Proof.
  intros id id' st N. unfold done. cbn [oc_waiting]. induction (oc_waiting st) as [|[i x] w IH]; [reflexivity|]. cbn [filter fst find].
  destruct (Nat.eqb_spec i id') as [E|E]; cbn [negb].
  - subst i. destruct (Nat.eqb_spec id' id); [contradiction|exact IH].
  - cbn [find fst]. destruct (Nat.eqb i id); [reflexivity|exact IH].
Qed.
Lemma done_apart : forall n id id' st, apart n id st -> apart n id (done id' st).
Proof. intros n id id' st A i p n' I. unfold done in I. cbn [oc_waiting] in I. apply filter_In in I as [I _]. exact (A i p n' I). Qed.
Lemma waits_in : forall id ph st n, waits id ph st = Some n -> exists p, In (id, (p, n)) (oc_waiting st).
Proof.
  intros id ph st n H. unfold waits in H. destruct (find _ _) as [[i [p n0]]|] eqn:F; [|discriminate]. apply find_some in F as [F E].
  apply Nat.eqb_eq in E. cbn [fst] in E. subst i. destruct p, ph; try discriminate H; injection H as ->; eexists; exact F.
Qed.
Lemma finish_leaves : forall cfg id id' n state c st, id' <> id -> state <> n -> u_nonce c <> n -> apart n id st ->
  (forall s, assoc n (oc_states st) = Some s -> assoc n (oc_states (fst (finish cfg id' state c st))) = Some s) /\
  find (fun w => Nat.eqb (fst w) id) (oc_waiting (fst (finish cfg id' state c st))) = find (fun w => Nat.eqb (fst w) id) (oc_waiting st) /\
  apart n id (fst (finish cfg id' state c st)).
Proof.
  intros cfg id id' n state c st N1 N2 N3 A.
  assert (E : fst (finish cfg id' state c st) = done id' {| oc_states := assoc_del (if str_eqb (u_nonce c) [] then state else u_nonce c) (oc_states st); oc_waiting := oc_waiting st |}).
  { unfold finish. destruct (assoc _ _); [|reflexivity]. destruct (str_eqb (u_email c) []); [reflexivity|].
    destruct (match u_verified c with Some false => true | _ => false end); [reflexivity|]. destruct (negb _ && _); [reflexivity|]. destruct (_ || _); reflexivity. }
  rewrite E. split; [|split].
  - intros s0 H. cbn [done oc_states]. rewrite assoc_del_neq; [exact H|]. destruct (str_eqb (u_nonce c) []); assumption.
  - apply (done_waits id id' {| oc_states := _; oc_waiting := oc_waiting st |}). exact N1.
  - apply done_apart. exact A.
Qed.

Definition kept (raw : str) (id : nat) (deadline : Z) (st st' : client) : Prop :=
  (forall s, (deadline <= os_created s + 5 * LoginModel.minute)%Z -> assoc (hex raw) (oc_states st) = Some s -> assoc (hex raw) (oc_states st') = Some s) /\
  find (fun w => Nat.eqb (fst w) id) (oc_waiting st') = find (fun w => Nat.eqb (fst w) id) (oc_waiting st) /\
  apart (hex raw) id st'.
Lemma leaves_step : forall l cfg raw id deadline e st, OauthSpec.leaves l raw id deadline e -> apart (hex raw) id st ->
  kept raw id deadline st (fst (OauthModel.step l cfg st e)).
Proof.
  intros l cfg raw id deadline e st L A. unfold kept. destruct e as [opts dir url raw' secret now|id' form cookie now|id' a|id' a]; cbn [OauthModel.step OauthSpec.leaves] in *.
  - unfold OauthModel.request_login. destruct (negb (l_url l url)); cbn [fst oc_states oc_waiting]; [auto|]. split; [|auto].
    intros s D H. rewrite assoc_set_neq; [exact H|]. intros E. apply XfccProofs.hex_injective in E. congruence.
  - destruct L as (N1 & N2 & T). unfold callback. set (n := form_get (lit "state") form) in *. set (P := fun kv : str * oauth_state => negb (5 * LoginModel.minute <? now - os_created (snd kv))%Z).
    assert (B : forall s, (deadline <= os_created s + 5 * LoginModel.minute)%Z -> assoc (hex raw) (oc_states st) = Some s -> assoc (hex raw) (filter P (oc_states st)) = Some s).
    { intros s D H. apply SamlProofs2.assoc_filter; [exact H|]. intros k'. unfold P. cbn [snd]. apply negb_true_iff, Z.ltb_ge. lia. }
    destruct (assoc n (filter P (oc_states st))) as [s0|]; [|cbn [fst oc_states oc_waiting]; auto].
    assert (B2 : forall s, (deadline <= os_created s + 5 * LoginModel.minute)%Z -> assoc (hex raw) (oc_states st) = Some s -> assoc (hex raw) (assoc_set n (mark s0) (filter P (oc_states st))) = Some s).
    { intros s D H. rewrite assoc_set_neq by congruence. auto. }
    destruct (os_seen s0 || negb (str_eqb n cookie)); cbn [fst oc_states oc_waiting]; [auto|]. split; [exact B2|]. split.
    + cbn [find fst]. destruct (Nat.eqb_spec id' id); [contradiction|reflexivity].
    + intros i p n' [E|I] NE; [injection E as <- <- <-; exact N2|]. exact (A i p n' I NE).
  - destruct L as (N1 & N2). unfold token_answer. destruct (waits id' ForTokens st) as [state|] eqn:W; [|cbn [fst]; auto].
    destruct (waits_in _ _ _ _ W) as [p0 IN]. pose proof (A _ _ _ IN N1) as N3.
    assert (DN : (forall s, (deadline <= os_created s + 5 * LoginModel.minute)%Z -> assoc (hex raw) (oc_states st) = Some s -> assoc (hex raw) (oc_states (done id' st)) = Some s) /\
      find (fun w => Nat.eqb (fst w) id) (oc_waiting (done id' st)) = find (fun w => Nat.eqb (fst w) id) (oc_waiting st) /\ apart (hex raw) id (done id' st)).
    { split; [intros s _ H; exact H|]. split; [now apply done_waits|now apply done_apart]. }
    destruct a as [t|]; [|exact DN]. destruct (negb (str_eqb (t_id t) [])).
    + destruct (l_jwt l (t_id t)) as [c|] eqn:J; [|exact DN].
      destruct (finish_leaves cfg id id' (hex raw) state c st N1 N3 (N2 t c eq_refl J) A) as (F1 & F2 & F3). split; [intros s _; apply F1|]. auto.
    + destruct (negb (str_eqb (o_info cfg) []) && _); [|exact DN]. cbn [fst oc_states oc_waiting]. destruct DN as (D1 & D2 & D3). split; [intros s _ H; exact H|]. split.
      * cbn [find fst]. destruct (Nat.eqb_spec id' id); [contradiction|]. exact D2.
      * intros i p n' [E|I] NE; [injection E as <- <- <-; exact N3|]. exact (D3 i p n' I NE).
  - destruct L as (N1 & N2). unfold info_answer. destruct (waits id' ForInfo st) as [state|] eqn:W; [|cbn [fst]; auto].
    destruct (waits_in _ _ _ _ W) as [p0 IN]. pose proof (A _ _ _ IN N1) as N3.
    destruct a as [c|].
    + destruct (finish_leaves cfg id id' (hex raw) state (from_endpoint cfg c) st N1 N3 (N2 c eq_refl) A) as (F1 & F2 & F3). split; [intros s _; apply F1|]. auto.
    + split; [intros s _ H; exact H|]. split; [now apply done_waits|now apply done_apart].
Qed.
Lemma leaves_run : forall l cfg raw id deadline es st, Forall (OauthSpec.leaves l raw id deadline) es -> apart (hex raw) id st ->
  kept raw id deadline st (OauthModel.run l cfg st es).
Proof.
  intros l cfg raw id deadline es. induction es as [|e es IH]; intros st F A; [split; [intros s _ H; exact H|auto]|]. inversion F; subst. cbn [OauthModel.run].
  destruct (leaves_step l cfg raw id deadline e st H1 A) as (K1 & K2 & K3). destruct (IH _ H2 K3) as (M1 & M2 & M3).
  split; [intros s D H; apply M1; [exact D|]; apply K1; assumption|]. split; [congruence|exact M3].
Qed.

(** *** Where pending logins come from *)

Definition begun (es : list event) (n : str) (s : oauth_state) : Prop :=
  exists opts dir raw secret, In (ERequest opts dir (os_url s) raw secret (os_created s)) es /\ n = hex raw /\
    os_host s = url_host (os_url s) /\ os_verifier s = JwksModel.b64u secret.
Definition all_begun (es : list event) (st : client) : Prop := forall n s, In (n, s) (oc_states st) -> begun es n s.
Lemma begun_more : forall es e n s, begun es n s -> begun (es ++ [e]) n s.
Proof. intros es e n s (o & d & r & k & I & H). exists o, d, r, k. split; [apply in_or_app; now left|exact H]. Qed.
Lemma del_in : forall {A} k (l : list (str * A)) x, In x (assoc_del k l) -> In x l.
Proof. intros A k l x I. unfold assoc_del in I. apply filter_In in I. tauto. Qed.
Lemma begun_step : forall l cfg es e st, all_begun es st -> all_begun (es ++ [e]) (fst (OauthModel.step l cfg st e)).
Proof.
  intros l cfg es e st B.
  assert (SUB : forall st', (forall x, In x (oc_states st') -> In x (oc_states st)) -> all_begun (es ++ [e]) st').
  { intros st' S n s I. apply begun_more, B, S, I. }
  assert (FIN : forall id state c, all_begun (es ++ [e]) (fst (finish cfg id state c st))).
  { intros id state c. apply SUB. intros x. unfold finish.
    repeat match goal with |- context [match assoc ?a ?b with _ => _ end] => destruct (assoc a b) | |- context [if ?b then _ else _] => lazymatch b with str_eqb (u_nonce c) [] => fail | _ => destruct b end end;
      cbn [fst done oc_states]; apply del_in. }
  destruct e as [opts dir url raw secret now|id form cookie now|id a|id a]; cbn [OauthModel.step].
  - unfold OauthModel.request_login. destruct (negb (l_url l url)); cbn [fst]; [now apply SUB|]. intros n s I. cbn [oc_states] in I. destruct I as [E|I].
    + injection E as <- <-. exists opts, dir, raw, secret. cbn [os_url os_created os_host os_verifier]. split; [apply in_or_app; right; now left|auto].
    + apply begun_more, B. now apply del_in in I.
  - unfold callback. set (P := fun kv : str * oauth_state => negb (5 * LoginModel.minute <? now - os_created (snd kv))%Z).
    set (n0 := form_get (lit "state") form). destruct (assoc n0 (filter P (oc_states st))) as [s0|] eqn:A.
    + assert (G : forall w, all_begun (es ++ [ECallback id form cookie now]) {| oc_states := assoc_set n0 (mark s0) (filter P (oc_states st)); oc_waiting := w |}).
      { intros w n s I. cbn [oc_states] in I. destruct I as [E|I].
        - injection E as <- <-. apply assoc_In, filter_In in A as [A _]. apply B in A. apply begun_more. exact A.
        - apply del_in, filter_In in I as [I _]. apply begun_more, B, I. }
      destruct (os_seen s0 || _); apply G.
    + cbn [fst]. apply SUB. intros x I. cbn [oc_states] in I. now apply filter_In in I.
  - unfold token_answer. destruct (waits id ForTokens st); [|now apply SUB]. destruct a as [t|]; [|now apply SUB].
    destruct (negb (str_eqb (t_id t) [])).
    + destruct (l_jwt l (t_id t)); [apply FIN|now apply SUB].
    + destruct (negb (str_eqb (o_info cfg) []) && _); now apply SUB.
  - unfold info_answer. destruct (waits id ForInfo st); [|now apply SUB]. destruct a as [c|]; [apply FIN|now apply SUB].
Qed.
Lemma begun_run : forall l cfg es es0 st, all_begun es0 st -> all_begun (es0 ++ es) (OauthModel.run l cfg st es).
Proof.
  intros l cfg es. induction es as [|e es IH]; intros es0 st B; [rewrite app_nil_r; exact B|]. cbn [OauthModel.run].
  replace (es0 ++ e :: es) with ((es0 ++ [e]) ++ es) by (rewrite <- app_assoc; reflexivity). apply IH. now apply begun_step.
Qed.
Lemma begun_fresh : forall l cfg es, all_begun es (OauthModel.run l cfg fresh_client es).
Proof. intros l cfg es. apply (begun_run l cfg es []). intros n s []. Qed.
