(** Theorems C115: tokens as text. *)
From Coq Require Import Lia.
From Verif Require Import Base TokenModel ScriptModel ScriptSpec ScriptProofs ScriptProofs4 JwtModel JwtSpec JwtProofs JwtProofs2.
From Verif Require TokenProofs TokenSpec JwksModel OcspGetModel ProxyHdrModel ProxyHdrSpec ProxyHdrProofs ConsoleModel ScriptProofs2 ScriptProps
  PasskeyModel PasskeySpec PasskeyHttpModel PasskeyHttpSpec PasskeyHttpProps LoginModel SamlModel OauthModel OauthSpec OauthProps.
Open Scope list_scope.
Open Scope Z_scope.

(** The IDs of keys differ. *)
Definition distinct (name : nat -> str) (keys : list key) : Prop := NoDup (map (fun k => name (kid k)) keys).
(** Numbers up to 2^53 are read as they were written. *)
Definition reads_numbers (num : str -> Z) : Prop := forall n, - 2 ^ 53 <= n <= 2 ^ 53 -> num (zdec n) = n.
(** Signatures that a key makes are signatures of that key. *)
Definition signs (sign : nat -> ktype -> str -> str) (verify : nat -> ktype -> str -> str -> bool) : Prop :=
  forall id t s, verify id t s (sign id t s) = true.

Lemma ktype_eqb_spec : forall a b, ktype_eqb a b = true <-> a = b.
Proof. intros [] []; cbn; split; congruence. Qed.
Lemma find_key_spec : forall name keys id k, distinct name keys -> (find_key name keys id = Some k <-> In k keys /\ name (kid k) = id).
Proof.
  intros name keys id k N. unfold find_key, distinct in *. induction keys as [|x keys IH]; cbn [find].
  - split; [discriminate|intros [[] _]].
  - cbn [map] in N. inversion N as [|? ? N1 N2]; subst. destruct (str_eqb (name (kid x)) id) eqn:E.
    + apply str_eqb_spec in E. split.
      * intro H. injection H as <-. split; [left; reflexivity|exact E].
      * intros [[H|H] E']; [subst; reflexivity|]. exfalso. apply N1. rewrite E, <- E'. apply (in_map (fun k => name (kid k))). exact H.
    + rewrite IH by exact N2. split; [intros [H1 H2]; split; [right; exact H1|exact H2]|].
      intros [[H|H] E']; [subst x; rewrite E', str_eqb_refl in E; discriminate|auto].
Qed.

(** Exactly these texts are accepted: three parts between full stops, a header and a payload
    that are JSON in base64url, one of the three algorithms, the ID of one of the proxy's
    keys, a key for this algorithm, a signature of that key over the first two parts as they
    are written, and times that fit. *)
Theorem C115_accepted : forall name verify num keys now text c, distinct name keys ->
  (validate_text name verify num keys now text = Some c <->
   exists header payload input sig alg k,
     jws text header payload input sig /\
     says header (lit "alg") (JStr alg) /\ In (alg, ktyp k) algorithms /\
     says header (lit "kid") (JStr (name (kid k))) /\ In k keys /\
     verify (kid k) (ktyp k) input sig = true /\
     c = claims_of_map num (rev payload) /\ in_time c now).
Proof.
  intros name verify num keys now text c N. unfold validate_text. split.
  - destruct (split_on "." text) as [|a [|b [|d [|]]]] eqn:S3; try discriminate. apply split_three in S3. destruct S3 as [T ND].
    destruct (read_map a) as [h|] eqn:A; [|discriminate]. destruct (read_map b) as [l|] eqn:B; [|discriminate].
    destruct (OcspGetModel.raw_url_decode d) as [sig|] eqn:D; [|discriminate].
    destruct (assoc (lit "alg") h) as [[]|] eqn:G; try discriminate. destruct (assoc (lit "kid") h) as [[]|] eqn:I; try discriminate.
    destruct (method s) as [t|] eqn:M; [|discriminate]. destruct (find_key name keys s0) as [k|] eqn:K; [|discriminate].
    destruct (ktype_eqb t (ktyp k)) eqn:Y; [|discriminate]. destruct (verify (kid k) t (a ++ "."%char :: b) sig) eqn:V; [|discriminate]. cbn [andb].
    destruct (exp_ok (claims_of_map num l) now && nbf_ok (claims_of_map num l) now) eqn:X; [|discriminate]. intro H. injection H as <-.
    apply read_map_spec in A. destruct A as (h' & PA & -> ). apply read_map_spec in B. destruct B as (l' & PB & -> ). apply raw_url_spec in D.
    apply ktype_eqb_spec in Y. subst t. apply find_key_spec in K; [|exact N]. destruct K as [K1 K2]. apply time_spec in X. apply method_spec in M.
    apply assoc_last in G, I. exists h', l', (a ++ "."%char :: b), sig, s, k. split; [exists a, b, d; auto 10|]. split; [exact G|]. split; [exact M|].
    split; [rewrite K2; exact I|]. auto.
  - intros (header & payload & input & sig & alg & k & (a & b & d & T & ND & PA & PB & D & -> ) & G & M & I & K & V & -> & X).
    rewrite (proj2 (split_three text a b d) (conj T ND)).
    rewrite (proj2 (read_map_spec a (rev header)) (ex_intro _ header (conj PA eq_refl))).
    rewrite (proj2 (read_map_spec b (rev payload)) (ex_intro _ payload (conj PB eq_refl))).
    rewrite (proj2 (raw_url_spec d sig) D). apply assoc_last in G, I. rewrite G, I. apply method_spec in M. rewrite M.
    rewrite (proj2 (find_key_spec name keys _ k N) (conj K eq_refl)). rewrite (proj2 (ktype_eqb_spec _ _) eq_refl), V. cbn [andb].
    apply time_spec in X. rewrite X. reflexivity.
Qed.
Print Assumptions C115_accepted.

(** What the claims are: the last member of the payload with the name. *)
Theorem C115_claims : forall num payload k v,
  assoc k (claims_of_map num (rev payload)) = Some v <-> exists j, says payload k j /\ v = cval_of num j.
Proof.
  intros num payload k v. unfold claims_of_map. rewrite assoc_map. split.
  - destruct (assoc k (rev payload)) as [j|] eqn:E; [|discriminate]. intro H. injection H as <-. exists j. split; [apply assoc_last; exact E|reflexivity].
  - intros (j & S & -> ). apply assoc_last in S. rewrite S. reflexivity.
Qed.
Print Assumptions C115_claims.

(** In particular no other algorithm is accepted, whoever made the text: not "none", and not
    a MAC with a public key as its secret. *)
Theorem C115_algorithms : forall name verify num keys now text c, distinct name keys ->
  validate_text name verify num keys now text = Some c ->
  forall header payload input sig alg, jws text header payload input sig -> says header (lit "alg") (JStr alg) -> In alg [lit "ES256"; lit "RS256"; lit "EdDSA"].
Proof.
  intros name verify num keys now text c N H header payload input sig alg (a & b & d & T & ND & PA & _ & _ & _) SA.
  apply (C115_accepted _ _ _ _ _ _ _ N) in H. destruct H as (h' & p' & i' & s' & alg' & k & (a' & b' & d' & T' & ND' & PA' & _ & _ & _) & SA' & M & _).
  pose proof (proj2 (split_three text a b d) (conj T ND)) as S1. pose proof (proj2 (split_three text a' b' d') (conj T' ND')) as S2.
  rewrite S1 in S2. injection S2 as -> -> ->.
  pose proof (proj2 (read_map_spec a' (rev header)) (ex_intro _ header (conj PA eq_refl))) as R1.
  pose proof (proj2 (read_map_spec a' (rev h')) (ex_intro _ h' (conj PA' eq_refl))) as R2. rewrite R1 in R2. injection R2 as R2.
  apply assoc_last in SA, SA'. rewrite R2 in SA. rewrite SA in SA'. injection SA' as ->.
  cbn in M |- *. destruct M as [M|[M|[M|[]]]]; injection M as <- _; auto.
Qed.
Print Assumptions C115_algorithms.

(** Checking a text is checking the token of TokenModel for which it stands: the theorems
    C27 to C32 are about texts. *)
Lemma get_key_spec : forall keys id k, get_key keys id = Some k -> In k keys /\ kid k = id.
Proof.
  intros keys id k. induction keys as [|x keys IH]; [discriminate|]. cbn [get_key]. destruct (Nat.eqb_spec (kid x) id) as [E|E].
  - intro H. injection H as <-. split; [left; reflexivity|exact E].
  - intro H. destruct (IH H). split; [right|]; assumption.
Qed.
Lemma get_key_ok : forall name keys k, distinct name keys -> In k keys -> get_key keys (kid k) = Some k.
Proof.
  intros name keys k N. unfold distinct in N. induction keys as [|x keys IH]; [intros []|]. cbn [map] in N. inversion N as [|? ? N1 N2]; subst. cbn [get_key]. intros [H|H].
  - subst x. rewrite Nat.eqb_refl. reflexivity.
  - destruct (Nat.eqb_spec (kid x) (kid k)) as [E|E]; [|auto]. exfalso. apply N1. rewrite E. apply (in_map (fun k => name (kid k))). exact H.
Qed.
Theorem C115_refines : forall name verify num keys now text, distinct name keys ->
  validate_text name verify num keys now text =
  match jwt_of name verify num keys text with Some t => validate keys now t | None => None end.
Proof.
  intros name verify num keys now text N. unfold validate_text, jwt_of.
  destruct (split_on "." text) as [|a [|b [|d [|]]]]; try reflexivity.
  destruct (read_map a) as [h|]; [|reflexivity]. destruct (read_map b) as [l|]; [|reflexivity]. destruct (OcspGetModel.raw_url_decode d) as [sig|]; [|reflexivity].
  destruct (assoc (lit "alg") h) as [[]|]; try reflexivity. destruct (assoc (lit "kid") h) as [[]|]; try reflexivity.
  destruct (method s) as [t|]; [|reflexivity]. destruct (find_key name keys s0) as [k|] eqn:K; [|reflexivity]. apply find_key_spec in K; [|exact N]. destruct K as [K _].
  unfold validate. cbn [t_kid t_signer t_claims]. rewrite (get_key_ok name keys k N K).
  destruct (verify (kid k) t (a ++ "."%char :: b) sig).
  - rewrite Nat.eqb_refl, andb_true_r. cbn [andb]. destruct (ktype_eqb t (ktyp k)); reflexivity.
  - rewrite andb_false_r. reflexivity.
Qed.
Print Assumptions C115_refines.

Lemma pick_in : forall now t keys tk k, pick now t keys tk = Some k -> tk = Some k \/ In k keys /\ ktyp k = t.
Proof.
  intros now t keys. induction keys as [|x keys IH]; intros tk k H; cbn [pick] in H; [auto|].
  destruct (ktype_eqb (ktyp x) t) eqn:E; cbn [negb] in H.
  - apply ktype_eqb_spec in E. apply IH in H. destruct H as [H|[H1 H2]]; [|right; split; [right|]; assumption].
    destruct tk as [y|].
    + destruct (created x + 2 * hour <? now); [injection H as <-; right; split; [left; reflexivity|exact E]|left; exact H].
    + injection H as <-. right. split; [left; reflexivity|exact E].
  - apply IH in H. destruct H as [H|[H1 H2]]; [auto|]. right. split; [right|]; assumption.
Qed.
Lemma assoc_header : forall t id, assoc (lit "alg") (rev [(lit "alg", JStr (alg_name t)); (lit "kid", JStr id); (lit "typ", JStr (lit "JWT"))]) = Some (JStr (alg_name t)) /\
  assoc (lit "kid") (rev [(lit "alg", JStr (alg_name t)); (lit "kid", JStr id); (lit "typ", JStr (lit "JWT"))]) = Some (JStr id).
Proof. intros. split; reflexivity. Qed.

(** A token that the proxy makes is a text that goes into URLs, cookies and headers as it
    is.  As long as the key is kept, it stands for the token that was meant: the same key,
    and the same claims. *)
Theorem C115_created : forall name sign verify num keys now t c text, signs sign verify -> reads_numbers num -> exact c ->
  create_text name sign keys now t c = Some text ->
  token_text text /\
  exists tok, create_token keys now t c = Some tok /\
  forall keys', distinct name keys' -> (exists k, In k keys' /\ kid k = t_kid tok /\ ktyp k = t) ->
  (exists tok', jwt_of name verify num keys' text = Some tok' /\ t_kid tok' = t_kid tok /\ t_signer tok' = t_signer tok /\ same_claims (t_claims tok') c) /\
  (forall now', in_time c now' -> exists c', validate_text name verify num keys' now' text = Some c' /\ same_claims c' c).
Proof.
  intros name sign verify num keys now t c text SG RN EX H. unfold create_text in H. unfold create_token.
  destruct (pick now t keys None) as [k|] eqn:P; [|discriminate]. apply pick_in in P. destruct P as [P|[P1 P2]]; [discriminate|].
  cbv zeta in H. apply ProxyHdrProofs.some_inj in H. subst text. split.
  - split; [destruct (signing_text t (name (kid k)) c); discriminate|].
    assert (A : forall x y, forallb token_char (x ++ "."%char :: y) = forallb token_char x && forallb token_char y) by (intros x y; rewrite forallb_app; reflexivity).
    cbv zeta. rewrite A. unfold signing_text, segment. rewrite A, !b64u_token. reflexivity.
  - eexists. split; [reflexivity|]. cbn [t_kid t_signer]. intros keys' N (k' & K1 & K2 & K3).
    set (text := signing_text t (name (kid k)) c ++ "."%char :: JwksModel.b64u (sign (kid k) t (signing_text t (name (kid k)) c))).
    assert (J : jwt_of name verify num keys' text = Some {| t_kid := kid k;
       t_claims := claims_of_map num (rev (map (fun k => (k, match assoc k c with Some v => json_of v | None => JNull end)) (claim_names c))); t_signer := Some (kid k, ktyp k) |}).
    { unfold jwt_of, text. rewrite signed_split. rewrite (read_segment _ (header_valid t (name (kid k))) _ eq_refl).
      rewrite (read_segment _ (claims_valid c) _ eq_refl). rewrite ScriptProofs2.b64u_raw.
      destruct (assoc_header t (name (kid k))) as [-> -> ]. rewrite method_name.
      rewrite (proj2 (find_key_spec name keys' (name (kid k)) k' N)) by (split; [exact K1|congruence]). rewrite K2.
      change (segment (header_json t (name (kid k))) ++ "."%char :: segment (claims_json c)) with (signing_text t (name (kid k)) c). rewrite SG, P2. reflexivity. }
    split; [eexists; split; [exact J|]; cbn [t_kid t_signer t_claims]; split; [reflexivity|]; split; [reflexivity|apply claims_read; assumption]|].
    intros now' IT. rewrite C115_refines by exact N. rewrite J. unfold validate. cbn [t_kid t_signer t_claims]. rewrite <- K2, (get_key_ok name keys' k' N K1).
    rewrite Nat.eqb_refl, P2, K3. pose proof (claims_read num RN c EX) as SC. cbv beta in SC.
    match goal with |- context [exp_ok ?x now'] => set (c' := x) in * end.
    assert (IT' : in_time c' now') by (destruct IT as [I1 I2]; split; intros v Hv; rewrite (SC _) in Hv; auto).
    apply time_spec in IT'. apply andb_true_iff in IT'. destruct IT' as [-> -> ]. rewrite (proj2 (ktype_eqb_spec t t) eq_refl). cbn [andb].
    exists c'. split; [reflexivity|exact SC].
Qed.
Print Assumptions C115_created.

(** If signatures cannot be forged then a text is accepted only with the claims of a token
    that the proxy made with one of its keys, whatever else was done to the text.  [made]:
    the tokens that the proxy made. *)
Theorem C115_only_issued : forall name verify num keys now text c' (made : list (nat * ktype * claims)),
  distinct name keys -> reads_numbers num -> Forall (fun m => exact (snd m)) made ->
  (forall k input sig, In k keys -> verify (kid k) (ktyp k) input sig = true -> exists c, In (kid k, ktyp k, c) made /\ input = signing_text (ktyp k) (name (kid k)) c) ->
  validate_text name verify num keys now text = Some c' ->
  exists k c, In k keys /\ In (kid k, ktyp k, c) made /\ same_claims c' c /\ in_time c now.
Proof.
  intros name verify num keys now text c' made N RN EX UF H.
  pose proof (proj1 (C115_accepted _ _ _ _ _ _ _ N) H) as (header & payload & input & sig & alg & k & (a & b & d & T & ND & PA & PB & D & -> ) & G & M & I & K & V & C & X).
  destruct (UF k _ sig K V) as (c & Mc & E). rewrite Forall_forall in EX. pose proof (EX _ Mc) as Ec. cbn [snd] in Ec.
  assert (S1 : split_on "." (a ++ "."%char :: b) = [a; b]) by (rewrite !in_app_iff in ND; rewrite split_on_app, split_on_no_char by tauto; reflexivity).
  assert (S2 : split_on "." (a ++ "."%char :: b) = [segment (header_json (ktyp k) (name (kid k))); segment (claims_json c)])
    by (rewrite E; unfold signing_text, segment; rewrite split_on_app, split_on_no_char by apply b64u_no_dot; reflexivity).
  rewrite S1 in S2. injection S2 as _ ->.
  pose proof (proj2 (read_map_spec _ (rev payload)) (ex_intro _ payload (conj PB eq_refl))) as R.
  rewrite (read_segment _ (claims_valid c) _ eq_refl) in R. injection R as R.
  assert (SC : same_claims c' c) by (rewrite C, <- R; apply claims_read; assumption).
  exists k, c. split; [exact K|]. split; [exact Mc|]. split; [exact SC|]. destruct X as [X1 X2]. split; intros v Hv; rewrite <- (SC _) in Hv; auto.
Qed.
Print Assumptions C115_only_issued.

(** Finding: a token does not have one text.  The signature may be followed by an end of
    line, and is still accepted. *)
Theorem C115_one_text_refuted : forall name verify num keys now text c,
  validate_text name verify num keys now text = Some c -> validate_text name verify num keys now (text ++ ["010"%char]) = Some c.
Proof.
  intros name verify num keys now text c H. unfold validate_text in *.
  destruct (split_on "." text) as [|a [|b [|d [|]]]] eqn:S3; try discriminate. apply split_three in S3. destruct S3 as [T ND].
  replace (split_on "." (text ++ ["010"%char])) with [a; b; d ++ ["010"%char]].
  2:{ symmetry. apply split_three. split; [rewrite T, <- app_assoc; cbn [app]; rewrite <- app_assoc; reflexivity|].
      rewrite !in_app_iff in *. intros [X|[X|[X|[X|[]]]]]; [tauto|tauto|tauto|discriminate]. }
  replace (OcspGetModel.raw_url_decode (d ++ ["010"%char])) with (OcspGetModel.raw_url_decode d); [exact H|].
  unfold OcspGetModel.raw_url_decode. rewrite filter_app. cbn [filter Ascii.eqb Bool.eqb negb andb]. rewrite app_nil_r. reflexivity.
Qed.
Print Assumptions C115_one_text_refuted.

(** ** Tokens for addresses and sessions *)

Lemma validated : forall name verify num keys now text c, distinct name keys -> validate_text name verify num keys now text = Some c ->
  exists j, jwt_of name verify num keys text = Some j /\ validate keys now j = Some c.
Proof. intros name verify num keys now text c N H. rewrite C115_refines in H by exact N. destruct (jwt_of name verify num keys text) as [j|]; [eauto|discriminate]. Qed.

(** The address in a token that the proxy made is found in its text by the browser for which
    it was made, at any time while the key is kept. *)
Theorem C115_address : forall name sign verify num keys now t url sid email text, signs sign verify -> reads_numbers num ->
  create_text name sign keys now t (url_claims url sid email) = Some text ->
  exists k, In k keys /\ ktyp k = t /\
  forall keys' now', distinct name keys' -> In k keys' ->
  exists j, jwt_of name verify num keys' text = Some j /\ accept_url keys' now' sid j = Some url.
Proof.
  intros name sign verify num keys now t url sid email text SG RN H.
  assert (EX : exact (url_claims url sid email)).
  { intros k n A. apply assoc_In in A. unfold url_claims in A. cbn [In] in A. destruct A as [A|[A|A]]; [discriminate|discriminate|].
    destruct email as [e|]; [destruct A as [A|[]]; discriminate|destruct A]. }
  destruct (C115_created name sign verify num keys now t _ text SG RN EX H) as (_ & tok & CT & W).
  unfold create_token in CT. destruct (pick now t keys None) as [k|] eqn:P; [|discriminate]. injection CT as <-. apply pick_in in P. destruct P as [P|[P1 P2]]; [discriminate|].
  exists k. split; [exact P1|]. split; [exact P2|]. intros keys' now' N K'.
  destruct (W keys' N) as (_ & W2); [exists k; auto|]. destruct (W2 now') as (c' & V & SC).
  { split; intros v A; apply assoc_In in A; unfold url_claims in A; cbn [In] in A; destruct A as [A|[A|A]]; try discriminate;
    (destruct email as [e|]; cbn [In] in A; [destruct A as [A|[]]; discriminate|destruct A]). }
  destruct (validated _ _ _ _ _ _ _ N V) as (j & J & VJ). exists j. split; [exact J|].
  unfold accept_url. rewrite VJ. unfold claim_is. rewrite (SC _), (SC _). cbn. rewrite str_eqb_refl. reflexivity.
Qed.
Print Assumptions C115_address.

(** The text of a session token, in the cookie, gives the session back with all its claims
    until it expires. *)
Theorem C115_session : forall hhash name sign verify num keys now t cm user email sid host extra c text, signs sign verify -> reads_numbers num ->
  session_claims hhash cm user email sid host now extra = Some c -> exact c -> cm_issuer cm <> [] ->
  create_text name sign keys now t c = Some text ->
  exists k, In k keys /\ ktyp k = t /\
  forall keys' now', distinct name keys' -> In k keys' -> in_time c now' ->
  exists j c', jwt_of name verify num keys' text = Some j /\ accept_session keys' now' cm j = Some c' /\ same_claims c' c.
Proof.
  intros hhash name sign verify num keys now t cm user email sid host extra c text SG RN SE EX IS H.
  destruct (C115_created name sign verify num keys now t _ text SG RN EX H) as (_ & tok & CT & W).
  unfold create_token in CT. destruct (pick now t keys None) as [k|] eqn:P; [|discriminate]. injection CT as <-. apply pick_in in P. destruct P as [P|[P1 P2]]; [discriminate|].
  exists k. split; [exact P1|]. split; [exact P2|]. intros keys' now' N K' IT.
  destruct (W keys' N) as (_ & W2); [exists k; auto|]. destruct (W2 now' IT) as (c' & V & SC).
  destruct (validated _ _ _ _ _ _ _ N V) as (j & J & VJ). exists j, c'. split; [exact J|]. split; [|exact SC].
  unfold session_claims in SE. destruct (str_eqb user [] || str_eqb email []) eqn:NE; [discriminate|]. cbv zeta in SE. apply ProxyHdrProofs.some_inj in SE. apply orb_false_iff in NE. destruct NE as [NU _].
  assert (A : forall k v, assoc k (session_base hhash cm user email sid host now) = Some v -> assoc k c' = Some v).
  { intros k0 v A. rewrite (SC _), <- SE, TokenProofs.assoc_app, A. reflexivity. }
  unfold accept_session, validate_for. rewrite VJ. unfold iss_ok, aud_ok, claim_is.
  rewrite (A (lit "iss") (VStr (cm_issuer cm)) eq_refl), (A (lit "aud") (VStr (cm_issuer cm)) eq_refl).
  rewrite (proj2 (str_eqb_neq _ _) IS), !str_eqb_refl. cbn [negb andb].
  rewrite (A (lit "proxyauth") (VStr (cm_issuer cm)) eq_refl), (A (lit "provider") (VStr (cm_provider cm)) eq_refl), (A (lit "sub") (VStr user) eq_refl).
  rewrite !str_eqb_refl, NU. reflexivity.
Qed.
Print Assumptions C115_session.

(** Signing in with a passkey, with the token as the proxy made it: nothing about the text
    of the token is assumed. *)
Theorem C115_sign_in : forall e name sign verify num keys made t email base url token before earlier ch t0 between m h k origin more adata ad sig handle login,
  signs sign verify -> reads_numbers num -> distinct name (PasskeyHttpModel.h_tokens e) -> (forall k, In k keys -> In k (PasskeyHttpModel.h_tokens e)) ->
  create_text name sign keys made t (url_claims url (PasskeyHttpModel.q_sid base) email) = Some token ->
  PasskeyModel.e_client_data (PasskeyHttpModel.h_env e) = parse_client_data ->
  PasskeyHttpModel.htrace e before = earlier ++ PasskeyModel.AssOptions ch t0 :: between ->
  Forall (PasskeyHttpSpec.leaves_alone (PasskeyHttpModel.h_env e) ch t0) between -> PasskeyHttpModel.q_now base <= t0 + 300 ->
  PasskeyHttpSpec.distinct_handles e before -> assoc [] (PasskeyHttpModel.hs_nonces (PasskeyHttpModel.hrun e before)) = None ->
  In k (PasskeyHttpSpec.hkeys e before m) -> NoDup (map PasskeyModel.k_id (PasskeyHttpSpec.hkeys e before m)) ->
  assoc m (PasskeyModel.p_subjects (PasskeyHttpModel.hs_keys (PasskeyHttpModel.hrun e before))) = Some (JwksModel.b64u h) ->
  (h <> [] /\ handle = h \/ handle = [] /\ login = m /\ m <> []) -> others more ->
  PasskeyModel.parse_auth_data (PasskeyModel.e_cbor (PasskeyHttpModel.h_env e)) adata = Ok ad ->
  PasskeyModel.ad_rp ad = PasskeyModel.k_rp k -> PasskeyModel.ad_up ad = true -> PasskeyModel.ad_uv ad = true ->
  let cdata := browser_data (lit "webauthn.get") ch origin more in
  PasskeyModel.e_verify (PasskeyHttpModel.h_env e) (PasskeyModel.k_pub k) adata cdata sig = true ->
  let answer := PasskeyHttpSpec.hanswer e before (PasskeyHttpModel.HCallback
      (read_message (jwt_of name verify num (PasskeyHttpModel.h_tokens e)) base (send_get token (JwksModel.b64u (PasskeyModel.k_id k)) cdata adata sig handle login))) in
  exists c, PasskeyModel.u_email c = Some m /\
    (answer = PasskeyHttpModel.ASession c k (PasskeyHttpModel.h_url_host e url) url \/
     (answer = PasskeyHttpModel.ARefresh /\ PasskeyHttpSpec.too_old (PasskeyHttpModel.h_env e) c (PasskeyHttpModel.q_now base))).
Proof.
  intros e name sign verify num keys made t email base url token before earlier ch t0 between m h k origin more adata ad sig handle login SG RN N IN CT.
  intros EC HT FB HN HD HZ IK NK ES HH OM EP RP UP UV.
  destruct (C115_address name sign verify num keys made t url _ email token SG RN CT) as (kt & K1 & _ & W).
  destruct (W (PasskeyHttpModel.h_tokens e) (PasskeyHttpModel.q_now base) N (IN _ K1)) as (j & J & AU).
  assert (EX : exact (url_claims url (PasskeyHttpModel.q_sid base) email)).
  { intros k0 n A. apply assoc_In in A. unfold url_claims in A. cbn [In] in A. destruct A as [A|[A|A]]; [discriminate|discriminate|].
    destruct email as [x|]; [destruct A as [A|[]]; discriminate|destruct A]. }
  destruct (C115_created name sign verify num keys made t _ token SG RN EX CT) as (TT & _).
  eapply ScriptProps.C113_sign_in; eassumption.
Qed.
Print Assumptions C115_sign_in.

(** ** The ID token of a provider *)

Lemma find_names : forall (g : str -> json) f ns, to_lower f = f -> Forall (fun k => to_lower k = k /\ is_null (g k) = false) ns ->
  find (fun kv => names f (fst kv) && negb (is_null (snd kv))) (map (fun k => (k, g k)) ns) = if mem f ns then Some (f, g f) else None.
Proof.
  intros g f ns Lf F. induction F as [|k ns [Lk Nk] F IH]; [reflexivity|]. cbn [map find fst snd]. unfold names at 1. rewrite Lf, Lk, Nk. cbn [negb]. rewrite andb_true_r.
  change (mem f (k :: ns)) with (str_eqb f k || mem f ns). destruct (str_eqb f k) eqn:E; [apply str_eqb_spec in E; subst; reflexivity|exact IH].
Qed.
Lemma mem_rev : forall f (l : list str), mem f (rev l) = mem f l.
Proof.
  intros f l. destruct (mem f l) eqn:E.
  - apply mem_spec. apply mem_spec in E. apply in_rev in E. exact E.
  - apply mem_false. apply mem_false in E. intro X. apply E. apply in_rev. exact X.
Qed.
Lemma lower_member : forall c k, standard_types c -> In k (claim_names c) -> exists v, assoc k c = Some v /\ to_lower k = k.
Proof.
  intros c k ST H. apply mem_spec in H. apply names_in in H. destruct (assoc k c) as [v|] eqn:E; [|apply assoc_None in E; contradiction].
  exists v. split; [reflexivity|]. exact (proj1 (ST k v E)).
Qed.
Definition claim_members (c : claims) : list (str * json) := map (fun k => (k, match assoc k c with Some v => json_of v | None => JNull end)) (claim_names c).
Lemma field_claims : forall c f, standard_types c -> to_lower f = f -> field f (claim_members c) = option_map json_of (assoc f c).
Proof.
  intros c f ST Lf. unfold field, claim_members. rewrite <- map_rev. rewrite find_names.
  - rewrite mem_rev. destruct (assoc f c) as [v|] eqn:E.
    + replace (mem f (claim_names c)) with true; [reflexivity|]. symmetry. apply names_in. apply assoc_In in E. apply in_map_iff. exists (f, v). auto.
    + replace (mem f (claim_names c)) with false; [reflexivity|]. symmetry. apply not_true_iff_false. rewrite names_in. apply assoc_None. exact E.
  - exact Lf.
  - apply Forall_forall. intros k H. apply in_rev in H. destruct (lower_member c k ST H) as (v & E & L). split; [exact L|]. rewrite E. destruct v; reflexivity.
Qed.
Lemma names_lower : forall fs k, forallb (fun f => str_eqb (to_lower f) f) fs = true -> to_lower k = k -> existsb (fun f => names f k) fs = true -> In k fs.
Proof.
  intros fs k F L H. apply existsb_exists in H. destruct H as (f & I & E). rewrite forallb_forall in F. specialize (F f I). apply str_eqb_spec in F.
  unfold names in E. rewrite F, L in E. apply str_eqb_spec in E. subst. exact I.
Qed.
Lemma members_fit : forall c, standard_types c -> forallb (fun kv => fits (fst kv) (snd kv)) (claim_members c) = true.
Proof.
  intros c ST. apply forallb_forall. intros kv H. unfold claim_members in H. apply in_map_iff in H. destruct H as (k & <- & H). cbn [fst snd].
  destruct (lower_member c k ST H) as (v & E & L). rewrite E. destruct (ST k v E) as (_ & T1 & T2 & T3 & T4). unfold fits.
  destruct (existsb (fun f => names f k) text_fields) eqn:X1.
  { apply names_lower in X1; [|reflexivity|exact L]. destruct T1 as [s -> ]; [|reflexivity]. revert X1. unfold text_fields, texts. cbn [In]. tauto. }
  destruct (names (lit "email_verified") k) eqn:X2.
  { unfold names in X2. rewrite L in X2. apply str_eqb_spec in X2. destruct T2 as [b -> ]; [symmetry; exact X2|reflexivity]. }
  destruct (existsb (fun f => names f k) [lit "exp"; lit "nbf"; lit "iat"]) eqn:X3.
  { apply names_lower in X3; [|reflexivity|exact L]. destruct (T3 X3) as [n -> ]. reflexivity. }
  destruct (names (lit "aud") k) eqn:X4; [|reflexivity].
  unfold names in X4. rewrite L in X4. apply str_eqb_spec in X4. destruct T4 as [[s -> ]|[l -> ]]; [symmetry; exact X4|reflexivity|].
  cbn [json_of]. apply forallb_forall. intros x I. apply in_map_iff in I. destruct I as (s & <- & _). reflexivity.
Qed.

(** A token of the proxy, or of any provider that writes tokens in the same way, tells the
    OpenID client exactly what its claims say. *)
Theorem C115_id_token : forall t id c sig, standard_types c ->
  read_user (signing_text t id c ++ "."%char :: JwksModel.b64u sig) = Some (OauthSpec.said c).
Proof.
  intros t id c sig ST. unfold read_user. rewrite signed_split. rewrite (read_segment _ (header_valid t id) _ eq_refl), (read_segment _ (claims_valid c) _ eq_refl).
  cbv zeta. rewrite rev_involutive. fold (claim_names c). change (map _ (claim_names c)) with (claim_members c). rewrite (members_fit c ST).
  destruct (assoc_header t id) as [-> _]. replace (mem (alg_name t) known_methods) with true by (destruct t; reflexivity). cbn [andb].
  rewrite !(field_claims c _ ST eq_refl). unfold OauthSpec.said. f_equal.
  assert (X : forall f, In f texts -> match option_map json_of (assoc f c) with Some (JStr s) => s | _ => [] end = match assoc f c with Some (VStr s) => s | _ => [] end).
  { intros f I. destruct (assoc f c) as [v|] eqn:E; [|reflexivity]. destruct (proj1 (proj2 (ST f v E)) I) as [s -> ]. reflexivity. }
  assert (Y : match option_map json_of (assoc (lit "iss") c) with Some (JStr s) => Some s | _ => None end = match assoc (lit "iss") c with Some (VStr s) => Some s | _ => None end).
  { destruct (assoc (lit "iss") c) as [v|] eqn:E; [|reflexivity]. destruct v; reflexivity. }
  assert (Z : match option_map json_of (assoc (lit "email_verified") c) with Some (JBool b) => Some b | _ => None end = match assoc (lit "email_verified") c with Some (VBool b) => Some b | _ => None end).
  { destruct (assoc (lit "email_verified") c) as [v|] eqn:E; [|reflexivity]. destruct v; reflexivity. }
  rewrite Y, Z, !X by (cbn; tauto). reflexivity.
Qed.
Print Assumptions C115_id_token.

(** The tokens of the built-in server can be read so, for a user whose claims are texts. *)
Definition text_claims (user : claims) : Prop := forall k v, In k (lit "email" :: profile_claims) -> assoc k user = Some v -> exists s, v = VStr s.
Theorem C115_builtin_claims : forall issuer client user now nonce scopes, text_claims user -> standard_types (oidc_claims issuer client user now nonce scopes).
Proof.
  intros issuer client user now nonce scopes TC k v A. apply assoc_In in A. unfold oidc_claims in A. rewrite !in_app_iff in A.
  destruct A as [A|[A|[A|A]]].
  - cbn [In] in A. destruct A as [A|[A|[A|[A|[A|[A|[]]]]]]]; injection A as <- <-; (split; [reflexivity|]);
      (split; [intro I; eauto; cbn in I; repeat (destruct I as [I|I]; [discriminate|]); destruct I|]); (split; [discriminate|]);
      (split; [intro I; eauto; cbn in I; repeat (destruct I as [I|I]; [discriminate|]); destruct I|]); try discriminate; eauto.
  - destruct (str_eqb nonce []); [destruct A|]. destruct A as [A|[]]. injection A as <- <-. split; [reflexivity|]. split; [eauto|]. split; [discriminate|]. split; [|discriminate].
    intro I. cbn in I. repeat (destruct I as [I|I]; [discriminate|]). destruct I.
  - destruct (mem (lit "email") scopes); [|destruct A].
    assert (V : (lit "email_verified", VBool true) = (k, v) \/ k = lit "email" /\ assoc (lit "email") user = Some v).
    { destruct (assoc (lit "email") user) as [w|]; cbn [In] in A; destruct A as [A|A]; auto.
      - injection A as <- <-. auto.
      - destruct A as [A|[]]; auto.
      - destruct A. }
    destruct V as [V|[-> V]].
    + injection V as <- <-. split; [reflexivity|]. split; [intro I; cbn in I; repeat (destruct I as [I|I]; [discriminate|]); destruct I|]. split; [eauto|]. split; [|discriminate].
      intro I. cbn in I. repeat (destruct I as [I|I]; [discriminate|]). destruct I.
    + destruct (TC (lit "email") v) as [s -> ]; [left; reflexivity|exact V|]. split; [reflexivity|]. split; [eauto|]. split; [discriminate|]. split; [|discriminate].
      intro I. cbn in I. repeat (destruct I as [I|I]; [discriminate|]). destruct I.
  - destruct (mem (lit "profile") scopes); [|destruct A]. apply in_concat in A. destruct A as (x & X & A). apply in_map_iff in X. destruct X as (k0 & <- & X).
    destruct (assoc k0 user) as [w|] eqn:E; [|destruct A]. destruct A as [A|[]]. injection A as -> ->.
    destruct (TC k v) as [s -> ]; [right; exact X|exact E|].
    assert (L : to_lower k = k) by (cbn in X; repeat (destruct X as [<-|X]; [reflexivity|]); destruct X).
    split; [exact L|]. split; [eauto|]. split; [intros ->; cbn in X; repeat (destruct X as [X|X]; [discriminate|]); destruct X|]. split; [|eauto].
    intro I. exfalso. cbn in I. destruct I as [<-|[<-|[<-|[]]]]; cbn in X; repeat (destruct X as [X|X]; [discriminate|]); destruct X.
Qed.
Print Assumptions C115_builtin_claims.

(** So logging in at another proxy through the built-in server works with the tokens as they
    are written and read: C112_builtin without an assumption about how tokens are read. *)
Theorem C115_builtin : forall name sign l cfg before opts dir url raw secret t st1 cookie loc between id form now after scfg keys ts code access user sub email sv uris,
  OauthModel.l_jwt l = read_user -> text_claims user ->
  OauthSpec.proper cfg -> OauthSpec.plain_url url -> OauthModel.o_domain cfg = [] -> In (lit "email") (OauthSpec.wanted_scopes cfg) -> raw <> [] ->
  Forall (OauthSpec.leaves l raw id (t + 300)) (before ++ between ++ after) -> (now <= t + 300)%Z ->
  In {| LoginModel.cl_id := OauthModel.o_client cfg; LoginModel.cl_secret := OauthModel.o_secret cfg; LoginModel.cl_uris := uris |} (LoginModel.cf_clients scfg) ->
  In (OauthModel.o_redirect cfg) uris ->
  LoginModel.cf_parses scfg (OauthModel.o_redirect cfg) = true -> pick ts RSA keys None <> None ->
  assoc (lit "sub") user = Some (VStr sub) -> assoc (lit "email") user = Some (VStr email) -> sub <> [] -> email <> [] ->
  OauthModel.step l cfg (OauthModel.run l cfg OauthModel.fresh_client before) (OauthModel.ERequest opts dir url raw secret t) = (st1, OauthModel.Away cookie loc) ->
  let written j := let s := signing_text RSA (name (t_kid j)) (t_claims j) in s ++ "."%char :: JwksModel.b64u (sign (t_kid j) RSA s) in
  exists sv1 sc, LoginModel.authorize scfg keys ts code access [] (OauthSpec.ask user loc) sv = (sv1, LoginModel.SendTo (OauthModel.o_redirect cfg) cookie code sc) /\
  (OauthModel.form_get (lit "state") form = cookie -> OauthModel.form_get (lit "code") form = code ->
   let r := OauthModel.step l cfg (OauthModel.run l cfg st1 between) (OauthModel.ECallback id form cookie now) in
   exists body, snd r = OauthModel.PostTo (OauthModel.o_token cfg) body /\
   forall sv2, assoc code (LoginModel.sv_codes sv2) = assoc code (LoginModel.sv_codes sv1) ->
   exists j, snd (LoginModel.exchange scfg (OauthSpec.redeem body) sv2) = LoginModel.Tokens j access sc /\
   exists claims, snd (OauthModel.step l cfg (OauthModel.run l cfg (fst r) after)
       (OauthModel.ETokens id (Some {| OauthModel.t_access := access; OauthModel.t_id := written j; OauthModel.t_type := lit "Bearer" |}))) =
     OauthModel.Session sub email cookie (SamlModel.url_host url) claims url /\ assoc (lit "source") claims = Some (LoginModel.cf_issuer scfg)).
Proof.
  intros name sign l cfg before opts dir url raw secret t st1 cookie loc between id form now after scfg keys ts code access user sub email sv uris LJ TC.
  intros PR PU DO ES RN F NOW CL UR PA PK US UE SN EN H written.
  eapply (OauthProps.C112_builtin l cfg before opts dir url raw secret t st1 cookie loc between id form now after scfg keys ts code access user sub email sv written uris); try eassumption.
  intros j E. split; [unfold written; cbv zeta; destruct (signing_text _ _ _); discriminate|].
  rewrite LJ. unfold written. cbv zeta. rewrite C115_id_token; [reflexivity|]. rewrite E. apply C115_builtin_claims. exact TC.
Qed.
Print Assumptions C115_builtin.

(** ** Cases in which the hypotheses hold *)

Definition x15_name (n : nat) : str := lit "key" ++ ProxyHdrModel.dec (N.of_nat n).
Definition x15_sign (id : nat) (t : ktype) (s : str) : str := alg_name t ++ x15_name id ++ firstn 5 s.
Definition x15_verify (id : nat) (t : ktype) (s sig : str) : bool := str_eqb sig (x15_sign id t s).
Definition x15_num (s : str) : Z :=
  let read s := match ProxyHdrSpec.undec (2 ^ 53)%N s with Some n => Z.of_N n | None => 0 end in
  match s with c :: r => if Ascii.eqb c "-" then - read r else read s | [] => 0 end.
Definition x15_keys : list key := PasskeyHttpProps.xh_tokens ++ [{| kid := 2; ktyp := ED; created := 60 |}].
Definition x15_cm : cookie_mgr := {| cm_provider := lit "corp"; cm_issuer := lit "https://login/" |}.
Definition x15_claims : claims :=
  match session_claims (fun s => s) x15_cm (lit "1") (lit "a<b>@x") (lit "s") (lit "www") 1700000000 [(lit "groups", VList [lit "x"; lit "y"]); (lit "ok", VBool true)] with
  | Some c => c | None => [] end.

Example C115_nontrivial_signs : signs x15_sign x15_verify.
Proof. intros id t s. apply str_eqb_refl. Qed.
Example C115_nontrivial_numbers : reads_numbers x15_num.
Proof.
  intros n H. assert (U : forall m, (m <= 2 ^ 53)%N -> match ProxyHdrSpec.undec (2 ^ 53)%N (ProxyHdrModel.dec m) with Some n => Z.of_N n | None => 0 end = Z.of_N m)
    by (intros m L; rewrite ProxyHdrProofs.undec_dec by exact L; reflexivity).
  unfold x15_num, zdec. destruct (n <? 0) eqn:S.
  - apply Z.ltb_lt in S. cbn [Ascii.eqb Bool.eqb]. cbv zeta. change (Ascii.eqb "-" "-") with true. cbv iota. rewrite U by lia. rewrite Z2N.id by lia. lia.
  - apply Z.ltb_ge in S. cbv zeta. destruct (ProxyHdrModel.dec (Z.to_N n)) as [|c r] eqn:E; [exfalso; exact (ProxyHdrProofs.dec_nonempty _ E)|].
    assert (D : Ascii.eqb c "-" = false).
    { apply Ascii.eqb_neq. intros ->. assert (I : In "-"%char (ProxyHdrModel.dec (Z.to_N n))) by (rewrite E; left; reflexivity).
      apply ProxyHdrProofs.dec_digits in I. unfold ProxyHdrProofs.is_digit in I. cbn in I. lia. }
    rewrite D, <- E, U by lia. apply Z2N.id. lia.
Qed.
Example C115_nontrivial_keys : distinct x15_name x15_keys.
Proof. repeat constructor; cbn; intros H; repeat destruct H as [H|H]; try discriminate H; destruct H. Qed.
(** The header is the one that can be seen in any token. *)
Example C115_nontrivial_text :
  option_map (firstn 51) (create_text x15_name x15_sign x15_keys 100 EC x15_claims) = Some (lit "eyJhbGciOiJFUzI1NiIsImtpZCI6ImtleTEiLCJ0eXAiOiJKV1Q").
Proof. vm_compute. reflexivity. Qed.
Example C115_nontrivial_session :
  session_claims (fun s => s) x15_cm (lit "1") (lit "a<b>@x") (lit "s") (lit "www") 1700000000 [(lit "groups", VList [lit "x"; lit "y"]); (lit "ok", VBool true)] = Some x15_claims /\
  exact x15_claims /\ in_time x15_claims 1700071999 /\ standard_types x15_claims /\
  exists text c, create_text x15_name x15_sign x15_keys 1700000000 ED x15_claims = Some text /\
    validate_text x15_name x15_verify x15_num x15_keys 1700071999 text = Some c /\ assoc (lit "email") c = Some (VStr (lit "a<b>@x")) /\
    assoc (lit "groups") c = Some (VList [lit "x"; lit "y"]) /\
    validate_text x15_name x15_verify x15_num x15_keys 1700072000 text = None /\
    validate_text x15_name x15_verify x15_num PasskeyHttpProps.xh_tokens 1700071999 text = None /\
    validate_text x15_name x15_verify x15_num x15_keys 1700071999 (text ++ lit "A") = None.
Proof.
  assert (IN : forall k v, assoc k x15_claims = Some v -> In (k, v) x15_claims) by (intros k v H; apply assoc_In; exact H).
  assert (L : x15_claims = [(lit "iat", VNum 1700000000); (lit "exp", VNum 1700072000); (lit "iss", VStr (lit "https://login/")); (lit "aud", VStr (lit "https://login/"));
    (lit "sub", VStr (lit "1")); (lit "email", VStr (lit "a<b>@x")); (lit "proxyauth", VStr (lit "https://login/")); (lit "provider", VStr (lit "corp"));
    (lit "hhash", VStr (lit "www")); (lit "sid", VStr (lit "s")); (lit "groups", VList [lit "x"; lit "y"]); (lit "ok", VBool true)]) by reflexivity.
  split; [reflexivity|]. split.
  { intros k n H. apply IN in H. rewrite L in H. cbn [In] in H. repeat (destruct H as [H|H]; [try discriminate H; injection H as <- <-; lia|]). destruct H. }
  split; [apply time_spec; reflexivity|]. split.
  { intros k v H. apply IN in H. rewrite L in H. cbn [In] in H.
    repeat (destruct H as [H|H]; [injection H as <- <-; split; [reflexivity|]; (split; [intro X; eauto; cbn in X; repeat (destruct X as [X|X]; [discriminate|]); destruct X|]);
      (split; [discriminate|]); (split; [intro X; eauto; cbn in X; repeat (destruct X as [X|X]; [discriminate|]); destruct X|]); try discriminate; eauto|]). destruct H. }
  eexists _, _. split; [vm_compute; reflexivity|]. split; [vm_compute; reflexivity|]. vm_compute. repeat split.
Qed.
(** Tokens with other algorithms, and the same key. *)
Example C115_nontrivial_none : forall alg, In alg [lit "none"; lit "HS256"; lit "ES384"] -> forall verify,
  validate_text x15_name verify x15_num x15_keys 100
    (segment (JObj [(lit "alg", JStr alg); (lit "kid", JStr (x15_name 1))]) ++ "."%char :: segment (claims_json x15_claims) ++ lit ".") = None.
Proof. intros alg [<-|[<-|[<-|[]]]] verify; vm_compute; reflexivity. Qed.
(** Signing in with a token as it was made. *)
Definition x15_token : str :=
  match create_text x15_name x15_sign PasskeyHttpProps.xh_tokens 100 EC (url_claims (lit "https://sso/keys") (lit "browser") None) with Some t => t | None => [] end.
Example C115_nontrivial_sign_in :
  create_text x15_name x15_sign PasskeyHttpProps.xh_tokens 100 EC (url_claims (lit "https://sso/keys") (lit "browser") None) = Some x15_token /\
  PasskeyHttpSpec.hanswer ScriptProps.x13 ScriptProps.x13_asked (PasskeyHttpModel.HCallback
    (read_message (jwt_of x15_name x15_verify x15_num PasskeyHttpProps.xh_tokens) (PasskeyHttpProps.xh_with (PasskeyHttpProps.xh_req 140 [] []) (lit "2") 120)
      (send_get x15_token (JwksModel.b64u (lit "k1")) (ScriptProps.x13_get (lit "c3")) PasskeyHttpProps.xh_adata (lit "p1") [] (lit "bob@x")))) =
  PasskeyHttpModel.ASession PasskeyHttpProps.xh_bob (PasskeyHttpProps.xh_key (lit "1")) (lit "sso") (lit "https://sso/keys").
Proof. vm_compute. split; reflexivity. Qed.
(** A user of the built-in server. *)
Example C115_nontrivial_user : text_claims [(lit "sub", VStr (lit "1")); (lit "email", VStr (lit "a@x")); (lit "name", VStr (lit "A B"))] /\
  option_map OauthModel.u_name (read_user (signing_text RSA (lit "k")
    (oidc_claims (lit "https://i") (lit "c") [(lit "sub", VStr (lit "1")); (lit "email", VStr (lit "a@x")); (lit "name", VStr (lit "A B"))] 5 (lit "n") [lit "email"; lit "profile"]) ++ lit ".AAAA")) = Some (lit "A B").
Proof.
  split; [|vm_compute; reflexivity]. intros k v _ H. apply assoc_In in H. cbn [In] in H. destruct H as [H|[H|[H|[]]]]; injection H as <- <-; eauto.
Qed.
