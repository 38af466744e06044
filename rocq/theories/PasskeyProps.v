(** Theorems C39-C42 and C57-C59: passkeys. *)
From Verif Require Import Base PasskeyModel PasskeySpec LoginProofs LoginProofs2 PasskeyProofs PasskeyProofs2 PasskeyProofs3.
Open Scope Z_scope.

(** ** A concrete environment *)
Definition ex_hash (s : str) : str := firstn 32 (s ++ repeat "0"%char 32).
Definition ex_decode (s : str) : option client_data :=
  if str_eqb s (lit "create1") then Some {| cd_type := lit "webauthn.create"; cd_challenge := lit "ch1"; cd_origin := lit "https://sso" |}
  else if str_eqb s (lit "create2") then Some {| cd_type := lit "webauthn.create"; cd_challenge := lit "ch2"; cd_origin := lit "https://sso" |}
  else if str_eqb s (lit "get3") then Some {| cd_type := lit "webauthn.get"; cd_challenge := lit "ch3"; cd_origin := lit "https://sso" |}
  else if str_eqb s (lit "evil3") then Some {| cd_type := lit "webauthn.get"; cd_challenge := lit "ch3"; cd_origin := lit "https://evil" |}
  else None.
Definition ex_env : env :=
  {| e_client_data := ex_decode; e_attestation := fun s => Some s; e_cbor := fun s => Some (s, []);
     e_verify := fun pub _ _ sig => str_eqb pub sig; e_hash := ex_hash; e_hostname := fun h => h; e_acl := None; e_refresh := 0 |}.
Definition ex_bob : pclaims := {| u_email := Some (lit "bob@x"); u_sub := lit "1"; u_sid := lit "s1"; u_iat := Some 90; u_rest := 0 |}.
Definition ex_eve : pclaims := {| u_email := Some (lit "eve@x"); u_sub := lit "2"; u_sid := lit "s2"; u_iat := Some 90; u_rest := 0 |}.
(** user present and verified, with credentials: flags 1 + 4 + 64 *)
Definition ex_att (id pub : str) : str :=
  layout (ex_hash (lit "sso")) (ascii_of_nat 69) [zero; zero; zero; zero] (Some (repeat zero 16, [zero; ascii_of_nat (List.length id)], id, pub)) [].
Definition ex_adata : str := layout (ex_hash (lit "sso")) (ascii_of_nat 5) [zero; zero; zero; one] None [].
Definition ex_bob_key : ukey := {| k_id := lit "kb"; k_pub := lit "pb"; k_rp := ex_hash (lit "sso") |}.
Definition ex_history : list pop :=
  [Vacuum 100; AttOptions ex_bob (lit "h1") (lit "ch1") 100; Vacuum 110; AddKey ex_bob (lit "sso") (lit "create1") (ex_att (lit "kb") (lit "pb")) false;
   Vacuum 120; AttOptions ex_eve (lit "h2") (lit "ch2") 120; Vacuum 130; AddKey ex_eve (lit "sso") (lit "create2") (ex_att (lit "ke") (lit "pe")) false;
   AssOptions (lit "ch3") 140].
Definition ex_login (cdata : str) : pop :=
  Check {| a_id := Some (lit "kb"); a_cdata := cdata; a_adata := ex_adata; a_sig := lit "pb"; a_handle := lit "h1"; a_login := [] |} None 150.
Lemma ex_uids : NoDup (uids ex_history).
Proof. cbn. constructor; [intros [H|[]]; discriminate H|]. constructor; [intros []|constructor]. Qed.

(** ** C39 *)

(** A login gives the e-mail address under which the key was registered, and the key
    was not deleted since; it needs a signature made with that key. *)
Theorem C39_login_of_the_registered_user : forall e ops a token now c k,
  NoDup (uids ops) -> panswer e ops (Check a token now) = PLogin c k ->
  exists m before between c0 host cdata att allow,
    ops = before ++ AddKey c0 host cdata att allow :: between /\ panswer e before (AddKey c0 host cdata att allow) = PAdded c0 k /\
    u_email c0 = Some m /\ u_email c = Some m /\
    Forall (fun o => ~ deletes e m (k_id k) o) between /\
    a_id a = Some (k_id k) /\ e_verify e (k_pub k) (a_adata a) (a_cdata a) (a_sig a) = true /\
    (exists ad, parse_auth_data (e_cbor e) (a_adata a) = Ok ad /\ ad_up ad = true /\ ad_uv ad = true /\ ad_rp ad = k_rp k).
Proof.
  intros e ops a token now c k N H. apply login_spec in H as (m & Em & Hin & Hid & Hv & Ha & _); [|exact N].
  apply keys_origin in Hin as (before & between & c0 & host & cdata & att & allow & E & H1 & H2 & H3); [|exact N].
  exists m, before, between, c0, host, cdata, att, allow. repeat split; auto.
Qed.
Print Assumptions C39_login_of_the_registered_user.

(** The keys of every user after any history, exactly: they change only by registrations
    and deletions of that user. *)
Theorem C39_keys_evolve : forall e ops o m,
  NoDup (uids ops) -> keys_of (pafter e (ops ++ [o])) m = keys_change e m (keys_of (pafter e ops) m) o (panswer e ops o).
Proof. exact keys_history. Qed.
Print Assumptions C39_keys_evolve.

Theorem C39_other_users_untouched : forall e ops o m,
  NoDup (uids ops) -> acts_for o <> Some m -> keys_of (pafter e (ops ++ [o])) m = keys_of (pafter e ops) m.
Proof.
  intros e ops o m N A. rewrite keys_history by exact N. unfold keys_change.
  destruct o as [now|c uid ch now|c host cdata att allow|ch now|a token now|c sk id]; try reflexivity; cbn [acts_for] in A.
  - destruct (panswer e ops _); try reflexivity. destruct (opt_eqb str_eqb (u_email c) (Some m)) eqn:E; [|reflexivity]. apply opt_eqb_str in E. contradiction.
  - destruct (panswer e ops _); try reflexivity. destruct (str_eqb _ m) eqn:E; [|reflexivity]. apply str_eqb_spec in E. exfalso. apply A. congruence.
Qed.
Print Assumptions C39_other_users_untouched.

Example C39_witness : panswer ex_env ex_history (ex_login (lit "get3")) = PLogin ex_bob ex_bob_key.
Proof. vm_compute. reflexivity. Qed.
Example C39_witness_deleted : panswer ex_env (ex_history ++ [DeleteKey ex_bob [] (lit "kb")]) (ex_login (lit "get3")) = PRefused.
Proof. vm_compute. reflexivity. Qed.
Example C39_witness_keys : map k_id (keys_of (pafter ex_env ex_history) (lit "bob@x")) = [lit "kb"] /\ map k_id (keys_of (pafter ex_env ex_history) (lit "eve@x")) = [lit "ke"].
Proof. vm_compute. auto. Qed.

(** ** C40 *)
Theorem C40_challenge_once : forall e ops ch,
  (uses e ch (poutputs e ops) <= List.length (filter (fun x => str_eqb x ch) (challenges_drawn ops)))%nat /\
  (NoDup (challenges_drawn ops) -> uses e ch (poutputs e ops) <= 1)%nat.
Proof.
  intros e ops ch. pose proof (uses_bound e ops ch). split; [lia|]. intros N. pose proof (NoDup_count ch _ N). lia.
Qed.
Print Assumptions C40_challenge_once.

(** A registration is accepted only from the session that asked for the challenge, and
    the request's reading of the clock [v] is at most five minutes later. *)
Theorem C40_registration_session_and_time : forall e before0 v inside t0 c host cdata att allow k,
  pclock t0 (before0 ++ Vacuum v :: inside) ->
  panswer e (before0 ++ Vacuum v :: inside) (AddKey c host cdata att allow) = PAdded c k ->
  exists cd before between uid t,
    e_client_data e cdata = Some cd /\ before0 ++ Vacuum v :: inside = before ++ AttOptions c uid (cd_challenge cd) t :: between /\ v <= t + 300.
Proof.
  intros e before0 v inside t0 c host cdata att allow k C H. apply added_challenge in H as (cd & before & between & uid & t & H1 & _ & _ & _ & H2 & H3).
  exists cd, before, between, uid, t. repeat split; auto. eapply (age_bound _ _ _ _ _ _ _ _ C H2); [reflexivity|discriminate|exact H3].
Qed.
Print Assumptions C40_registration_session_and_time.

Theorem C40_login_time : forall e before0 v inside t0 a token now c k,
  pclock t0 (before0 ++ Vacuum v :: inside) ->
  panswer e (before0 ++ Vacuum v :: inside) (Check a token now) = PLogin c k ->
  exists cd before between o t,
    e_client_data e (a_cdata a) = Some cd /\ before0 ++ Vacuum v :: inside = before ++ o :: between /\
    (o = AssOptions (cd_challenge cd) t \/ exists cl uid, o = AttOptions cl uid (cd_challenge cd) t) /\ v <= t + 300.
Proof.
  intros e before0 v inside t0 a token now c k C H. apply login_challenge in H as (cd & before & between & o & t & H1 & _ & H2 & H3 & H4).
  exists cd, before, between, o, t. repeat split; auto.
  eapply (age_bound _ _ _ _ _ _ _ _ C H2); [destruct H3 as [->|(cl & uid & ->)]; reflexivity|destruct H3 as [->|(cl & uid & ->)]; discriminate|exact H4].
Qed.
Print Assumptions C40_login_time.
Example C40_witness :
  uses ex_env (lit "ch3") (poutputs ex_env (ex_history ++ [ex_login (lit "get3"); ex_login (lit "get3")])) = 1%nat /\
  panswer ex_env (ex_history ++ [Vacuum 440]) (ex_login (lit "get3")) = PLogin ex_bob ex_bob_key /\
  panswer ex_env (ex_history ++ [Vacuum 441]) (ex_login (lit "get3")) = PRefused.
Proof. vm_compute. auto. Qed.
Example C40_clock_witness : pclock 0 (ex_history ++ Vacuum 440 :: []).
Proof. cbn. lia. Qed.
Example C40_session_witness :
  panswer ex_env [AttOptions ex_bob (lit "h1") (lit "ch1") 100] (AddKey ex_eve (lit "sso") (lit "create1") (ex_att (lit "kb") (lit "pb")) false) = PRefused.
Proof. vm_compute. reflexivity. Qed.

(** ** C41 *)
Theorem C41_own_origin_refuted :
  ~ (forall e ops a token now c k cd before between c0 host cdata att allow,
       NoDup (uids ops) -> panswer e ops (Check a token now) = PLogin c k ->
       ops = before ++ AddKey c0 host cdata att allow :: between -> panswer e before (AddKey c0 host cdata att allow) = PAdded c0 k ->
       e_client_data e (a_cdata a) = Some cd -> cd_origin cd = lit "https://" ++ host).
Proof.
  intros H. specialize (H ex_env ex_history
    {| a_id := Some (lit "kb"); a_cdata := lit "evil3"; a_adata := ex_adata; a_sig := lit "pb"; a_handle := lit "h1"; a_login := [] |} None 150 ex_bob ex_bob_key
    {| cd_type := lit "webauthn.get"; cd_challenge := lit "ch3"; cd_origin := lit "https://evil" |}
    (firstn 3 ex_history) (skipn 4 ex_history) ex_bob (lit "sso") (lit "create1") (ex_att (lit "kb") (lit "pb")) false ex_uids).
  assert (A1 : panswer ex_env ex_history (ex_login (lit "evil3")) = PLogin ex_bob ex_bob_key) by (vm_compute; reflexivity).
  assert (A2 : panswer ex_env (firstn 3 ex_history) (AddKey ex_bob (lit "sso") (lit "create1") (ex_att (lit "kb") (lit "pb")) false) = PAdded ex_bob ex_bob_key) by (vm_compute; reflexivity).
  specialize (H A1 eq_refl A2 eq_refl). vm_compute in H. discriminate H.
Qed.
Print Assumptions C41_own_origin_refuted.

(** What holds: a registration is for the proxy's own origin, and a login carries the
    relying party hash that was checked against the host name at registration. *)
Theorem C41_relying_party_partial : forall e ops a token now c k,
  NoDup (uids ops) -> panswer e ops (Check a token now) = PLogin c k ->
  exists before between c0 host cdata att allow cd ad,
    ops = before ++ AddKey c0 host cdata att allow :: between /\ panswer e before (AddKey c0 host cdata att allow) = PAdded c0 k /\
    e_client_data e cdata = Some cd /\ cd_origin cd = lit "https://" ++ host /\
    parse_auth_data (e_cbor e) (a_adata a) = Ok ad /\ ad_rp ad = e_hash e (e_hostname e host).
Proof.
  intros e ops a token now c k N H. apply C39_login_of_the_registered_user in H as (m & before & between & c0 & host & cdata & att & allow & E & H1 & _ & _ & _ & _ & _ & ad & P & _ & _ & R); [|exact N].
  pose proof H1 as H1'. apply added_challenge in H1' as (cd & ? & ? & ? & ? & Ecd & Eo & _ & Erp & _).
  exists before, between, c0, host, cdata, att, allow, cd, ad. repeat split; auto. congruence.
Qed.
Print Assumptions C41_relying_party_partial.

(** ** C42 *)
Theorem C42_never_panics : forall cbor raw, parse_auth_data cbor raw <> Panic /\ parse_auth_data cbor raw <> OutOfFuel.
Proof. exact parse_no_panic. Qed.
Print Assumptions C42_never_panics.

Theorem C42_round_trip : forall cbor raw ad trailing, encodes cbor raw ad trailing -> parse_auth_data cbor raw = Ok ad.
Proof. exact parse_layout. Qed.
Print Assumptions C42_round_trip.

(** Only data in that layout is accepted, but anything may follow it, and the two
    reserved flag bits are ignored. *)
Theorem C42_only_the_format_partial : forall cbor raw ad, splits cbor -> parse_auth_data cbor raw = Ok ad -> exists trailing, encodes cbor raw ad trailing.
Proof. exact parse_inv. Qed.
Print Assumptions C42_only_the_format_partial.

(** Bytes after the data are only allowed for extensions, but they are accepted without. *)
Theorem C42_no_trailing_bytes_refuted :
  ~ (forall cbor raw ad, splits cbor -> parse_auth_data cbor raw = Ok ad -> ad_ed ad = false -> encodes cbor raw ad []).
Proof.
  intros H.
  assert (S : splits (fun s => Some (s, []))) by (intros s k r [= -> <-]; rewrite app_nil_r; reflexivity).
  specialize (H _ (ex_adata ++ lit "junk") {| ad_rp := ex_hash (lit "sso"); ad_up := true; ad_uv := true; ad_be := false; ad_bs := false; ad_at := false; ad_ed := false; ad_count := 1; ad_creds := None |} S).
  assert (A : parse_auth_data (fun s => Some (s, [])) (ex_adata ++ lit "junk") = Ok {| ad_rp := ex_hash (lit "sso"); ad_up := true; ad_uv := true; ad_be := false; ad_bs := false; ad_at := false; ad_ed := false; ad_count := 1; ad_creds := None |}) by (vm_compute; reflexivity).
  destruct (H A eq_refl) as (flags & count & creds & E & L1 & L2 & _ & _ & _ & _ & _ & _ & _ & C).
  destruct creds as [[[[? ?] ?] ?]|]; [destruct C as [C _]; discriminate|].
  apply (f_equal (@List.length ascii)) in E. unfold layout in E. rewrite !app_length in E. rewrite L1, L2 in E. vm_compute in E. discriminate E.
Qed.
Print Assumptions C42_no_trailing_bytes_refuted.
Example C42_witness : exists ad, encodes (e_cbor ex_env) (ex_att (lit "kb") (lit "pb")) ad [] /\ ad_creds ad = Some (repeat zero 16, lit "kb", lit "pb").
Proof.
  exists {| ad_rp := ex_hash (lit "sso"); ad_up := true; ad_uv := true; ad_be := false; ad_bs := false; ad_at := true; ad_ed := false; ad_count := 0; ad_creds := Some (repeat zero 16, lit "kb", lit "pb") |}.
  split; [|reflexivity]. exists (ascii_of_nat 69), [zero; zero; zero; zero], (Some (repeat zero 16, [zero; ascii_of_nat 2], lit "kb", lit "pb")).
  split; [vm_compute; reflexivity|]. vm_compute. repeat split; auto. repeat constructor.
Qed.

(** ** C57: a credential belongs to one user *)
Definition ex_stolen : list pop :=
  [AttOptions ex_bob (lit "h1") (lit "ch1") 100; AddKey ex_bob (lit "sso") (lit "create1") (ex_att (lit "kb") (lit "pb")) false;
   AttOptions ex_eve (lit "h2") (lit "ch2") 120; AddKey ex_eve (lit "sso") (lit "create2") (ex_att (lit "kb") (lit "pb")) false;
   AssOptions (lit "ch3") 140].
Theorem C57_credential_of_one_user_refuted :
  ~ (forall e ops m m' k k', NoDup (uids ops) -> In k (keys_of (pafter e ops) m) -> In k' (keys_of (pafter e ops) m') -> k_id k = k_id k' -> m = m').
Proof.
  intros H. specialize (H ex_env ex_stolen (lit "bob@x") (lit "eve@x") ex_bob_key ex_bob_key).
  assert (N : NoDup (uids ex_stolen)) by (cbn; constructor; [intros [E|[]]; discriminate E|]; constructor; [intros []|constructor]).
  specialize (H N). vm_compute in H. discriminate (H (or_introl eq_refl) (or_introl eq_refl) eq_refl).
Qed.
Print Assumptions C57_credential_of_one_user_refuted.
(** The answer to the same challenge by the same key then gives the session of the user
    that the unsigned handle names. *)
Theorem C57_handle_selects_the_user_refuted :
  ~ (forall e ops a a' token now c k c' k', NoDup (uids ops) ->
       a_cdata a = a_cdata a' -> a_adata a = a_adata a' -> a_sig a = a_sig a' -> a_id a = a_id a' ->
       panswer e ops (Check a token now) = PLogin c k -> panswer e ops (Check a' token now) = PLogin c' k' -> u_email c = u_email c').
Proof.
  intros H. specialize (H ex_env ex_stolen
    {| a_id := Some (lit "kb"); a_cdata := lit "get3"; a_adata := ex_adata; a_sig := lit "pb"; a_handle := lit "h1"; a_login := [] |}
    {| a_id := Some (lit "kb"); a_cdata := lit "get3"; a_adata := ex_adata; a_sig := lit "pb"; a_handle := lit "h2"; a_login := [] |} None 150 ex_bob ex_bob_key ex_eve ex_bob_key).
  assert (N : NoDup (uids ex_stolen)) by (cbn; constructor; [intros [E|[]]; discriminate E|]; constructor; [intros []|constructor]).
  specialize (H N eq_refl eq_refl eq_refl eq_refl). vm_compute in H. discriminate (H eq_refl eq_refl).
Qed.
Print Assumptions C57_handle_selects_the_user_refuted.
(** What holds: if no two users have a key with the same identifier, the identifier and
    signature determine the user. *)
Theorem C57_distinct_credentials_partial : forall e ops a a' token token' now now' c k c' k',
  NoDup (uids ops) ->
  (forall m m' k k', In k (keys_of (pafter e ops) m) -> In k' (keys_of (pafter e ops) m') -> k_id k = k_id k' -> m = m') ->
  a_id a = a_id a' ->
  panswer e ops (Check a token now) = PLogin c k -> panswer e ops (Check a' token' now') = PLogin c' k' -> u_email c = u_email c'.
Proof.
  intros e ops a a' token token' now now' c k c' k' N U Ei H1 H2.
  apply login_spec in H1 as (m & E1 & I1 & J1 & _); [|exact N]. apply login_spec in H2 as (m' & E2 & I2 & J2 & _); [|exact N].
  rewrite E1, E2. f_equal. apply (U m m' k k' I1 I2). congruence.
Qed.
Print Assumptions C57_distinct_credentials_partial.
Example C57_witness_distinct :
  forall m m' k k', In k (keys_of (pafter ex_env ex_history) m) -> In k' (keys_of (pafter ex_env ex_history) m') -> k_id k = k_id k' -> m = m'.
Proof.
  assert (K : forall m k, In k (keys_of (pafter ex_env ex_history) m) -> (m = lit "bob@x" /\ k_id k = lit "kb") \/ (m = lit "eve@x" /\ k_id k = lit "ke")).
  { intros m k. unfold keys_of.
    destruct (str_eq_dec m (lit "bob@x")) as [->|N1]; [vm_compute; intros [<-|[]]; auto|].
    destruct (str_eq_dec m (lit "eve@x")) as [->|N2]; [vm_compute; intros [<-|[]]; auto|].
    assert (assoc m (p_subjects (pafter ex_env ex_history)) = None) as ->; [|intros []].
    apply assoc_None. change (~ In m [lit "eve@x"; lit "bob@x"]). intros [E|[E|[]]]; congruence. }
  intros m m' k k' I1 I2 E. apply K in I1 as [[-> I1]|[-> I1]], I2 as [[-> I2]|[-> I2]]; try reflexivity; rewrite I1, I2 in E; discriminate E.
Qed.

(** ** C58: the refresh interval *)
Theorem C58_identity_confirmed_in_interval : forall e ops a token now c k,
  NoDup (uids ops) -> 0 < e_refresh e -> panswer e ops (Check a token now) = PLogin c k ->
  exists t, u_iat c = Some t /\ now - t <= e_refresh e.
Proof.
  intros e ops a token now c k N P H. apply login_spec in H as (m & _ & _ & _ & _ & _ & R); [|exact N]. exact (R P).
Qed.
Print Assumptions C58_identity_confirmed_in_interval.
Definition ex_env60 : env :=
  {| e_client_data := ex_decode; e_attestation := fun s => Some s; e_cbor := fun s => Some (s, []);
     e_verify := fun pub _ _ sig => str_eqb pub sig; e_hash := ex_hash; e_hostname := fun h => h; e_acl := None; e_refresh := 60 |}.
Example C58_witness :
  panswer ex_env60 ex_history (ex_login (lit "get3")) = PLogin ex_bob ex_bob_key /\
  panswer ex_env60 ex_history (Check {| a_id := Some (lit "kb"); a_cdata := lit "get3"; a_adata := ex_adata; a_sig := lit "pb"; a_handle := lit "h1"; a_login := [] |} None 151) = PRefresh.
Proof. vm_compute. auto. Qed.

(** ** C59: only a passkey session adds keys to an account that has keys *)
Theorem C59_first_key_only : forall e ops c host cdata att k,
  NoDup (uids ops) -> panswer e ops (AddKey c host cdata att false) = PAdded c k ->
  exists m, u_email c = Some m /\ keys_of (pafter e ops) m = [] /\ subject_allowed (e_acl e) m = true.
Proof.
  intros e ops c host cdata att k N. pose proof (pafter_Inv e ops N) as I. unfold panswer. cbn [pstep negb andb].
  destruct (subject_allowed (e_acl e) _) eqn:Sa; cbn [negb]; [|discriminate].
  destruct (attestation_spec e c host cdata att false (pafter e ops)) as [[E _]|(k1 & E & A)]; [congruence|]. intros _.
  destruct A as (m & cd & uid & created & raw & ad & aaguid & Em & _ & _ & _ & _ & _ & _ & _ & _ & _ & _ & _ & _ & [(h & u & Es & Eh & Al & _)|(Es & _)]);
    exists m; rewrite Em in Sa; repeat split; auto; unfold keys_of.
  - rewrite Es, Eh. destruct Al as [|Al]; [discriminate|exact Al].
  - destruct Es as [-> |(h & -> & ->)]; reflexivity.
Qed.
Print Assumptions C59_first_key_only.
Example C59_witness :
  panswer ex_env [AttOptions ex_bob (lit "h1") (lit "ch1") 100] (AddKey ex_bob (lit "sso") (lit "create1") (ex_att (lit "kb") (lit "pb")) false) = PAdded ex_bob ex_bob_key /\
  panswer ex_env (ex_history ++ [AttOptions ex_bob (lit "h3") (lit "ch1") 145]) (AddKey ex_bob (lit "sso") (lit "create1") (ex_att (lit "kx") (lit "px")) false) = PRefused /\
  panswer ex_env (ex_history ++ [AttOptions ex_bob (lit "h3") (lit "ch1") 145]) (AddKey ex_bob (lit "sso") (lit "create1") (ex_att (lit "kx") (lit "px")) true)
    = PAdded ex_bob {| k_id := lit "kx"; k_pub := lit "px"; k_rp := ex_hash (lit "sso") |}.
Proof. vm_compute. auto. Qed.
