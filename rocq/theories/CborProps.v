(** Theorems C114: what authenticators write is understood. *)
From Coq Require Import Lia.
From Verif Require Import Base XfccModel PasskeyModel PasskeySpec PasskeyProofs SignModel SignSpec PasskeyHttpModel PasskeyHttpSpec
  ScriptModel ScriptSpec CborModel CborSpec CborProofs SignProps PasskeyHttpProps ScriptProps.
From Verif Require JwksModel TokenModel HttpModel HttpSpec.
Open Scope list_scope.
Open Scope Z_scope.

(** ** The reader *)

(** The reader takes exactly the items of RFC 8949 that have definite lengths. *)
Theorem C114_items : forall s v rest, read_cbor s = Some (v, rest) <-> exists t, s = t ++ rest /\ cbor_text t v.
Proof. exact cbor_spec. Qed.
Print Assumptions C114_items.

(** The first item is split off without loss, and it is an item. *)
Theorem C114_first : splits first_item /\ forall s t rest, first_item s = Some (t, rest) <-> s = t ++ rest /\ exists v, cbor_text t v.
Proof. split; [intros s k r H; apply first_spec in H as [H _]; exact H|exact first_spec]. Qed.
Print Assumptions C114_first.

(** Every attestation object, of any format and with any statement, gives its authenticator
    data; every authenticator data gives the relying party, the key and its identifier as
    they are, with any extensions after them. *)
Theorem C114_attestation : forall att auth rp creds more,
  attestation_text att auth -> auth_data_text auth rp creds more -> (forall a i k, creds = Some (a, i, k) -> exists v, cbor_text k v) ->
  attested_data att = Some auth /\
  exists ad, parse_auth_data first_item auth = Ok ad /\ ad_rp ad = rp /\ ad_up ad = true /\ ad_uv ad = true /\ ad_creds ad = creds.
Proof. intros att auth rp creds more A T W. split; [apply attested_spec; exact A|]. apply (auth_data_spec auth rp creds more T W). Qed.
Print Assumptions C114_attestation.

(** Every key of RFC 9053 for one of the two algorithms, with labels in any order and with
    other labels, is the key that signatures are checked with. *)
Theorem C114_keys : forall lib key adata cdata sig, sl_decode lib = key_labels ->
  let hash := sl_sha lib (adata ++ sl_sha lib cdata) in
  (forall x y, es256_key key x y -> sl_on_curve lib (big_endian x) (big_endian y) = true ->
     verify_signature lib key adata cdata sig = sl_ecdsa lib (big_endian x) (big_endian y) hash sig) /\
  (forall n e, rs256_key key n e -> verify_signature lib key adata cdata sig = sl_rsa lib (big_endian n) e hash sig).
Proof.
  intros lib key adata cdata sig D hash. split.
  - intros x y (l & T & A1 & A3 & Am1 & Am2 & Am3) C. unfold verify_signature, signed_bytes. cbv zeta. rewrite D, (key_labels_spec _ _ T).
    apply label_at in A1, A3, Am1, Am2, Am3. unfold int_field, bytes_field. rewrite A1, A3, Am1, Am2, Am3. cbn [item_of].
    change (item_of (cint 2)) with (CInt 2). change (item_of (cint (-7))) with (CInt (-7)). change (item_of (cint 1)) with (CInt 1). cbv iota.
    change (negb (-7 =? -7)) with false. change (negb (1 =? 1)) with false. cbv iota.
    change (set_bytes x) with (big_endian x). change (set_bytes y) with (big_endian y). rewrite C. reflexivity.
  - intros n e (l & T & A1 & A3 & Am1 & Am2 & B). unfold verify_signature, signed_bytes. cbv zeta. rewrite D, (key_labels_spec _ _ T).
    apply label_at in A1, A3, Am1, Am2. unfold int_field, bytes_field. rewrite A1, A3, Am1, Am2. rewrite (item_of_cint e B). cbn [item_of].
    change (item_of (cint 3)) with (CInt 3). change (item_of (cint (-257))) with (CInt (-257)). cbv iota. reflexivity.
Qed.
Print Assumptions C114_keys.

(** ** From the authenticator to the session *)

(** A site whose passkey code reads JSON and CBOR as above and checks signatures with the
    library [lib]. *)
Definition reads_authenticators (lib : slib) (e : henv) : Prop :=
  e_client_data (h_env e) = parse_client_data /\ e_attestation (h_env e) = attested_data /\ e_cbor (h_env e) = first_item /\
  e_verify (h_env e) = verify_signature lib /\ sl_decode lib = key_labels.

(** A first key: an authenticator that makes a key for this host, of any kind, and says so
    in any format, registers it for the user, who is logged in. *)
Theorem C114_first_key : forall lib e jwt base j url token before earlier c m uid ch t between more att auth aaguid id key v ext transports,
  reads_authenticators lib e ->
  htrace e before = earlier ++ AttOptions c uid ch t :: between -> Forall (leaves_alone (h_env e) ch t) between -> q_now base <= t + 300 ->
  distinct_handles e before -> assoc [] (hs_nonces (hrun e before)) = None ->
  token_text token -> jwt token = Some j -> TokenModel.accept_url (h_tokens e) (q_now base) (q_sid base) j = Some url ->
  q_other base = Some c -> u_email c = Some m -> HttpSpec.allowed (e_acl (h_env e)) m -> hkeys e before m = [] ->
  others more -> attestation_text att auth -> cbor_text key v ->
  auth_data_text auth (e_hash (h_env e) (e_hostname (h_env e) (q_host base))) (Some (aaguid, id, key)) ext ->
  let cdata := browser_data (lit "webauthn.create") ch (lit "https://" ++ q_host base) more in
  hanswer e before (HCallback (read_message jwt base (send_create (Some token) cdata att transports))) =
    ASession c {| k_id := id; k_pub := key; k_rp := e_hash (h_env e) (e_hostname (h_env e) (q_host base)) |} (h_url_host e url) url.
Proof.
  intros lib e jwt base j url token before earlier c m uid ch t between more att auth aaguid id key v ext transports (E1 & E2 & E3 & E4 & E5) Ht Fb Hn Hd Hz Tt Ej Ea Eo Em Al Nk Om At Tk Ad cdata.
  destruct (C114_attestation att auth _ _ ext At Ad) as (Ar & ad & Ep & Rp & Up & Uv & Cr).
  { intros a i k Q. injection Q as <- <- <-. exists v. exact Tk. }
  rewrite <- E2 in Ar. rewrite <- E3 in Ep.
  apply (C113_first_key e jwt base j url token before earlier c m uid ch t between
    {| k_id := id; k_pub := key; k_rp := e_hash (h_env e) (e_hostname (h_env e) (q_host base)) |} more auth ad aaguid att transports); auto.
Qed.
Print Assumptions C114_first_key.

(** A login: the user has a key for ES256 or RS256 and the authenticator signs what the
    standard says with it.  Then the user is logged in, or has to confirm their identity
    because it is too old. *)
Theorem C114_sign_in : forall lib e jwt base j url token before earlier ch t between m h k origin more adata ext sig handle login,
  reads_authenticators lib e ->
  htrace e before = earlier ++ AssOptions ch t :: between -> Forall (leaves_alone (h_env e) ch t) between -> q_now base <= t + 300 ->
  distinct_handles e before -> assoc [] (hs_nonces (hrun e before)) = None ->
  token_text token -> jwt token = Some j -> TokenModel.accept_url (h_tokens e) (q_now base) (q_sid base) j = Some url ->
  In k (hkeys e before m) -> NoDup (map k_id (hkeys e before m)) -> assoc m (p_subjects (hs_keys (hrun e before))) = Some (JwksModel.b64u h) ->
  (h <> [] /\ handle = h \/ handle = [] /\ login = m /\ m <> []) -> others more ->
  auth_data_text adata (k_rp k) None ext ->
  let cdata := browser_data (lit "webauthn.get") ch origin more in
  let hash := sl_sha lib (adata ++ sl_sha lib cdata) in
  ((exists x y, es256_key (k_pub k) x y /\ sl_on_curve lib (big_endian x) (big_endian y) = true /\ sl_ecdsa lib (big_endian x) (big_endian y) hash sig = true) \/
   (exists n ex, rs256_key (k_pub k) n ex /\ sl_rsa lib (big_endian n) ex hash sig = true)) ->
  let answer := hanswer e before (HCallback (read_message jwt base (send_get token (JwksModel.b64u (k_id k)) cdata adata sig handle login))) in
  exists c, u_email c = Some m /\ (answer = ASession c k (h_url_host e url) url \/ (answer = ARefresh /\ too_old (h_env e) c (q_now base))).
Proof.
  intros lib e jwt base j url token before earlier ch t between m h k origin more adata ext sig handle login (E1 & E2 & E3 & E4 & E5) Ht Fb Hn Hd Hz Tt Ej Ea Ik Nk Es Hh Om Ad cdata hash Sg answer.
  destruct (auth_data_spec adata (k_rp k) None ext Ad) as (ad & Ep & Rp & Up & Uv & _); [discriminate|].
  apply (C113_sign_in e jwt base j url token before earlier ch t between m h k origin more adata ad sig handle login); auto; [rewrite E3; exact Ep|].
  rewrite E4. destruct (C114_keys lib (k_pub k) adata cdata sig E5) as [K1 K2].
  destruct Sg as [(x & y & X & C & V)|(n & ex & X & V)]; fold cdata; [rewrite (K1 x y X C)|rewrite (K2 n ex X)]; exact V.
Qed.
Print Assumptions C114_sign_in.

(** ** Examples *)

(** A key as authenticators write it: {1: 2, 3: -7, -1: 1, -2: x, -3: y}. *)
Definition x14_key : str := ["165"; "001"; "002"; "003"; "038"; "032"; "001"; "033"; "065"; "005"; "034"; "066"; "001"; "002"]%char.
Definition x14_list : list (cbor * cbor) := [(cint 1, cint 2); (cint 3, cint (-7)); (cint (-1), cint 1); (cint (-2), CByt ["005"%char]); (cint (-3), CByt ["001"; "002"]%char)].
Definition x14_auth (id : str) : str := xh_hash (lit "sso") ++ ["069"%char] ++ ["000"; "000"; "000"; "001"]%char ++ repeat "000"%char 16 ++ ["000"; ascii_of_nat (List.length id)]%char ++ id ++ x14_key.
(** {"fmt": "none", "attStmt": {}, "authData": ...}, for data of fewer than 256 bytes *)
Definition x14_att (auth : str) : str :=
  "163"%char :: ("099"%char :: lit "fmt") ++ ("100"%char :: lit "none") ++ ("103"%char :: lit "attStmt") ++ ["160"%char] ++
  ("104"%char :: lit "authData") ++ ["088"%char; ascii_of_nat (List.length auth)] ++ auth.

Example C114_nontrivial :
  read_cbor x14_key = Some (CMap x14_list, []) /\ attested_data (x14_att (x14_auth (lit "k1"))) = Some (x14_auth (lit "k1")) /\
  key_labels x14_key = Some [(1, CInt 2); (3, CInt (-7)); (-1, CInt 1); (-2, CBytes ["005"%char]); (-3, CBytes ["001"; "002"]%char)] /\
  read_cbor ["031"%char] = None /\ read_cbor ["066"; "001"]%char = None /\ read_cbor ["248"; "010"]%char = None /\
  read_cbor ["249"; "060"; "000"; "001"]%char = Some (CFloat 2 15360, ["001"%char]) /\ read_cbor ["193"; "026"; "000"; "001"; "000"; "000"]%char = Some (CTag 1 (CUint 65536), []).
Proof. vm_compute. repeat split. Qed.
Example C114_nontrivial_texts :
  attestation_text (x14_att (x14_auth (lit "k1"))) (x14_auth (lit "k1")) /\
  auth_data_text (x14_auth (lit "k1")) (xh_hash (lit "sso")) (Some (repeat "000"%char 16, lit "k1", x14_key)) [] /\ es256_key x14_key ["005"%char] ["001"; "002"]%char.
Proof.
  split; [|split].
  - exists [(CTxt (lit "fmt"), CTxt (lit "none")); (CTxt (lit "attStmt"), CMap []); (CTxt (lit "authData"), CByt (x14_auth (lit "k1")))], (lit "none").
    split; [apply whole_spec; vm_compute; reflexivity|]. split.
    + eexists [], _. split; [reflexivity|constructor].
    + eexists [_; _], _. split; [reflexivity|]. repeat constructor; discriminate.
  - exists "069"%char, ["000"; "000"; "000"; "001"]%char. split; [reflexivity|]. split; [reflexivity|]. split; [reflexivity|]. split; [reflexivity|].
    split; [reflexivity|]. split; [reflexivity|]. split; [vm_compute; lia|]. exists ["000"; "002"]%char. repeat split.
  - exists x14_list. split; [apply whole_spec; vm_compute; reflexivity|].
    split; [|split; [|split; [|split]]].
    + eexists [], _. split; [reflexivity|constructor].
    + eexists [_], _. split; [reflexivity|]. repeat constructor; discriminate.
    + eexists [_; _], _. split; [reflexivity|]. repeat constructor; discriminate.
    + eexists [_; _; _], _. split; [reflexivity|]. repeat constructor; discriminate.
    + eexists [_; _; _; _], _. split; [reflexivity|]. repeat constructor; discriminate.
Qed.

Definition x14_lib : slib :=
  {| sl_decode := key_labels; sl_sha := fun s => s; sl_on_curve := fun x y => (x =? 5)%N; sl_ecdsa := fun x y h sig => str_eqb sig (lit "signed"); sl_rsa := fun _ _ _ _ => false |}.
Definition x14 : henv :=
  {| h_env := {| e_client_data := parse_client_data; e_attestation := attested_data; e_cbor := first_item;
                 e_verify := verify_signature x14_lib; e_hash := xh_hash; e_hostname := HttpModel.host_from_req; e_acl := Some [lit "@x"]; e_refresh := 0 |};
     h_endpoint := lit "sso"; h_tokens := xh_tokens; h_url_host := h_url_host xh |}.
Definition x14_registered : list hop :=
  x13_before ++ [HCallback (x13_read 120 [] (send_create (Some (lit "eyJ.a_b-c")) (x13_create (lit "c1")) (x14_att (x14_auth (lit "k1"))) []))].
Definition x14_asked : list hop := x14_registered ++ [HCallback (x13_read 130 (lit "c3") (ask_get (lit "eyJ.a_b-c") []))].
Example C114_nontrivial_history :
  reads_authenticators x14_lib x14 /\
  hkeys x14 x14_registered (lit "bob@x") = [{| k_id := lit "k1"; k_pub := x14_key; k_rp := xh_hash (lit "sso") |}] /\
  hanswer x14 x14_asked (HCallback (x13_read 140 [] (send_get (lit "eyJ.a_b-c") (JwksModel.b64u (lit "k1")) (x13_get (lit "c3"))
    (xh_hash (lit "sso") ++ ["005"%char] ++ ["000"; "000"; "000"; "002"]%char) (lit "signed") [] (lit "bob@x")))) =
    ASession xh_bob {| k_id := lit "k1"; k_pub := x14_key; k_rp := xh_hash (lit "sso") |} (lit "sso") (lit "https://sso/keys").
Proof. split; [repeat split|]. vm_compute. split; reflexivity. Qed.
