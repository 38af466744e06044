(** C87: what the proxy publishes about its signing keys. *)
From Verif Require Import Base XfccModel XfccProofs TokenModel TokenSpec KeysProofs JwksModel JwksSpec JwksProofs.
Open Scope list_scope.
Local Open Scope Z_scope.

(** The answer is the document or "not modified", and may be kept for an hour. *)
Theorem C87_answer : forall sha256 keys inm, keys <> [] ->
  let a := serve_jwks sha256 keys inm in
  assoc (lit "Cache-Control") (an_headers a) = Some (lit "public, max-age=3600") /\
  assoc (lit "Content-Type") (an_headers a) = Some (lit "application/json") /\
  (an_status a = 200%nat /\ describes (an_body a) (map (fun k => (hex (pk_raw k), pk_pub k)) keys) \/
   an_status a = 304%nat /\ an_body a = [] /\ assoc (lit "Etag") (an_headers a) = Some inm).
Proof.
  intros sha256 keys inm H. cbv zeta. unfold serve_jwks.
  destruct (str_eqb inm _) eqn:E; cbn [an_status an_body an_headers]; (split; [reflexivity|]); (split; [reflexivity|]).
  - right. apply str_eqb_spec in E. rewrite E at 1. auto.
  - left. split; [reflexivity|]. apply jwks_describes. exact H.
Qed.
Print Assumptions C87_answer.

(** There is only one way to read it. *)
Theorem C87_one_reading : forall text a b, describes text a -> describes text b -> a = b.
Proof. exact describes_unique. Qed.
Print Assumptions C87_one_reading.

(** Without If-None-Match, or with that of other keys, the document is sent; "not
    modified" is answered only to those who have the current keys.  The hash function is
    assumed to have no collisions. *)
Theorem C87_not_modified : forall sha256 old keys inm0, (forall a b, sha256 a = sha256 b -> a = b) -> old <> [] -> keys <> [] ->
  forall etag, assoc (lit "Etag") (an_headers (serve_jwks sha256 old inm0)) = Some etag ->
  (an_status (serve_jwks sha256 keys etag) = 304%nat <->
   map (fun k => (hex (pk_raw k), pk_pub k)) old = map (fun k => (hex (pk_raw k), pk_pub k)) keys) /\
  an_status (serve_jwks sha256 keys []) = 200%nat.
Proof.
  intros sha256 old keys inm0 Hs Ho Hk etag He.
  assert (E : etag = quote :: hex (sha256 (jwks_text (map jwk_of old))) ++ [quote]).
  { unfold serve_jwks in He. destruct (str_eqb inm0 _); cbn [an_headers] in He;
      match type of He with assoc _ ?l = _ => change (assoc (lit "Etag") l) with (Some (snd (nth 2 l ([], [])))) in He end;
      cbn [nth snd] in He; congruence. }
  split; [|unfold serve_jwks; destruct (str_eqb [] _) eqn:X; [apply str_eqb_spec in X; discriminate|reflexivity]].
  split.
  - intro H. unfold serve_jwks in H. destruct (str_eqb etag _) eqn:X; [|discriminate]. apply str_eqb_spec in X.
    rewrite E in X. injection X as X. apply app_inj_tail in X. destruct X as [X _]. apply hex_injective, Hs in X.
    apply (describes_unique (jwks_text (map jwk_of keys))); [rewrite <- X|]; apply jwks_describes; assumption.
  - intro H. assert (X : map jwk_of old = map jwk_of keys).
    { revert H. clear. revert keys. induction old as [|a old IH]; intros [|b keys] H; try discriminate; [reflexivity|].
      cbn [map] in H |- *. injection H as H1 H2 H3. rewrite (IH _ H3). f_equal. unfold jwk_of. rewrite H1, H2. reflexivity. }
    unfold serve_jwks. rewrite <- X, E, str_eqb_refl. reflexivity.
Qed.
Print Assumptions C87_not_modified.

(** A verifier whose copy of the key set is at most two hours old (it may be kept for one)
    has the key of every token that is issued, and no two keys have the same name. *)
Theorem C87_signing_keys_are_published : forall raw pub tpm t0 ts fetch ts2 sign t c tok,
  (forall i j, raw i = raw j -> i = j) ->
  supported tpm t ->
  paced (5 * day) t0 (ts ++ [fetch]) ->
  Forall (fun x => fetch < x <= sign) ts2 -> paced (5 * day) (last (t0 :: ts) t0) ts2 ->
  fetch <= sign <= fetch + 2 * hour ->
  create_token (keys_after tpm ((t0 :: ts) ++ ts2)) sign t c = Some tok ->
  exists k, t_signer tok = Some (kid k, ktyp k) /\ ktyp k = t /\
    In (hex (raw (t_kid tok)), pub k) (ids raw pub (keys_after tpm (t0 :: ts))) /\
    NoDup (map fst (ids raw pub (keys_after tpm (t0 :: ts)))) /\
    forall sha256 inm, let a := serve_jwks sha256 (with_pub raw pub (keys_after tpm (t0 :: ts))) inm in
      an_status a = 200%nat -> describes (an_body a) (ids raw pub (keys_after tpm (t0 :: ts))).
Proof.
  intros raw pub tpm t0 ts fetch ts2 sign t c tok Hraw Ht Hp H2 Hp2 Hs Hc. unfold create_token in Hc.
  destruct (pick sign t _ None) as [k|] eqn:E; [|discriminate]. injection Hc as <-. cbn [t_signer t_kid].
  assert (A := signing_key_published _ _ _ _ _ _ _ _ Ht Hp H2 Hp2 Hs E).
  destruct (pick_In _ _ _ _ _ E) as [X|[_ Hty]]; [discriminate|].
  exists k. split; [reflexivity|]. split; [exact Hty|]. split; [|split].
  - unfold ids. apply in_map_iff. exists k. auto.
  - unfold ids. rewrite map_map. cbn [fst]. assert (U := keys_unique tpm (t0 :: ts)). clear - U Hraw.
    induction (keys_after tpm (t0 :: ts)) as [|x l IH]; cbn [map]; [constructor|]. cbn [map] in U. inversion U as [|? ? U1 U2]; subst.
    constructor; [|apply IH; exact U2].
    intro X. apply U1. apply in_map_iff in X. destruct X as (y & X & Y). apply hex_injective, Hraw in X. rewrite <- X. apply in_map. exact Y.
  - intros sha256 inm. cbv zeta. unfold serve_jwks. destruct (str_eqb inm _); cbn [an_status an_body]; [discriminate|]. intros _.
    replace (ids raw pub (keys_after tpm (t0 :: ts))) with (map (fun k => (hex (pk_raw k), pk_pub k)) (with_pub raw pub (keys_after tpm (t0 :: ts))))
      by (unfold with_pub, ids; rewrite map_map; reflexivity).
    apply jwks_describes. unfold with_pub. destruct (keys_after tpm (t0 :: ts)); [destruct A|discriminate].
Qed.
Print Assumptions C87_signing_keys_are_published.

(** RFC 7518 wants coordinates of 32 octets.  Leading zeros are dropped, so this is false:
    here is a key, a point of the curve, whose first coordinate is published with 31. *)
Definition short_x : N := 226156424291633194186662080095093570025917938800079226639565593765455343673.
Definition short_y : N := 100016471332181626967999548836534521145278765922994948576372596192331960354232.
Theorem C87_full_width_refuted :
  ~ (forall sha256 raw x y, on_p256 x y ->
      full_width (an_body (serve_jwks sha256 [{| pk_raw := raw; pk_pub := PEc x y |}] []))).
Proof.
  intro H. set (k := {| pk_raw := lit "0123456789abcdef"; pk_pub := PEc short_x short_y |}).
  assert (O : on_p256 short_x short_y) by (vm_compute; auto).
  specialize (H (fun s => s) (lit "0123456789abcdef") short_x short_y O [jwk_fields (jwk_of k)] (jwk_fields (jwk_of k))).
  assert (X : option_map (@List.length ascii) (unb64u (field "x" (jwk_fields (jwk_of k)))) = Some 32%nat).
  { apply H; [|left; reflexivity|reflexivity]. fold k. change (an_body (serve_jwks (fun s => s) [k] [])) with (jwks_text [jwk_of k]).
    apply (jwks_tokens [jwk_of k]); [discriminate|]. constructor; [apply jwk_of_plain|constructor]. }
  vm_compute in X. discriminate X.
Qed.
Print Assumptions C87_full_width_refuted.

(** For the other keys it is true: a coordinate of 2^248 or more takes 32 octets. *)
Theorem C87_width_partial : forall sha256 raw x y inm, (2 ^ 248 <= x < 2 ^ 256)%N ->
  let a := serve_jwks sha256 [{| pk_raw := raw; pk_pub := PEc x y |}] inm in
  an_status a = 200%nat -> full_width (an_body a).
Proof.
  intros sha256 raw x y inm Hx. cbv zeta. set (k := {| pk_raw := raw; pk_pub := PEc x y |}).
  unfold serve_jwks. destruct (str_eqb inm _); cbn [an_status an_body]; [discriminate|]. intros _ objs fs H Hin _.
  assert (T : tokens (jwks_text [jwk_of k]) = Some (key_set (map jwk_fields [jwk_of k]))).
  { apply jwks_tokens; [discriminate|]. constructor; [apply jwk_of_plain|constructor]. }
  change (map jwk_of [k]) with [jwk_of k] in H. rewrite T in H.
  assert (E : key_set (map jwk_fields [jwk_of k]) = key_set objs) by congruence. apply key_set_inj in E. subst objs.
  destruct Hin as [<-|[]]. destruct (field_fields (jwk_of k)) as (_ & _ & _ & _ & _ & F & _). rewrite F.
  unfold jwk_of, k. cbn [pk_pub j_x]. rewrite unb64u_b64u. cbn [option_map]. f_equal. apply int_bytes_32. exact Hx.
Qed.
Print Assumptions C87_width_partial.

Example C87_example :
  let raw i := ascii_of_nat i :: lit "123456789abcdef" in
  let pub k := match ktyp k with EC => PEc 7 short_y | RSA => PRsa 35 65537 | ED => PEd (lit "abc") end in
  match create_token (keys_after false [0; 25 * hour; 26 * hour]) (27 * hour) ED [] with
  | Some tok => existsb (fun kv => str_eqb (fst kv) (hex (raw (t_kid tok)))) (ids raw pub (keys_after false [0; 25 * hour]))
  | None => false
  end = true.
Proof. vm_compute. reflexivity. Qed.
Example C87_document :
  an_body (serve_jwks (fun s => s) [{| pk_raw := lit "a"; pk_pub := PRsa 35 65537 |}] []) =
  lit "{" ++ [newline] ++ lit "  ""keys"": [" ++ [newline] ++ lit "    {" ++ [newline] ++ lit "      ""kty"": ""RSA""," ++ [newline] ++
  lit "      ""use"": ""sig""," ++ [newline] ++ lit "      ""kid"": ""61""," ++ [newline] ++ lit "      ""alg"": ""RS256""," ++ [newline] ++
  lit "      ""n"": ""Iw""," ++ [newline] ++ lit "      ""e"": ""AQAB""" ++ [newline] ++ lit "    }" ++ [newline] ++ lit "  ]" ++ [newline] ++ lit "}".
Proof. vm_compute. reflexivity. Qed.
