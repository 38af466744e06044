(** Lemmas about ScriptModel: options, and what the handlers do with the messages. *)
From Coq Require Import Lia.
From Verif Require Import Base XfccModel PasskeyModel PasskeySpec PasskeyProofs PasskeyHttpModel PasskeyHttpSpec PasskeyHttpProofs PasskeyHttpProofs2
  ScriptModel ScriptSpec ScriptProofs ScriptProofs2.
From Verif Require JwksModel KeygenModel ProxyHdrModel TokenModel HttpModel HttpSpec HttpProofs.
Open Scope list_scope.
Open Scope Z_scope.

(** ** Messages *)

Lemma form_get_msg : forall token k v, token_text token ->
  form_of {| m_query := lit "get=Check&redirect=" ++ token; m_body := k ++ "="%char :: component v |} =
  pairs (k ++ "="%char :: component v) ++ [(lit "get", lit "Check"); (lit "redirect", token)].
Proof.
  intros token k v T. unfold form_of. cbn [m_body m_query]. f_equal.
  exact (query_token (lit "Check") token eq_refl T).
Qed.

Lemma login_form : forall token id cdata adata sig handle login, token_text token ->
  exists text, form_of (send_get token id cdata adata sig handle login) = [(lit "args", text); (lit "get", lit "Check"); (lit "redirect", token)] /\
    read_get text = Some {| ga_id := id; ga_cdata := cdata; ga_adata := adata; ga_sig := sig; ga_handle := handle; ga_login := login |}.
Proof.
  intros token id cdata adata sig handle login T. eexists. split; [|apply read_get_print].
  unfold send_get. match goal with |- context [component ?x] => change (lit "args=" ++ component x) with (lit "args" ++ "="%char :: component x) end.
  rewrite form_get_msg by exact T. rewrite pairs_component; [reflexivity|split; [discriminate|reflexivity]].
Qed.

Lemma token_query : forall mode token, forallb token_char mode = true -> (forall t, token = Some t -> token_text t) ->
  pairs (with_token (lit "get=" ++ mode) token) = (lit "get", mode) :: match token with Some t => [(lit "redirect", t)] | None => [] end.
Proof.
  intros mode [t|] M T; unfold with_token.
  - specialize (T t eq_refl). destruct t as [|c t]; [destruct T; congruence|].
    rewrite <- app_assoc. apply query_token; [exact M|exact T].
  - apply query_alone. exact M.
Qed.

Lemma create_form : forall token cdata att transports, (forall t, token = Some t -> token_text t) ->
  exists text, form_of (send_create token cdata att transports) = (lit "args", text) :: (lit "get", lit "AddKey") :: match token with Some t => [(lit "redirect", t)] | None => [] end /\
    read_create text = Some {| ca_cdata := cdata; ca_att := att; ca_transports := transports |}.
Proof.
  intros token cdata att transports T. eexists. split; [|apply read_create_print].
  unfold send_create, form_of. cbn [m_body m_query].
  match goal with |- context [component ?x] => change (lit "args=" ++ component x) with (lit "args" ++ "="%char :: component x) end.
  rewrite pairs_component by (split; [discriminate|reflexivity]).
  change (lit "get=AddKey") with (lit "get=" ++ lit "AddKey"). rewrite token_query; [reflexivity|reflexivity|exact T].
Qed.

Lemma delete_form : forall id, form_of (send_delete id) = [(lit "id", id); (lit "get", lit "DeleteKey")].
Proof.
  intro id. unfold send_delete, form_of. cbn [m_body m_query].
  change (lit "id=" ++ component id) with (lit "id" ++ "="%char :: component id).
  rewrite pairs_component by (split; [discriminate|reflexivity]). reflexivity.
Qed.

(** ** Options *)

Lemma credential_valid : forall tr k, valid (credential tr k) = true.
Proof.
  intros tr k. unfold credential. cbn [valid]. destruct (tr k) as [|s l].
  - cbn [app forallb snd]. rewrite bytes_valid. reflexivity.
  - cbn [app forallb snd]. rewrite bytes_valid, strings_valid. reflexivity.
Qed.
Lemma credentials_valid : forall tr keys, forallb valid (map (credential tr) keys) = true.
Proof. intros tr keys. induction keys as [|k keys IH]; [reflexivity|]. cbn [map forallb]. rewrite credential_valid, IH. reflexivity. Qed.
Lemma credential_script : forall tr k, script_credential (credential tr k) = Some (k_id k, credential tr k).
Proof.
  intros tr k. unfold script_credential.
  replace (member (lit "id") (credential tr k)) with (Some (bytes_json (k_id k))).
  - rewrite u8_json. reflexivity.
  - unfold credential, member. destruct (tr k); reflexivity.
Qed.
Lemma credentials_script : forall tr keys, all_of script_credential (map (credential tr) keys) = Some (map (fun k => (k_id k, credential tr k)) keys).
Proof. intros tr keys. induction keys as [|k keys IH]; [reflexivity|]. cbn [map all_of]. rewrite credential_script, IH. reflexivity. Qed.

Lemma answer_read : forall v, valid v = true -> parse_json (answer_text v) = Some v.
Proof. intros v V. unfold answer_text. apply parse_print; [right; reflexivity|exact V|repeat constructor]. Qed.

Lemma create_valid : forall tr ch rp uid email keys, valid (create_options tr ch rp uid email keys) = true.
Proof.
  intros tr ch rp uid email keys. unfold create_options. cbn [valid app forallb snd]. rewrite !bytes_valid.
  destruct rp, keys; cbn [app forallb snd valid]; rewrite ?credentials_valid; try reflexivity; rewrite credential_valid, credentials_valid; reflexivity.
Qed.
Lemma get_valid : forall tr ch keys, valid (get_options tr ch keys) = true.
Proof. intros tr ch keys. unfold get_options. cbn [valid forallb snd]. rewrite bytes_valid, credentials_valid. reflexivity. Qed.

Lemma script_create_ok : forall tr ch rp uid email keys,
  script_create (answer_text (create_options tr ch rp uid email keys)) =
  Some (ch, map (fun k => (k_id k, credential tr k)) keys, uid, create_options tr ch rp uid email keys).
Proof.
  intros tr ch rp uid email keys. unfold script_create. rewrite answer_read by apply create_valid.
  replace (member (lit "challenge") (create_options tr ch rp uid email keys)) with (Some (bytes_json ch)) by (unfold create_options, member; destruct keys; reflexivity).
  replace (member (lit "user") (create_options tr ch rp uid email keys)) with (Some (JObj [(lit "id", bytes_json uid); (lit "name", JStr email); (lit "displayName", JStr email)]))
    by (unfold create_options, member; destruct keys; reflexivity).
  replace (member (lit "excludeCredentials") (create_options tr ch rp uid email keys)) with (match keys with [] => None | _ => Some (JArr (map (credential tr) keys)) end)
    by (unfold create_options, member; destruct keys; reflexivity).
  replace (member (lit "id") (JObj [(lit "id", bytes_json uid); (lit "name", JStr email); (lit "displayName", JStr email)])) with (Some (bytes_json uid)) by reflexivity.
  cbn [option_map]. rewrite !u8_json. destruct keys as [|k keys]; [reflexivity|]. rewrite credentials_script. reflexivity.
Qed.
Lemma script_get_ok : forall tr ch keys,
  script_get (answer_text (get_options tr ch keys)) = Some (ch, map (fun k => (k_id k, credential tr k)) keys, get_options tr ch keys).
Proof.
  intros tr ch keys. unfold script_get. rewrite answer_read by apply get_valid.
  replace (member (lit "challenge") (get_options tr ch keys)) with (Some (bytes_json ch)) by reflexivity.
  replace (member (lit "allowCredentials") (get_options tr ch keys)) with (Some (JArr (map (credential tr) keys))) by reflexivity.
  cbn [option_map]. rewrite u8_json, credentials_script. reflexivity.
Qed.

(** ** The handlers *)

Lemma no_nonce : forall now ns, assoc [] ns = None -> fst (take_nonce now [] ns) = None.
Proof.
  intros now ns H. unfold take_nonce. cbn [fst]. apply assoc_None. apply assoc_None in H. intro I. apply H.
  apply in_map_iff in I as (kv & E & I). apply filter_In in I as [I _]. apply in_map_iff. eauto.
Qed.

Lemma callback_plan : forall e q ns t url, assoc [] ns = None -> q_nonce q = [] -> str_eqb (q_get q) (lit "JS") = false ->
  q_redirect q = Some t -> TokenModel.accept_url (h_tokens e) (q_now q) (q_sid q) t = Some url ->
  snd (handle_callback e q ns) = match (match q_other q with None => no_other q (redirect_email t) | Some _ => None end) with Some a => Done a | None => callback_mode e q url end.
Proof.
  intros e q ns t url N Q J R A. unfold handle_callback. rewrite Q. pose proof (no_nonce (q_now q) ns N) as H.
  destruct (take_nonce (q_now q) [] ns) as [[d|] ns1]; [discriminate H|]. cbn [snd]. rewrite J, R, A.
  destruct (q_other q); [reflexivity|]. destruct (no_other q (redirect_email t)); reflexivity.
Qed.

Lemma keys_vacuum : forall e ops v m, keys_of (pafter e (ops ++ [Vacuum v])) m = keys_of (pafter e ops) m.
Proof. intros. rewrite pafter_app. reflexivity. Qed.
Lemma subjects_vacuum : forall e ops v, p_subjects (pafter e (ops ++ [Vacuum v])) = p_subjects (pafter e ops).
Proof. intros. rewrite pafter_app. reflexivity. Qed.
