(** Lemmas about ScriptModel: the messages of the scripts. *)
From Coq Require Import Lia.
From Verif Require Import Base XfccModel OcspGetModel PasskeyModel PasskeyHttpModel ScriptModel ScriptSpec ScriptProofs.
From Verif Require JwksModel JwksProofs KeygenModel ProxyHdrModel PathProofs.
Open Scope list_scope.
Open Scope N_scope.

(** ** Forms *)

Lemma component_unescape : forall s, KeygenModel.query_unescape (component s) = Some s.
Proof.
  assert (B : forall c rest, KeygenModel.query_unescape (component_byte c ++ rest) = match KeygenModel.query_unescape rest with Some t => Some (c :: t) | None => None end).
  { intros [[] [] [] [] [] [] [] []] rest; reflexivity. }
  induction s as [|c s IH]; [reflexivity|]. unfold component. cbn [map List.concat]. rewrite B. unfold component in IH. rewrite IH. reflexivity.
Qed.
Lemma component_no : forall s x, In x (lit "&;=") -> ~ In x (component s).
Proof.
  intros s x H I. unfold component in I. apply in_concat in I as [b [B I]]. apply in_map_iff in B as [c [<- _]].
  assert (P : forallb (fun x => negb (has_char x (lit "&;="))) (component_byte c) = true) by (destruct c as [[] [] [] [] [] [] [] []]; reflexivity).
  rewrite forallb_forall in P. specialize (P x I). apply negb_true_iff in P. apply has_char_false in P. exact (P H).
Qed.
Lemma token_unescape : forall t, forallb token_char t = true -> KeygenModel.query_unescape t = Some t.
Proof.
  induction t as [|c t IH]; intros H; [reflexivity|]. cbn in H. apply andb_true_iff in H as [H1 H2]. cbn [KeygenModel.query_unescape]. rewrite (IH H2).
  destruct c as [[] [] [] [] [] [] [] []]; try discriminate H1; reflexivity.
Qed.
Lemma token_no : forall t x, forallb token_char t = true -> In x (lit "&;=") -> ~ In x t.
Proof.
  intros t x H X I. rewrite forallb_forall in H. specialize (H x I). cbn in X. repeat destruct X as [<-|X]; try discriminate H. exact X.
Qed.

Definition plain_name (k : str) : Prop := k <> [] /\ forallb token_char k = true.
Lemma pair_read : forall k v w, plain_name k -> KeygenModel.query_unescape w = Some v -> ~ In ";"%char w -> KeygenModel.parse_pair (k ++ "="%char :: w) = Some [(k, v)].
Proof.
  intros k v w [K1 K2] U N. unfold KeygenModel.parse_pair.
  replace (has_char ";" _) with false.
  2:{ symmetry. apply has_char_false. intro I. apply in_app_iff in I as [I|[I|I]]; [|discriminate I|exact (N I)].
      revert I. apply token_no; [exact K2|]. cbn. tauto. }
  replace (str_eqb (k ++ "="%char :: w) []) with false by (destruct k; reflexivity).
  rewrite PathProofs.cut_no_char by (apply token_no; [exact K2|cbn; tauto]). rewrite token_unescape, U by exact K2. reflexivity.
Qed.
Lemma pairs_one : forall k v w, plain_name k -> KeygenModel.query_unescape w = Some v -> ~ In ";"%char w -> ~ In "&"%char w -> pairs (k ++ "="%char :: w) = [(k, v)].
Proof.
  intros k v w K U N M. unfold pairs. rewrite split_on_no_char.
  - cbn [map List.concat]. rewrite (pair_read k v w) by assumption. reflexivity.
  - intro I. apply in_app_iff in I as [I|[I|I]]; [|discriminate I|exact (M I)]. destruct K as [_ K]. revert I. apply token_no; [exact K|]. cbn. tauto.
Qed.
Lemma pairs_more : forall k v w r, plain_name k -> KeygenModel.query_unescape w = Some v -> ~ In ";"%char w -> ~ In "&"%char w ->
  pairs ((k ++ "="%char :: w) ++ "&"%char :: r) = (k, v) :: pairs r.
Proof.
  intros k v w r K U N M. unfold pairs. rewrite split_on_app.
  - cbn [map List.concat]. rewrite (pair_read k v w) by assumption. reflexivity.
  - intro I. apply in_app_iff in I as [I|[I|I]]; [|discriminate I|exact (M I)]. destruct K as [_ K]. revert I. apply token_no; [exact K|]. cbn. tauto.
Qed.
Lemma pairs_component : forall k v, plain_name k -> pairs (k ++ "="%char :: component v) = [(k, v)].
Proof. intros k v K. apply pairs_one; [exact K|apply component_unescape| |]; apply component_no; cbn; tauto. Qed.

Lemma query_token : forall mode t, forallb token_char mode = true -> token_text t ->
  pairs (lit "get=" ++ mode ++ lit "&redirect=" ++ t) = [(lit "get", mode); (lit "redirect", t)].
Proof.
  intros mode t M [T1 T2].
  replace (lit "get=" ++ mode ++ lit "&redirect=" ++ t) with ((lit "get" ++ "="%char :: mode) ++ "&"%char :: (lit "redirect" ++ "="%char :: t)).
  - rewrite (pairs_more (lit "get") mode mode).
    + rewrite (pairs_one (lit "redirect") t t); [reflexivity|split; [discriminate|reflexivity]|apply token_unescape; exact T2|apply token_no; [exact T2|cbn; tauto]|apply token_no; [exact T2|cbn; tauto]].
    + split; [discriminate|reflexivity].
    + apply token_unescape; exact M.
    + apply token_no; [exact M|cbn; tauto].
    + apply token_no; [exact M|cbn; tauto].
  - rewrite <- (app_assoc (lit "get") ("="%char :: mode)). reflexivity.
Qed.
Lemma query_alone : forall mode, forallb token_char mode = true -> pairs (lit "get=" ++ mode) = [(lit "get", mode)].
Proof.
  intros mode M. change (lit "get=" ++ mode) with (lit "get" ++ "="%char :: mode).
  apply pairs_one; [split; [discriminate|reflexivity]|apply token_unescape; exact M|apply token_no; [exact M|cbn; tauto]|apply token_no; [exact M|cbn; tauto]].
Qed.

(** ** Bytes *)

Lemma uint8_dec : forall c, uint8 (ProxyHdrModel.dec (N_of_ascii c)) = Some c.
Proof. intros [[] [] [] [] [] [] [] []]; vm_compute; reflexivity. Qed.
Lemma bytes_read : forall b, bytes_of (map (fun c => JNum (ProxyHdrModel.dec (N_of_ascii c))) b) = Some b.
Proof. induction b as [|c b IH]; [reflexivity|]. cbn [map bytes_of]. rewrite uint8_dec, IH. reflexivity. Qed.
Lemma as_bytes_json : forall b, as_bytes (bytes_json b) = Some b.
Proof. intro b. apply bytes_read. Qed.
Lemma u8_json : forall b, u8 (bytes_json b) = Some b.
Proof. intro b. apply bytes_read. Qed.
Lemma bytes_valid : forall b, valid (bytes_json b) = true.
Proof.
  intro b. cbn [bytes_json valid]. induction b as [|c b IH]; [reflexivity|]. cbn [map forallb]. rewrite IH.
  destruct c as [[] [] [] [] [] [] [] []]; vm_compute; reflexivity.
Qed.
Lemma strings_valid : forall l, valid (JArr (map JStr l)) = true.
Proof. intro l. cbn [valid]. induction l; [reflexivity|]. cbn. exact IHl. Qed.
Lemma as_strings_json : forall l, as_strings (JArr (map JStr l)) = Some l.
Proof. intro l. cbn [as_strings]. induction l as [|s l IH]; [reflexivity|]. cbn [map fold_right as_string]. rewrite IH. reflexivity. Qed.

Lemma unhex_hex : forall s, unhex (hex s) = Some s.
Proof.
  induction s as [|c s IH]; [reflexivity|].
  change (hex (c :: s)) with ([hex_digit false (N_of_ascii c / 16); hex_digit false (N_of_ascii c mod 16)] ++ hex s). cbn [app unhex]. rewrite IH.
  destruct c as [[] [] [] [] [] [] [] []]; reflexivity.
Qed.
Lemma b64u_decode4 : forall n s, (List.length s <= n)%nat -> decode4 (JwksModel.b64u s) = Some s.
Proof.
  assert (C : forall b5 b4 b3 b2 b1 b0, url_bits (JwksModel.b64u_char b5 b4 b3 b2 b1 b0) = Some (b5, b4, b3, b2, b1, b0)) by (intros [] [] [] [] [] []; reflexivity).
  induction n as [|n IH]; intros s L; [destruct s; [reflexivity|cbn in L; lia]|].
  destruct s as [|[a0 a1 a2 a3 a4 a5 a6 a7] [|[b0 b1 b2 b3 b4 b5 b6 b7] [|[c0 c1 c2 c3 c4 c5 c6 c7] r]]].
  - reflexivity.
  - cbn [JwksModel.b64u decode4]. rewrite !C. reflexivity.
  - cbn [JwksModel.b64u decode4]. rewrite !C. reflexivity.
  - cbn [JwksModel.b64u decode4]. rewrite !C, IH by (cbn in L; lia). reflexivity.
Qed.
Lemma b64u_raw : forall s, raw_url_decode (JwksModel.b64u s) = Some s.
Proof.
  intro s. unfold raw_url_decode.
  assert (F : forall n s, (List.length s <= n)%nat -> filter (fun c => negb (Ascii.eqb c "010") && negb (Ascii.eqb c "013")) (JwksModel.b64u s) = JwksModel.b64u s).
  { assert (C : forall b5 b4 b3 b2 b1 b0, negb (Ascii.eqb (JwksModel.b64u_char b5 b4 b3 b2 b1 b0) "010") && negb (Ascii.eqb (JwksModel.b64u_char b5 b4 b3 b2 b1 b0) "013") = true) by (intros [] [] [] [] [] []; reflexivity).
    induction n as [|n IH]; intros t L; [destruct t; [reflexivity|cbn in L; lia]|].
    destruct t as [|[a0 a1 a2 a3 a4 a5 a6 a7] [|[b0 b1 b2 b3 b4 b5 b6 b7] [|[c0 c1 c2 c3 c4 c5 c6 c7] r]]]; cbn [JwksModel.b64u filter]; rewrite ?C; try reflexivity.
    rewrite IH by (cbn in L; lia). reflexivity. }
  rewrite (F (List.length s) s) by lia. apply (b64u_decode4 (List.length s)). lia.
Qed.

(** ** What is in a message *)

Lemma read_get_print : forall id cdata adata sig handle login,
  read_get (print js_escape (JObj [(lit "id", JStr id); (lit "clientDataJSON", bytes_json cdata);
       (lit "authenticatorData", bytes_json adata); (lit "signature", bytes_json sig); (lit "userHandle", bytes_json handle);
       (lit "loginId", JStr login)])) =
  Some {| ga_id := id; ga_cdata := cdata; ga_adata := adata; ga_sig := sig; ga_handle := handle; ga_login := login |}.
Proof.
  intros. unfold read_get, decode. rewrite parse_print0; [|left; reflexivity|].
  - cbn [fold_left fst snd].
    repeat match goal with |- context [names ?a ?b] => let x := eval vm_compute in (names a b) in change (names a b) with x end. cbv iota.
    cbn [as_string option_map ga_id ga_cdata ga_adata ga_sig ga_handle ga_login]. rewrite !as_bytes_json. cbn [as_string option_map ga_id ga_cdata ga_adata ga_sig ga_handle ga_login].
    rewrite ?as_bytes_json. cbn [as_string option_map ga_id ga_cdata ga_adata ga_sig ga_handle ga_login]. reflexivity.
  - cbn [valid forallb snd]. rewrite !bytes_valid. reflexivity.
Qed.
Lemma read_create_print : forall cdata att transports,
  read_create (print js_escape (JObj [(lit "clientDataJSON", bytes_json cdata);
       (lit "attestationObject", bytes_json att); (lit "transports", JArr (map JStr transports))])) =
  Some {| ca_cdata := cdata; ca_att := att; ca_transports := transports |}.
Proof.
  intros. unfold read_create, decode. rewrite parse_print0; [|left; reflexivity|].
  - cbn [fold_left fst snd].
    repeat match goal with |- context [names ?a ?b] => let x := eval vm_compute in (names a b) in change (names a b) with x end. cbv iota.
    rewrite !as_bytes_json. cbn [option_map ca_cdata ca_att ca_transports]. rewrite as_strings_json. reflexivity.
  - cbn [valid forallb snd]. rewrite !bytes_valid. pose proof (strings_valid transports) as V. cbn [valid] in V. rewrite V. reflexivity.
Qed.

Lemma names_not : forall f k, ~ In (to_lower k) [f] -> to_lower f = f -> names f k = false.
Proof. intros f k N F. unfold names. rewrite F. destruct (str_eqb f (to_lower k)) eqn:E; [|reflexivity]. apply str_eqb_spec in E. destruct N. left. exact E. Qed.
Lemma client_data_print : forall type ch origin more, others more ->
  parse_client_data (browser_data type ch origin more) = Some {| cd_type := type; cd_challenge := ch; cd_origin := origin |}.
Proof.
  intros type ch origin more O. unfold parse_client_data, decode, browser_data. rewrite parse_print0; [|left; reflexivity|].
  - cbn [app fold_left fst snd].
    repeat match goal with |- context [names ?a ?b] => match b with lit _ => let x := eval vm_compute in (names a b) in change (names a b) with x end end. cbv iota.
    cbn [as_string option_map cd_type cd_challenge cd_origin].
    induction O as [|[k v] more [N V] O IH]; [reflexivity|]. cbn [fold_left fst snd] in *.
    rewrite !names_not; [exact IH| | | | | |]; try reflexivity; intros [E|[]]; apply N; rewrite <- E; cbn; tauto.
  - cbn [valid app forallb snd andb]. apply forallb_forall. intros kv I. unfold others in O. rewrite Forall_forall in O. apply (O kv I).
Qed.
