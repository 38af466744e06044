(** C76: a configuration file that cannot be used does not stop the proxy. *)
From Verif Require Import Base HttpModel SettingsModel ConfigModel ConfigSpec ConfigProofs ConfigProofs2 ConfigProofs3 ConfigProofs4
  ConfigProps ReloadModel ReloadSpec ReloadProofs.
Local Open Scope Z_scope.

(** Whatever the file contains at each reading, as long as it has no null entry and no
    SAML certificates with text outside of PEM blocks, the proxy goes on with the last
    configuration that could be used, and with the one it has if there was none. *)
Theorem C76_last_good_file_partial h cur :
  (forall w, In w h -> lawful w /\ forall c, w_file w = Some c -> harmless w c) ->
  exists c, rounds h cur = Ok c /\ last_usable h cur c.
Proof. apply rounds_ok. Qed.

(** The process is stopped by nothing else. *)
Theorem C76_only_these_crash h cur :
  (forall w, In w h -> lawful w) ->
  (forall c, rounds h cur <> Ok c) ->
  exists h1 w h2 c, h = h1 ++ w :: h2 /\ w_file w = Some c /\ ~ harmless w c.
Proof.
  revert cur. induction h as [|w h IH]; intros cur L H.
  - destruct (H cur). reflexivity.
  - destruct (round w cur) as [c1| | |] eqn:R.
    + destruct (IH c1) as (h1 & w' & h2 & c & -> & F & N).
      * intros w' Hw. apply L. right. exact Hw.
      * intros c K. apply (H c). cbn [rounds]. rewrite R. exact K.
      * exists (w :: h1), w', h2, c. auto.
    + exfalso. unfold round in R. destruct (w_file w); [|discriminate]. destruct (check (w_env w) c); try discriminate.
      destruct (w_same w a cur); [discriminate|]. destruct (reconfigure w a); discriminate.
    + exists [], w, h. destruct (w_file w) as [c|] eqn:F; [|unfold round in R; rewrite F in R; discriminate].
      exists c. split; [reflexivity|]. split; [reflexivity|]. intros K.
      destruct (round_ok w cur (L w (or_introl eq_refl))) as (c' & E & _); [|congruence].
      intros c0 F0. rewrite F in F0. injection F0 as <-. exact K.
    + exists [], w, h. destruct (w_file w) as [c|] eqn:F; [|unfold round in R; rewrite F in R; discriminate].
      exists c. split; [reflexivity|]. split; [reflexivity|]. intros K.
      destruct (round_ok w cur (L w (or_introl eq_refl))) as (c' & E & _); [|congruence].
      intros c0 F0. rewrite F in F0. injection F0 as <-. exact K.
Qed.

(** The result is never [OutOfFuel]: the loop over the certificates ends. *)
Theorem C76_certificates_are_read_to_the_end w b :
  read_certs w (List.length b) b <> OutOfFuel.
Proof.
  assert (H : forall fuel b, (List.length b <= fuel)%nat -> read_certs w fuel b <> OutOfFuel).
  { induction fuel as [|fuel IH]; intros b' L.
    - destruct b'; [discriminate|inversion L].
    - destruct b' as [|a b']; [discriminate|]. cbn [read_certs]. destruct (w_pem w (a :: b')) as [[[ty good] n]|]; [|discriminate].
      destruct (_ && _); [discriminate|]. apply IH. pose proof (skipn_lt b' n a) as K. cbn [List.length] in L.
      apply le_S_n in L. apply (Nat.le_trans _ _ _ K L). }
  apply H. apply le_n.
Qed.

(** *** Examples *)

(** A small pem.Decode: a block is [PEM] and an optional line end. *)
Definition ex_pem (b : str) : option (str * bool * nat) :=
  if has_prefix b (lit "PEM;") then Some (lit "CERTIFICATE", true, 3%nat)
  else if has_prefix b (lit "PEM") then Some (lit "CERTIFICATE", true, 2%nat) else None.
Definition ex_world (f : option config) : world := {|
  w_env := ex_env 1024; w_file := f; w_same := fun _ _ => false; w_oidc := fun _ => true;
  w_read := fun _ => None; w_pem := ex_pem; w_passkey := fun _ => true; w_rest := true |}.

Lemma ex_lawful f : lawful (ex_world f).
Proof.
  split; [|discriminate]. intros s. cbn. unfold to_lower. rewrite map_map. apply map_ext.
  intros c. destruct c as [[] [] [] [] [] [] [] []]; reflexivity.
Qed.
Lemma ex_harmless f : harmless (ex_world f) ex_config.
Proof.
  destruct C75_example_accepted as (N & _). constructor; [exact N|intros []|].
  intros p b [<-|[]]. intros [(q & E & _)|[_ ->]]; [discriminate E|]. apply (op_block _ _ (lit "CERTIFICATE") true 2%nat); [reflexivity|]. constructor.
Qed.

(** A good file, then no file, then a file with an error: the first one stays. *)
Definition ex_bad : config := with_backends [Some (ex_backend [] (lit "udp") [])] ex_config.
Example C76_example :
  rounds [ex_world (Some ex_config); ex_world None; ex_world (Some ex_bad)] ex_bad = Ok (full (ex_env 1024) ex_config) /\
  usable (ex_world (Some ex_config)) (full (ex_env 1024) ex_config) /\
  (forall w, In w [ex_world (Some ex_config); ex_world None; ex_world (Some ex_bad)] ->
     lawful w /\ forall c, w_file w = Some c -> harmless w c).
Proof.
  split; [vm_compute; reflexivity|]. split.
  - destruct C75_example_accepted as (N & V & _). exists ex_config.
    split; [reflexivity|]. split; [exact N|]. split; [intros []|]. split; [exact V|]. split; [reflexivity|]. constructor.
    + intros; reflexivity.
    + intros p [<-|[]]. split; [|split; vm_compute; discriminate]. exists (lit "PEM"). split; [right; split; [discriminate|reflexivity]|].
      apply (gp_block _ _ (lit "CERTIFICATE") true 2%nat); [reflexivity|reflexivity|constructor].
    + intros [|x l1] p l2 E; cbn in E; [|destruct l1; discriminate]. injection E as <- <-. split; [|reflexivity].
      left. left. reflexivity.
    + reflexivity.
  - intros w [<-|[<-|[<-|[]]]]; (split; [apply ex_lawful|]); intros c [= <-].
    + apply ex_harmless.
    + destruct (ex_harmless (Some ex_bad)) as [[] H2 H3]. constructor; [|exact H2|exact H3].
      constructor; try assumption.
      * intros [K|[]]. discriminate.
      * intros b [<-|[]]. intros [].
      * intros b s cs rs [<-|[]]. discriminate.
Qed.

(** FINDING: a null entry in the list of backends (an empty [- ] in the YAML file)
    ends the process that was serving: nothing recovers the panic of Check in
    configLoop (main.go:136, config.go:919-922).  The same goes for a null WebSocket
    endpoint, which Check does not look at (proxy.go:830-833). *)
Definition with_ws (l : list (option websock)) (c : config) : config := {|
  cf_cache := cf_cache c; cf_tls := cf_tls c; cf_max := cf_max c; cf_quic := cf_quic c; cf_accept := cf_accept c;
  cf_default := cf_default c; cf_oidc := cf_oidc c; cf_saml := cf_saml c; cf_passkey := cf_passkey c; cf_pki := cf_pki c;
  cf_ssh := cf_ssh c; cf_bw := cf_bw c; cf_ws := l; cf_backends := cf_backends c |}.
Theorem C76_null_entries_refuted :
  (forall cur, rounds [ex_world (Some (with_backends [Some ex_login; None] ex_config))] cur = Panic) /\
  (forall cur, rounds [ex_world (Some (with_ws [None] ex_config))] cur = Panic) /\
  check (ex_env 1024) (with_ws [None] ex_config) = Ok (full (ex_env 1024) (with_ws [None] ex_config)).
Proof. split; [|split]; intros; vm_compute; reflexivity. Qed.

(** FINDING: SAML certificates with anything after the last PEM block, a comment or
    an empty line, end the process as well: pem.Decode returns no block and readCerts
    uses it (saml.go:275-277). *)
Definition ex_saml_text : saml := {|
  sa_name := lit "corp"; sa_sso := lit "https://idp/"; sa_entity := lit "x"; sa_certs := lit "PEM; # corp";
  sa_acs := lit "https://login.example.com/saml"; sa_domain := [] |}.
Definition with_saml (l : list (option saml)) (c : config) : config := {|
  cf_cache := cf_cache c; cf_tls := cf_tls c; cf_max := cf_max c; cf_quic := cf_quic c; cf_accept := cf_accept c;
  cf_default := cf_default c; cf_oidc := cf_oidc c; cf_saml := l; cf_passkey := cf_passkey c; cf_pki := cf_pki c;
  cf_ssh := cf_ssh c; cf_bw := cf_bw c; cf_ws := cf_ws c; cf_backends := cf_backends c |}.
Theorem C76_certificate_text_refuted :
  let c := with_saml [Some ex_saml_text] ex_config in
  (exists c', check (ex_env 1024) c = Ok c') /\ no_nulls c /\
  forall cur, rounds [ex_world (Some c)] cur = Panic.
Proof.
  cbn zeta. split; [eexists; vm_compute; reflexivity|]. split; [|intros; vm_compute; reflexivity].
  assert (H : check (ex_env 1024) (with_saml [Some ex_saml_text] ex_config) = Ok (full (ex_env 1024) (with_saml [Some ex_saml_text] ex_config)))
    by (vm_compute; reflexivity).
  apply check_ok in H. apply H.
Qed.

(** A configuration whose passkey provider names itself is accepted by Check and is
    never put in force. *)
Theorem C76_own_provider_never_starts w c c' p :
  (forall s, e_ascii (w_env w) (e_ascii (w_env w) s) = e_ascii (w_env w) s) ->
  check (w_env w) c = Ok c' -> In p (present (cf_passkey c')) -> pk_other p = pk_name p ->
  forall c2, reconfigure w c' <> Ok c2.
Proof.
  intros HA C Hp E c2 R. pose proof (check_again _ _ _ HA C) as C1.
  apply reconfigure_ok in R as (_ & ST & _); [|exact C1].
  apply check_ok in C1 as (_ & V & _). pose proof (v_idps _ _ V) as D. unfold idp_names in D.
  apply in_split in Hp as (l1 & l2 & El). destruct (st_passkey _ _ ST _ _ _ El) as [K _]. rewrite E in K.
  apply nodup_app_iff in D as (_ & DP & DX). destruct K as [K|K].
  - apply (DX (pk_name p)); [|exact K]. rewrite El, map_app. apply in_or_app. right. left. reflexivity.
  - rewrite El, map_app in DP. apply nodup_app_iff in DP as (_ & _ & D2). apply (D2 (pk_name p)); [left; reflexivity|exact K].
Qed.

Print Assumptions C76_last_good_file_partial.
Print Assumptions C76_only_these_crash.
Print Assumptions C76_certificates_are_read_to_the_end.
Print Assumptions C76_null_entries_refuted.
Print Assumptions C76_certificate_text_refuted.
Print Assumptions C76_own_provider_never_starts.
