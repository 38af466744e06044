(** C98: an authority works with every type of key that it accepts, and its files can be
    read. *)
From Verif Require Import Base AuthorityModel AuthoritySpec AuthorityProofs.
From Coq Require Import Lia.
Open Scope Z_scope.

(** An authority starts on an empty store when the type, in any case, is documented (or
    rsa-8192) and the TPM, if there is one, can make such a key; TPMs make no Ed25519 keys.
    It then has a key of this type, and a certificate for it. *)
Theorem C98_starts : forall o t0 raw a,
  (exists d c, new o t0 raw empty_db = Some d /\ d_key d = Some a /\ d_ca d = Some c /\ ct_alg c = a /\ ct_raw c = raw) <->
  In (to_lower (wanted o), a) (known_types documented) /\ match o_tpm o with None => True | Some can => a <> Ed25519 /\ can a = true end.
Proof.
  intros o t0 raw a. split.
  - intros (d & c & N & K & _). destruct (proj1 (new_empty o t0 raw d a) (conj N K)) as (I & C & _). auto.
  - intros [I C]. pose proof (proj2 (new_empty o t0 raw _ a) (conj I (conj C eq_refl))) as [N K]. eexists. eexists. split; [exact N|]. cbn. auto.
Qed.
Print Assumptions C98_starts.

(** The authority keeps its key, and its certificate is for this key, whatever types the later
    configurations have. *)
Theorem C98_key_stays : forall o t0 raw l m out, history o t0 raw l m out ->
  exists a c, In (to_lower (wanted o), a) (known_types documented) /\ d_key (m_db m) = Some a /\ d_ca (m_db m) = Some c /\ ct_alg c = a.
Proof.
  intros o t0 raw l m out H. destruct (history_keyed _ _ _ _ _ _ H) as (a & I & K & c & C & A). exists a, c. auto.
Qed.
Print Assumptions C98_key_stays.

(** Whatever happened to an authority, when the type is written as documented (and the TPM
    can make the key) each request for the status of a certificate or for the list of the
    revoked ones is answered.  Missing: types with capitals are accepted too. *)
Theorem C98_answered_partial : forall o t0 raw l m out, history o t0 raw l m out ->
  forall o' t r q b, In (o', Ask t r q, b) out -> as_documented o' -> b = true.
Proof.
  intros o t0 raw l m out H. destruct (history_keyed _ _ _ _ _ _ H) as (a & _ & _). destruct H as (d & N & R). clear a.
  destruct (new_key _ _ _ _ _ N) as [K _]. destruct (d_key d) as [a|] eqn:E; [|contradiction].
  pose proof (proj1 (new_empty o t0 raw d a) (conj N E)) as (_ & _ & D).
  intros o' t r q b I A. eapply run_answered; [|exact R|exact I|exact A]. rewrite D. cbn [m_db]. unfold keyed. cbn. eauto.
Qed.
Print Assumptions C98_answered_partial.

(** Nobody who asks can make the database grow faster than by one certificate each five days
    (less a second), whatever the clock does, if the types are written as documented. *)
Theorem C98_growth_partial : forall o t0 raw l d, new o t0 raw empty_db = Some d ->
  Forall as_documented (options o l) ->
  apart (5 * (24 * 3600 * 1000000000) - 1000000000) (growth {| m_opts := o; m_db := d |} l).
Proof.
  intros o t0 raw l d N F. apply (growth_apart l {| m_opts := o; m_db := d |}); [|exact F].
  cbn [m_db]. unfold long_lived. rewrite (new_delegates _ _ _ _ _ N). exact I.
Qed.
Print Assumptions C98_growth_partial.

(** Finding: ed25519 with a capital is accepted, but then no status is ever given, and each
    request makes the authority issue one more certificate, which it keeps.  Anyone can
    ask. *)
Theorem C98_capitals_refuted : forall o, o_tpm o = None -> to_lower (o_type o) = lit "ed25519" -> o_type o <> lit "ed25519" ->
  forall t0 raw l, exists m out,
    history o t0 raw (map (fun x => Ask (fst (fst x)) (snd (fst x)) (snd x)) l) m out /\
    issued m = S (List.length l) /\
    (forall o' t r b, In (o', Ask t r Status, b) out -> b = false).
Proof.
  intros o T Lo N t0 raw l.
  assert (W : wanted o = o_type o) by (unfold wanted; destruct (o_type o); [discriminate Lo|reflexivity]).
  assert (X : In (to_lower (wanted o), Ed25519) (known_types documented)) by (rewrite W, Lo; cbn; tauto).
  assert (C : can_make o Ed25519) by (unfold can_make; rewrite T; exact I).
  pose proof (proj2 (new_empty o t0 raw _ Ed25519) (conj X (conj C eq_refl))) as [D _]. cbv zeta in D.
  match type of D with _ = Some ?d =>
    destruct (run {| m_opts := o; m_db := d |} (map (fun x => Ask (fst (fst x)) (snd (fst x)) (snd x)) l)) as [m out] eqn:R;
    exists m, out; split; [exists d; auto|]; destruct (capitals_run o l T Lo N d m out ltac:(discriminate) I R) as [A B] end.
  split; [rewrite A; reflexivity|exact B].
Qed.
Print Assumptions C98_capitals_refuted.
Example C98_capital_e : to_lower (lit "Ed25519") = lit "ed25519" /\ lit "Ed25519" <> lit "ed25519".
Proof. split; [reflexivity|discriminate]. Qed.

(** Finding: a documented type does not work with a TPM, whatever keys it can make. *)
Theorem C98_tpm_refuted : forall can t0 raw, In (lit "ed25519", Ed25519) documented /\
  new {| o_type := lit "ed25519"; o_tpm := Some can |} t0 raw empty_db = None.
Proof. intros. split; [cbn; tauto|reflexivity]. Qed.
Print Assumptions C98_tpm_refuted.

(** ** Files *)

(** The PEM file has the authority's certificate and then those of the last delegates, at most
    two; any reader gets them back. *)
Theorem C98_pem_file : forall o t0 raw l m out path, history o t0 raw l m out -> proper raw l -> has_suffix path (lit ".pem") = true ->
  exists ca body, d_ca (m_db m) = Some ca /\ serve_ca_cert path (m_db m) = Some (lit "application/x-pem-file", body) /\
    read_pem body = Some (ct_raw ca :: map ct_raw (d_delegates (m_db m))) /\ (List.length (d_delegates (m_db m)) <= 2)%nat.
Proof.
  intros o t0 raw l m out path H P X. destruct (history_stored _ _ _ _ _ _ H P) as (((c & C & _) & _ & L) & _).
  unfold serve_ca_cert. rewrite C, X. eexists. eexists. split; [reflexivity|]. split; [reflexivity|]. split; [|exact L].
  rewrite <- (map_map ct_raw XfccModel.pem). change (XfccModel.pem (ct_raw c) ++ List.concat (map XfccModel.pem (map ct_raw (d_delegates (m_db m)))))
    with (List.concat (map XfccModel.pem (ct_raw c :: map ct_raw (d_delegates (m_db m))))). apply read_pems.
Qed.
Print Assumptions C98_pem_file.

(** The other file is the authority's certificate, as its content type says, until someone asks
    for a status or a list. *)
Theorem C98_der_file_partial : forall o t0 raw l m out path, history o t0 raw l m out -> proper raw l -> has_suffix path (lit ".pem") = false ->
  (forall t r q, ~ In (Ask t r q) l) ->
  exists ca, d_ca (m_db m) = Some ca /\ serve_ca_cert path (m_db m) = Some (lit "application/x-x509-ca-cert", ct_raw ca) /\ one_certificate (ct_raw ca).
Proof.
  intros o t0 raw l m out path H P X A. destruct (history_stored _ _ _ _ _ _ H P) as (((c & C & O) & _ & _) & _ & N).
  exists c. unfold serve_ca_cert. rewrite C, X, (N A). cbn [map List.concat]. rewrite app_nil_r. auto.
Qed.
Print Assumptions C98_der_file_partial.

(** Finding: after the first answer the same file is several certificates one after the other,
    which is not a certificate: the link in each issued certificate does not lead to the
    issuer's certificate any more. *)
Theorem C98_der_file_refuted : forall o t0 raw l m out path, history o t0 raw l m out -> proper raw l -> has_suffix path (lit ".pem") = false ->
  (exists o' t r q, In (o', Ask t r q, true) out) ->
  exists body, serve_ca_cert path (m_db m) = Some (lit "application/x-x509-ca-cert", body) /\ ~ one_certificate body.
Proof.
  intros o t0 raw l m out path H P X A. destruct (history_stored _ _ _ _ _ _ H P) as (((c & C & O) & F & _) & N & _).
  specialize (N A). unfold serve_ca_cert. rewrite C, X. eexists. split; [reflexivity|]. apply one_not_more; [exact O|].
  destruct (d_delegates (m_db m)) as [|x y]; [contradiction|]. apply Forall_cons_iff in F as [F _]. cbn [map List.concat].
  destruct (ct_raw x); [discriminate F|discriminate].
Qed.
Print Assumptions C98_der_file_refuted.

(** ** The SSH authority *)

(** It starts on an empty store exactly with the documented types (and rsa-8192), in any case;
    with a TPM, not with ed25519.  When it does not start nothing is stored. *)
Theorem C98_ssh_starts : forall o a,
  (snd (ssh_new o None) = Some a <->
   In (to_lower (wanted o), a) (known_types documented_ssh) /\ match o_tpm o with None => True | Some can => a <> Ed25519 /\ can a = true end) /\
  fst (ssh_new o None) = snd (ssh_new o None).
Proof.
  intros o a.
  assert (S : forall k b, In (k, b) (known_types documented_ssh) <-> In (k, b) (known_types documented) /\ b <> EC 224).
  { intros k b. unfold known_types, documented_ssh, documented. cbn [filter fst negb str_eqb app]. split.
    - intro H. cbn in H. repeat destruct H as [H|H]; try (injection H as <- <-); try destruct H; split; try discriminate; cbn; tauto.
    - intros [H N]. cbn in H. repeat destruct H as [H|H]; try (injection H as <- <-); try destruct H; try contradiction; cbn; tauto. }
  assert (G : forall b, generate ssh_tpm_type o (wanted o) = Some b /\ ssh_signs b = true <-> generate tpm_type o (wanted o) = Some b /\ b <> EC 224).
  { intro b. assert (Sb : ssh_signs b = true <-> b <> EC 224).
    { destruct b as [|n|n]; cbn [ssh_signs]; split; try discriminate; try reflexivity.
      - intros H E. injection E as ->. discriminate H.
      - intro N. destruct (N.eqb_spec n 224) as [->|X]; [contradiction|reflexivity]. }
    rewrite Sb. unfold generate. destruct (o_tpm o) as [can|]; [|tauto]. unfold ssh_tpm_type, tpm_type. cbv zeta.
    destruct (str_eqb (to_lower (wanted o)) (lit "ecdsa-p224")) eqn:E; [|tauto]. apply str_eqb_spec in E. rewrite E.
    change (ecdsa_type (lit "ecdsa-p224")) with (Some (EC 224)). cbn [rsa_type].
    split; intros [H N]; [discriminate H|]. destruct (can (EC 224)); [injection H as <-; contradiction|discriminate]. }
  unfold ssh_new. rewrite wanted_key_type. split.
  - rewrite S. pose proof (G a) as Ga. pose proof (generate_in o (wanted o) a) as Gi. unfold can_make in Gi.
    destruct (generate ssh_tpm_type o (wanted o)) as [b|].
    + destruct (ssh_signs b) eqn:Sb; cbn [snd].
      * split; intro H; [injection H as ->; tauto|]. tauto.
      * split; [discriminate|]. intros ((I & N) & C). exfalso. assert (X : Some b = Some a /\ ssh_signs a = true) by tauto. destruct X as [X Y]. congruence.
    + cbn [snd]. split; [discriminate|]. intros ((I & N) & C). exfalso. assert (X : @None alg = Some a /\ ssh_signs a = true) by tauto. destruct X; discriminate.
  - destruct (generate ssh_tpm_type o (wanted o)) as [b|]; [destruct (ssh_signs b)|]; reflexivity.
Qed.
Print Assumptions C98_ssh_starts.

(** ** Examples *)

(** An authority with the default type: the first request makes a delegate, the second uses it,
    and one after six days makes another. *)
Definition ex_raw (c : ascii) : str := ["048"%char; "001"%char; c].
Definition ex_o : opts := {| o_type := []; o_tpm := None |}.
Definition ex_ops : list op :=
  [Ask (1 * day) (ex_raw "b") Status; Ask (2 * day) (ex_raw "x") Revoked; Restart {| o_type := lit "rsa-2048"; o_tpm := None |} (3 * day) (ex_raw "y"); Ask (7 * day) (ex_raw "c") Status].
Example C98_some_history : exists m out, history ex_o 0 (ex_raw "a") ex_ops m out /\ proper (ex_raw "a") ex_ops /\
  Forall as_documented (options ex_o ex_ops) /\
  map snd out = [true; true; true; true] /\ option_map ct_alg (d_ca (m_db m)) = Some (EC 256) /\
  map (fun c => (ct_alg c, ct_raw c)) (d_delegates (m_db m)) = [(RSA 2048, ex_raw "c"); (EC 256, ex_raw "b")] /\
  serve_ca_cert (lit "/ca.der") (m_db m) = Some (lit "application/x-x509-ca-cert", ex_raw "a" ++ ex_raw "c" ++ ex_raw "b").
Proof.
  destruct (run {| m_opts := ex_o; m_db := match new ex_o 0 (ex_raw "a") empty_db with Some d => d | None => empty_db end |} ex_ops) as [m out] eqn:R.
  exists m, out. split; [eexists; split; [|exact R]; reflexivity|]. vm_compute in R. injection R as <- <-.
  split; [split; [reflexivity|repeat constructor]|].
  split; [|repeat split; reflexivity].
  unfold options, ex_ops. cbn [flat_map app]. repeat constructor; eexists; (split; [cbn; tauto|exact I]) || idtac.
  all: cbn; tauto.
Qed.
Example C98_long_length : one_certificate ("048"%char :: "129"%char :: "128"%char :: repeat "x"%char 128) /\ ~ one_certificate (lit "junk").
Proof. split; [reflexivity|discriminate]. Qed.
Example C98_p224 : ssh_new {| o_type := lit "ecdsa-p224"; o_tpm := None |} None = (None, None) /\
  ssh_new {| o_type := lit "Ed25519"; o_tpm := None |} None = (Some Ed25519, Some Ed25519).
Proof. split; reflexivity. Qed.
