(** The properties of the certificate authority. *)
From Verif Require Import Base PkiModel PkiSpec PkiProofs PkiProofs2 PkiProofs3 PkiProofs4.
Open Scope Z_scope.

(** A history to show that the hypotheses can be met. *)
Definition ex_opts : opts := {| o_name := lit "Root"; o_admins := [lit "admin@x"] |}.
Definition ex_csr (dns : list str) : csr := {| cs_pub := lit "K"; cs_cn := lit "laptop"; cs_emails := [lit "eve@x"]; cs_dns := dns; cs_ips := []; cs_uris := [] |}.
Definition ex_web (user admin sn : str) (dns : list str) : web :=
  {| w_claims := Some (Some user); w_method := lit "POST"; w_csrf := lit "1"; w_content_type := lit "application/x-pem-file";
     w_admin := admin; w_sn := sn; w_csr := Some (ex_csr dns) |}.
Definition ex_h (s : str) : str := lit "#" ++ s.
Definition ex_rq (sn : N) : ocsp_request := {| rq_hash := Some ex_h; rq_name_hash := ex_h (lit "Root"); rq_key_hash := ex_h (lit "CAKEY"); rq_serial := sn |}.
Definition ex_issue : list op :=
  [Start 0 (lit "CAKEY") 1 (1000 * second) Works; Issue 0 (ex_web (lit "alice@x") [] [] []) 500 (1001 * second) Works;
   Rotate 0 (lit "D1") 2 (1002 * second) Works; Issue 0 (ex_web (lit "bob@x") [] [] [lit "bank.example"]) 600 (1003 * second) Works].
Definition ex_alice : xcert := issued_cert {| cs_pub := lit "K"; cs_cn := lit "alice@x::laptop"; cs_emails := [lit "alice@x"]; cs_dns := []; cs_ips := []; cs_uris := [] |} 500 (1001 * second).
Definition ex_check : op := RevokeCheck 0 (ex_web (lit "alice@x") [] (lit "01:f4") []) (1004 * second).
Definition ex_revoke : op := Revoke 0 500 (1005 * second) Works.

(** ** C43 *)

(** A revoked certificate is reported revoked by the handshake check and by OCSP, whatever
    happens later, restarts and failing writes included: by the manager that revoked it and
    by each one that is started later. *)
Theorem C43_revoked_for_ever_partial :
  forall o before i sn now x between j,
  answer o before (Revoke i sn now x) = ODone ->
  j = i \/ starts j between ->
  let ops := before ++ Revoke i sn now x :: between in
  (forall b, answer o ops (AskRevoked j sn) = OBool b -> b = true) /\
  (forall k rq t s n r, d_key (s_disk (after o ops)) = Some k -> about (o_name o) k sn rq -> answer o ops (AskOCSP j rq t) = OStatus s n r -> s = Revoked).
Proof. exact revoked_for_ever. Qed.

Example C43_revoked_example :
  answer ex_opts (ex_issue ++ [ex_check]) ex_revoke = ODone /\
  answer ex_opts (ex_issue ++ [ex_check; ex_revoke]) (AskRevoked 0 500) = OBool true /\
  about (o_name ex_opts) (lit "CAKEY") 500 (ex_rq 500) /\
  answer ex_opts (ex_issue ++ [ex_check; ex_revoke]) (AskOCSP 0 (ex_rq 500) 0) = OStatus Revoked 500 (Some {| rv_time := 1005 * second; rv_reason := 0 |}) /\
  answer ex_opts (ex_issue ++ [ex_check; ex_revoke; Start 7 (lit "X") 9 (1006 * second) Works]) (AskRevoked 7 500) = OBool true.
Proof. split; [vm_compute; reflexivity|]. split; [vm_compute; reflexivity|]. split; [|split; vm_compute; reflexivity]. split; [reflexivity|]. exists ex_h. repeat split. Qed.

(** A certificate that was handed out and for which no revocation was attempted is reported
    good, whatever was revoked besides. *)
Theorem C43_good_unless_revoked :
  forall o before i w sn now x between c,
  answer o before (Issue i w sn now x) = OCert c ->
  let ops := before ++ Issue i w sn now x :: between in
  (forall j n t y, In (Revoke j n t y) ops -> n <> sn) ->
  (forall j b, answer o ops (AskRevoked j sn) = OBool b -> b = false) /\
  (forall j k rq t s n r, j = i \/ starts j between -> d_key (s_disk (after o ops)) = Some k -> about (o_name o) k sn rq ->
     answer o ops (AskOCSP j rq t) = OStatus s n r -> s = Good).
Proof. exact good_unless_revoked. Qed.

Example C43_good_example :
  answer ex_opts (firstn 1 ex_issue) (Issue 0 (ex_web (lit "alice@x") [] [] []) 500 (1001 * second) Works) = OCert ex_alice /\
  answer ex_opts ex_issue (AskOCSP 0 (ex_rq 500) 0) = OStatus Good 500 None /\
  answer ex_opts ex_issue (AskRevoked 0 500) = OBool false.
Proof. repeat split; vm_compute; reflexivity. Qed.

(** Certificates are told apart: different serial numbers have different texts. *)
Theorem C43_serials_distinct : forall a b, serial_hex a = serial_hex b -> a = b.
Proof. exact serial_hex_inj. Qed.

(** With several managers it is not so for all of them.  Manager 1 is started by a
    reconfiguration while the request that revokes is in flight in manager 0: manager 1
    goes on to accept the certificate. *)
Theorem C43_all_managers_refuted :
  ~ (forall o before i sn now x between j,
     answer o before (Revoke i sn now x) = ODone ->
     forall b, answer o (before ++ Revoke i sn now x :: between) (AskRevoked j sn) = OBool b -> b = true).
Proof.
  intros H.
  specialize (H ex_opts (ex_issue ++ [ex_check; Start 1 (lit "X") 9 (1004 * second) Works]) 0%nat 500%N (1005 * second) Works [] 1%nat).
  specialize (H ltac:(vm_compute; reflexivity) false ltac:(vm_compute; reflexivity)). discriminate.
Qed.

(** When the write fails, the error is reported, and the certificate is refused only until
    the data are next read. *)
Example C43_failed_write :
  let ops := ex_issue ++ [ex_check; Revoke 0 500 (1005 * second) CommitFails] in
  answer ex_opts (ex_issue ++ [ex_check]) (Revoke 0 500 (1005 * second) CommitFails) = OErr /\
  answer ex_opts ops (AskRevoked 0 500) = OBool true /\
  answer ex_opts (ops ++ [GetList 0 (1006 * second) Works]) (AskRevoked 0 500) = OBool false.
Proof. repeat split; vm_compute; reflexivity. Qed.

(** ** C44 *)

(** A list is the last one that was handed out or has a higher number. *)
Theorem C44_numbers_increase :
  forall o before i now x l between j now' y l',
  answer o before (GetList i now x) = OList l ->
  answer o (before ++ GetList i now x :: between) (GetList j now' y) = OList l' ->
  l' = l \/ rl_number l < rl_number l'.
Proof. exact numbers_increase. Qed.

(** A list has every revoked certificate that is not expired, unless it was revoked in the
    second in which the list was made. *)
Theorem C44_complete_partial :
  forall o before i now x l,
  answer o before (GetList i now x) = OList l ->
  NoDup (serials before) -> never_back (readings (before ++ [GetList i now x])) ->
  forall j sn t y i' w t' x' c,
  In (Revoke j sn t y, ODone) (outputs o before) -> In (Issue i' w sn t' x', OCert c) (outputs o before) ->
  now <= xc_not_after c ->
  second_of t <> second_of (rl_this l) ->
  exists r, In (sn, r) (rl_entries l).
Proof. exact list_complete. Qed.

Example C44_complete_example :
  let before := ex_issue ++ [GetList 0 (1004 * second) Works; ex_check; ex_revoke] in
  exists l, answer ex_opts before (GetList 0 (1006 * second) Works) = OList l /\ rl_number l = 2 /\ map fst (rl_entries l) = [500%N] /\
    NoDup (serials before) /\ never_back (readings (before ++ [GetList 0 (1006 * second) Works])) /\
    In (ex_revoke, ODone) (outputs ex_opts before) /\ In (Issue 0 (ex_web (lit "alice@x") [] [] []) 500 (1001 * second) Works, OCert ex_alice) (outputs ex_opts before) /\
    1006 * second <= xc_not_after ex_alice /\ second_of (1005 * second) <> second_of (rl_this l).
Proof.
  eexists. split; [vm_compute; reflexivity|]. split; [reflexivity|]. split; [reflexivity|].
  split; [cbn; repeat (constructor; [cbn; intuition discriminate|]); constructor|].
  split; [cbn; intuition (subst; discriminate)|].
  split; [vm_compute; repeat (try (left; reflexivity); right)|].
  split; [vm_compute; repeat (try (left; reflexivity); right)|].
  split; vm_compute; discriminate.
Qed.

(** Nothing else is in a list. *)
Theorem C44_listed_only_if_revoked :
  forall o before i now x l sn r,
  answer o before (GetList i now x) = OList l -> In (sn, r) (rl_entries l) -> exists j t y, In (Revoke j sn t y) before /\ rv_time r = trunc t.
Proof. exact listed_only_if_revoked. Qed.

(** A list is at most half an hour past its next update. *)
Theorem C44_current_partial :
  forall o before i now x l,
  answer o before (GetList i now x) = OList l -> never_back (readings (before ++ [GetList i now x])) ->
  rl_this l <= now /\ now < rl_next l + 1800 * second.
Proof. exact list_current. Qed.

(** At most 128 lists are kept. *)
Theorem C44_lists_bounded : forall o ops, (List.length (d_lists (s_disk (after o ops))) <= 128)%nat.
Proof. exact lists_bounded. Qed.

(** A certificate that is revoked in the second in which a list was made is missing from
    the lists for an hour and a half. *)
Theorem C44_same_second_refuted :
  ~ (forall o before i now x l,
     answer o before (GetList i now x) = OList l -> NoDup (serials before) -> never_back (readings (before ++ [GetList i now x])) ->
     forall j sn t y i' w t' x' c,
     In (Revoke j sn t y, ODone) (outputs o before) -> In (Issue i' w sn t' x', OCert c) (outputs o before) ->
     now <= xc_not_after c -> exists r, In (sn, r) (rl_entries l)).
Proof.
  intros H. set (before := ex_issue ++ [GetList 0 (1005 * second) Works; ex_check; Revoke 0 500 (1005 * second + 1) Works]).
  assert (A : exists l, answer ex_opts before (GetList 0 (6000 * second) Works) = OList l /\ rl_entries l = []) by (eexists; split; vm_compute; reflexivity).
  destruct A as (l & A & E).
  specialize (H ex_opts before 0%nat (6000 * second) Works l A).
  destruct (H ltac:(cbn; repeat (constructor; [cbn; intuition discriminate|]); constructor)
              ltac:(cbn; intuition (subst; discriminate))
              0%nat 500%N (1005 * second + 1) Works 0%nat (ex_web (lit "alice@x") [] [] []) (1001 * second) Works ex_alice
              ltac:(vm_compute; repeat (try (left; reflexivity); right))
              ltac:(vm_compute; repeat (try (left; reflexivity); right))
              ltac:(vm_compute; discriminate)) as (r & I).
  rewrite E in I. exact I.
Qed.

(** A list can be past its next update when it is handed out. *)
Theorem C44_past_next_update_refuted :
  ~ (forall o before i now x l,
     answer o before (GetList i now x) = OList l -> never_back (readings (before ++ [GetList i now x])) -> now <= rl_next l).
Proof.
  intros H. set (before := ex_issue ++ [GetList 0 (1005 * second) Works]).
  assert (A : exists l, answer ex_opts before (GetList 0 (6000 * second) Works) = OList l /\ rl_next l = 4605 * second) by (eexists; split; vm_compute; reflexivity).
  destruct A as (l & A & E).
  specialize (H ex_opts before 0%nat (6000 * second) Works l A ltac:(cbn; intuition (subst; discriminate))). rewrite E in H. apply H. reflexivity.
Qed.

(** ** C45 *)

(** A certificate from the page names the user and nobody else, is for a key that the user
    has shown to hold, is no authority, and is for a client or for a server, not both. *)
Theorem C45_issued_identity :
  forall o before i w sn now x c, answer o before (Issue i w sn now x) = OCert c ->
  exists claim r, w_claims w = Some claim /\ w_csr w = Some r /\ w_method w = lit "POST" /\ w_csrf w = lit "1" /\
    xc_serial c = sn /\ xc_emails c = [email_of claim] /\ xc_pub c = cs_pub r /\ xc_dns c = cs_dns r /\ xc_ips c = [] /\ xc_uris c = [] /\ xc_ca c = false /\
    (xc_cn c = email_of claim \/ xc_cn c = email_of claim ++ lit "::" ++ cs_cn r) /\
    xc_usages c = match xc_dns c with [] => [ClientAuth] | _ => [ServerAuth] end /\
    xc_not_before c <= now /\ xc_not_after c <= now + 3650 * day.
Proof. exact issued_identity. Qed.

(** Every certificate usable by a client was asked for by the user that it names, and names
    no server. *)
Theorem C45_client_certificates :
  forall o ops e, In e (d_issued (s_disk (after o ops))) -> In ClientAuth (xc_usages (en_cert e)) ->
  exists i w sn now x claim, In (Issue i w sn now x) ops /\ w_claims w = Some claim /\ xc_emails (en_cert e) = [email_of claim] /\ xc_dns (en_cert e) = [].
Proof. exact client_certificates. Qed.

(** The subject is that of one user only. *)
Theorem C45_name_of_one_user :
  forall o b1 i1 w1 sn1 t1 x1 c1 b2 i2 w2 sn2 t2 x2 c2 claim1 claim2,
  answer o b1 (Issue i1 w1 sn1 t1 x1) = OCert c1 -> answer o b2 (Issue i2 w2 sn2 t2 x2) = OCert c2 ->
  w_claims w1 = Some claim1 -> w_claims w2 = Some claim2 -> ~ In ":"%char (email_of claim1) -> ~ In ":"%char (email_of claim2) ->
  xc_cn c1 = xc_cn c2 -> email_of claim1 = email_of claim2.
Proof. exact name_of_one_user. Qed.

(** A certificate is revoked only after a request of its owner or of an administrator. *)
Theorem C45_revoke_authorised :
  forall o before i sn t y,
  answer o before (Revoke i sn t y) = ODone -> NoDup (serials before) ->
  exists a w now b claim, before = a ++ RevokeCheck i w now :: b /\ answer o a (RevokeCheck i w now) = OAllowed sn /\
    w_claims w = Some claim /\ w_method w = lit "POST" /\ w_csrf w = lit "1" /\
    ((w_admin w <> [] /\ In (email_of claim) (o_admins o)) \/
     exists i' w' t' x' c, In (Issue i' w' sn t' x', OCert c) (outputs o before) /\ In (email_of claim) (xc_emails c)).
Proof. exact revoke_authorised. Qed.

Example C45_example :
  answer ex_opts (firstn 1 ex_issue) (Issue 0 (ex_web (lit "alice@x") [] [] []) 500 (1001 * second) Works) = OCert ex_alice /\
  NoDup (serials (ex_issue ++ [ex_check])) /\ answer ex_opts (ex_issue ++ [ex_check]) ex_revoke = ODone /\
  answer ex_opts ex_issue (RevokeCheck 0 (ex_web (lit "bob@x") (lit "1") (lit "01:f4") []) (1004 * second)) = OErr /\
  answer ex_opts ex_issue (RevokeCheck 0 (ex_web (lit "admin@x") (lit "1") (lit "01:f4") []) (1004 * second)) = OAllowed 500.
Proof. split; [vm_compute; reflexivity|]. split; [cbn; repeat (constructor; [cbn; intuition discriminate|]); constructor|]. repeat split; vm_compute; reflexivity. Qed.

(** Server names are not checked: any user gets a certificate for any name. *)
Theorem C45_any_server_name :
  forall o before i m user dns sn now, s_managers (after o before) i = Some m ->
  exists c, answer o before (Issue i (ex_web user [] [] dns) sn now Works) = OCert c /\ xc_dns c = dns.
Proof.
  intros o before i m user dns sn now M. unfold answer. cbn [step]. rewrite M.
  change (request_cert (ex_web user [] [] dns))
    with (Some {| cs_pub := lit "K"; cs_cn := user ++ lit "::" ++ lit "laptop"; cs_emails := [user]; cs_dns := dns; cs_ips := []; cs_uris := [] |}).
  eexists. split; reflexivity.
Qed.

(** ** C60 *)

(** The page does not offer to revoke the certificate of the authority (http.go:322), but a
    request of an administrator does. *)
Theorem C60_ca_never_revoked_refuted :
  ~ (forall o before i sn t y c,
     answer o before (Revoke i sn t y) = ODone -> d_ca (s_disk (after o before)) = Some c -> xc_serial c <> sn).
Proof.
  intros H.
  assert (A : exists c, answer ex_opts (ex_issue ++ [RevokeCheck 0 (ex_web (lit "admin@x") (lit "1") (lit "01") []) (1004 * second)]) (Revoke 0 1 (1005 * second) Works) = ODone /\
    d_ca (s_disk (after ex_opts (ex_issue ++ [RevokeCheck 0 (ex_web (lit "admin@x") (lit "1") (lit "01") []) (1004 * second)]))) = Some c /\ xc_serial c = 1%N)
    by (eexists; split; [|split]; vm_compute; reflexivity).
  destruct A as (c & A & C & S). exact (H _ _ _ _ _ _ _ A C S).
Qed.

(** Nobody else can: what was not handed out to a user is revoked only by an administrator. *)
Theorem C60_only_by_admin_partial :
  forall o before i sn t y,
  answer o before (Revoke i sn t y) = ODone -> NoDup (serials before) ->
  (forall i' w' t' x' c, ~ In (Issue i' w' sn t' x', OCert c) (outputs o before)) ->
  exists a w now b claim, before = a ++ RevokeCheck i w now :: b /\ w_claims w = Some claim /\ w_admin w <> [] /\ In (email_of claim) (o_admins o).
Proof.
  intros o before i sn t y A N H. destruct (revoke_authorised o before i sn t y A N) as (a & w & now & b & claim & E & _ & W & _ & _ & [[H1 H2]|(i' & w' & t' & x' & c & I & _)]).
  - exists a, w, now, b, claim. auto.
  - exfalso. eapply H. exact I.
Qed.

(** ** C61 *)

(** Revocation lists and OCSP answers never crash the request as long as the store works. *)
Theorem C61_fetch_never_panics_partial :
  forall o ops i key sn now,
  Forall works ops ->
  snd (fetch_list o i key sn now Works Works (after o ops)) <> OPanic /\
  forall rq, snd (fetch_ocsp o i key sn rq now Works (after o ops)) <> OPanic.
Proof. exact fetch_never_panics. Qed.

Example C61_example : Forall works ex_issue /\ exists l, snd (fetch_list ex_opts 0 (lit "D2") 77 (9000 * second) Works Works (after ex_opts ex_issue)) = OList l.
Proof. split; [repeat constructor|]. eexists. vm_compute. reflexivity. Qed.

(** After a failed write of the first delegate the next request for a list does. *)
Theorem C61_after_failed_write_refuted :
  ~ (forall o ops i key sn now, snd (fetch_list o i key sn now Works Works (after o ops)) <> OPanic).
Proof.
  intros H. apply (H ex_opts [Start 0 (lit "CAKEY") 1 (1000 * second) Works; Rotate 0 (lit "D1") 2 (1002 * second) CommitFails] 0%nat (lit "D2") 77%N (1003 * second)).
  vm_compute. reflexivity.
Qed.

Print Assumptions C43_revoked_for_ever_partial.
Print Assumptions C43_good_unless_revoked.
Print Assumptions C44_numbers_increase.
Print Assumptions C44_complete_partial.
Print Assumptions C44_listed_only_if_revoked.
Print Assumptions C44_current_partial.
Print Assumptions C45_issued_identity.
Print Assumptions C45_client_certificates.
Print Assumptions C45_name_of_one_user.
Print Assumptions C45_revoke_authorised.
Print Assumptions C61_fetch_never_panics_partial.
