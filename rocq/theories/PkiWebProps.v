(** C92: the web page of the certificate authority. *)
From Verif Require Import Base PkiModel PkiSpec PkiProofs PkiProofs2 PkiProofs3 PkiProofs4 PkiProps PkiWebModel PkiWebSpec PkiWebProofs.
Open Scope Z_scope.

(** Each line of the page is about a certificate of the authority, says in which state it
    is, and is one that was asked for. *)
Theorem C92_lines_are_true : forall o files ops j q now p v,
  asks o files ops j q now (APage p) -> In v (p_lines p) ->
  exists email e, user q email /\ knows o ops j e /\ describes q now v e /\
    wants_owner (form q (lit "owner")) email (v_cert v) /\ wants_status (form q (lit "status")) (v_mark v).
Proof.
  intros o files ops j q now p v (m & M & A) I.
  destruct (listed_sound _ _ _ _ _ _ _ A I) as (email & e & U & Ie & D & W & S & _).
  exists email, e. split; [exact U|]. split; [exists m; auto|]. split; [exact D|]. destruct D as (_ & -> & _). auto.
Qed.
Print Assumptions C92_lines_are_true.

(** Each certificate that was asked for has its line. *)
Theorem C92_nothing_is_left_out : forall o files ops j q now p email e m,
  asks o files ops j q now (APage p) -> user q email -> knows o ops j e ->
  wants_owner (form q (lit "owner")) email (en_cert e) -> in_state now e m -> wants_status (form q (lit "status")) m ->
  exists v, In v (p_lines p) /\ describes q now v e.
Proof.
  intros o files ops j q now p email e mk (m & M & A) U (m' & M' & I) W S T. rewrite M in M'. injection M' as <-.
  eapply listed_complete; eauto.
Qed.
Print Assumptions C92_nothing_is_left_out.

(** A certificate that a user was given is on their page for good: under "all", and as valid
    on the page without filters until it expires or its revocation is attempted. *)
Theorem C92_issued_is_listed : forall o files before i w sn now x between c j q t p,
  let ops := before ++ Issue i w sn now x :: between in
  NoDup (serials ops) -> PkiSpec.answer o before (Issue i w sn now x) = OCert c -> j = i \/ starts j between ->
  asks o files ops j q t (APage p) -> q_claims q = w_claims w ->
  (to_lower (form q (lit "status")) = lit "all" ->
     exists v, In v (p_lines p) /\ v_sn v = serial_hex sn /\ v_cert v = c) /\
  (form q (lit "status") = [] -> t <= xc_not_after c -> (forall k y z, ~ In (Revoke k sn y z) ops) ->
     exists v, In v (p_lines p) /\ v_sn v = serial_hex sn /\ v_cert v = c /\ v_mark v = MValid).
Proof.
  intros o files before i w sn now x between c j q t p ops N A J (m & M & Q) C.
  destruct (issued_known _ _ _ _ _ _ _ _ _ _ _ N A J M) as (e & I & Es & Ec).
  destruct (issue_answer _ _ _ _ _ _ _ _ A) as (m0 & cr & _ & _ & _ & R & E0).
  destruct (request_cert_inv _ _ R) as (cl & r0 & Cl & Em).
  assert (U : user q (email_of cl)). { exists cl. split; [congruence|]. now destruct cl. }
  assert (W : wants_owner (form q (lit "owner")) (email_of cl) (en_cert e)).
  { right. rewrite Ec, E0. cbn. decompose [and] Em. match goal with H : cs_emails cr = _ |- _ => rewrite H end. left. reflexivity. }
  split.
  - intros S.
    destruct (listed_complete o files q t (m_db m) p (email_of cl) e (mark_of t e) Q U I W) as (v & Iv & D).
    + now apply mark_of_spec.
    + unfold wants_status. rewrite S. split; [intros [H|H]; discriminate|]. split; discriminate.
    + exists v. destruct D as (D1 & D2 & _). split; [exact Iv|]. split; congruence.
  - intros S T NR.
    assert (Er : en_rev e = None).
    { destruct (en_rev e) as [r|] eqn:Er; [|reflexivity]. exfalso.
      assert (F : In (serial_hex sn) (d_revoked (m_db m))).
      { apply (proj2 (agrees_all o ops) j m M). exists e, r. split; [|exact Er]. rewrite <- Es. apply find_unique; [|exact I].
        exact (proj2 (nodup_all o ops N) j m M). }
      revert F. apply (proj2 (db_inv_in o (fun d => ~ In (serial_hex sn) (d_revoked d)) (fun H => H) ops
        (fun p d d' Ip G Nd => ltac:(destruct (grow_issued o p d d' G) as [[_ ->]|[(c' & _ & -> & _)|(k & n & y & z & -> & -> & _)]]; auto;
           intros [H|H]; [|auto]; apply serial_hex_inj in H; subst n; exact (NR _ _ _ Ip)))) j m M). }
    destruct (listed_complete o files q t (m_db m) p (email_of cl) e MValid Q U I W) as (v & Iv & D).
    + split; [exact Er|]. rewrite Ec. exact T.
    + unfold wants_status. rewrite S. split; [reflexivity|]. split; discriminate.
    + exists v. destruct D as (D1 & D2 & _ & D3 & _). split; [exact Iv|]. repeat split; try congruence.
      destruct (v_mark v); cbn in D3; try congruence. destruct D3. rewrite Ec in *. lia.
Qed.
Print Assumptions C92_issued_is_listed.

(** A certificate that was issued later stands before one that was issued earlier. *)
Theorem C92_newest_first : forall o files b1 i1 w1 sn1 t1 x1 c1 b2 i2 w2 sn2 t2 x2 c2 b3 j q t p v1 v2,
  let first := b1 ++ Issue i1 w1 sn1 t1 x1 :: b2 in
  let ops := first ++ Issue i2 w2 sn2 t2 x2 :: b3 in
  NoDup (serials ops) ->
  PkiSpec.answer o b1 (Issue i1 w1 sn1 t1 x1) = OCert c1 -> PkiSpec.answer o first (Issue i2 w2 sn2 t2 x2) = OCert c2 ->
  j = i2 \/ starts j b3 -> asks o files ops j q t (APage p) ->
  In v1 (p_lines p) -> v_cert v1 = c1 -> In v2 (p_lines p) -> v_cert v2 = c2 ->
  exists above between below, p_lines p = above ++ v2 :: between ++ v1 :: below.
Proof.
  intros o files b1 i1 w1 sn1 t1 x1 c1 b2 i2 w2 sn2 t2 x2 c2 b3 j q t p v1 v2 first ops N A1 A2 J (m & M & Q) I1 E1 I2 E2.
  assert (N2 : NoDup (serials first)). { unfold ops in N. rewrite serials_app in N. exact (NoDup_prefix _ _ N). }
  destruct (issued_has_cert _ _ _ _ _ _ _ _ _ N2 A1) as [(e1 & F1 & C1) S1]. apply find_In in F1 as [F1 G1]. fold first in F1.
  destruct (issue_answer _ _ _ _ _ _ _ _ A2) as (m0 & cr & M0 & D0 & R0 & _ & Ec2).
  assert (S2 : xc_serial c2 = sn2) by (rewrite Ec2; reflexivity).
  assert (O : in_order (serial_hex sn1) (serial_hex sn2) (map en_serial (d_issued (m_db m)))).
  { eapply (from_then o (fun d => in_order (serial_hex sn1) (serial_hex sn2) (map en_serial (d_issued d)))); [apply grow_order| | |exact J|exact M].
    - rewrite after_snoc, R0. unfold add_cert. cbn [d_issued]. rewrite map_app. cbn [map en_serial]. rewrite S2.
      apply in_split in F1 as (a & b & ->). rewrite map_app. cbn [map]. rewrite G1.
      exists (map en_serial a), (map en_serial b), []. rewrite <- app_assoc. reflexivity.
    - intros m1 M1. rewrite after_snoc in *. rewrite M0 in M1. injection M1 as <-. exact D0. }
  assert (ND := proj2 (nodup_all o ops N) j m M).
  destruct O as (a & b & c & O). destruct (in_order_map _ _ _ _ _ _ _ O) as (a' & d1 & b' & d2 & c' & L & H1 & H2).
  assert (SA := proj2 (serials_all o ops) j m M).
  destruct (page_inv _ _ _ _ _ _ Q) as (email & _ & _ & _ & E). rewrite E in *.
  assert (K : forall v k d, In v (lines email (is_admin o q email) (to_lower (form q (lit "owner"))) (to_lower (form q (lit "status")))
                   (match q_peer q with Some n => serial_hex n | None => [] end) t (m_db m)) ->
                 xc_serial (v_cert v) = k -> In d (d_issued (m_db m)) -> en_serial d = serial_hex k ->
                 v = line_of email (is_admin o q email) (match q_peer q with Some n => serial_hex n | None => [] end) t d /\
                 passes email (to_lower (form q (lit "owner"))) (to_lower (form q (lit "status"))) t d = true).
  { intros v k d I Ek Id Ed. apply lines_In in I as (e & Ie & P & ->). cbn in Ek.
    assert (e = d) by (eapply nodup_same; [exact ND|exact Ie|exact Id|rewrite Ed, (SA _ Ie), Ek; reflexivity]). subst d. auto. }
  destruct (K v1 sn1 d1 I1) as [-> P1]; [congruence|rewrite L; apply in_elt|exact H1|].
  destruct (K v2 sn2 d2 I2) as [-> P2]; [congruence|rewrite L; apply in_or_app; right; right; apply in_elt|exact H2|].
  unfold lines. rewrite L, !filter_app. cbn [filter]. rewrite P1, !filter_app. cbn [filter]. rewrite P2.
  rewrite !map_app. cbn [map]. rewrite !map_app. cbn [map]. rewrite rev_app_distr. cbn [rev]. rewrite rev_app_distr. cbn [rev].
  repeat (rewrite <- app_assoc; cbn [app]). eexists. eexists. eexists. reflexivity.
Qed.
Print Assumptions C92_newest_first.

(** A user who presses Revoke on a line of one of their certificates revokes it.  Missing:
    administrators, see below. *)
Theorem C92_revoke_button_partial : forall o files ops j q now p v email later,
  NoDup (serials ops) -> asks o files ops j q now (APage p) -> In v (p_lines p) -> revoke_button v = true ->
  user q email -> In email (xc_emails (v_cert v)) -> later <= xc_not_after (v_cert v) ->
  asks o files ops j (press_revoke q (v_sn v)) later (ARevoke (xc_serial (v_cert v))) /\
  v_sn v = serial_hex (xc_serial (v_cert v)).
Proof.
  intros o files ops j q now p v email later N (m & M & A) I B U E T.
  destruct (listed_sound _ _ _ _ _ _ _ A I) as (email' & e & U' & Ie & (D1 & D2 & _ & D3 & _) & _ & _ & _).
  assert (ND := proj2 (nodup_all o ops N) j m M). assert (SA := proj2 (serials_all o ops) j m M).
  split; [|rewrite D1, D2; auto].
  exists m. split; [exact M|]. apply andb_true_iff in B as [B _]. apply mark_eqb_spec in B. rewrite B in D3. destruct D3 as [Rv _].
  apply page_ca in A. rewrite D2 in E, T |- *. rewrite D1. apply (press_revoke_own o files q email); assumption.
Qed.
Print Assumptions C92_revoke_button_partial.

(** The rights of the lines are those of the requests: on a line of a valid certificate,
    the page offers revocation just when a request like the one for the page, by the same
    user, would be granted.  The certificates of the authority itself are the exception:
    an administrator can revoke them too. *)
Theorem C92_offered_iff_granted : forall o files ops j q now p v email later,
  NoDup (serials ops) -> asks o files ops j q now (APage p) -> In v (p_lines p) -> v_mark v = MValid ->
  user q email -> later <= xc_not_after (v_cert v) ->
  (asks o files ops j (revoke_request q (v_sn v)) later (ARevoke (xc_serial (v_cert v))) <->
   revoke_button v = true \/ (xc_ca (v_cert v) = true /\ (acting_admin o q email \/ In email (xc_emails (v_cert v))))).
Proof.
  intros o files ops j q now p v email later N (m & M & A) I B U T.
  destruct (listed_sound _ _ _ _ _ _ _ A I) as (email' & e & U' & Ie & (D1 & D2 & _ & D3 & _) & _ & _ & Can).
  rewrite (user_unique _ _ _ U' U) in Can. clear U' email'.
  assert (ND := proj2 (nodup_all o ops N) j m M). apply page_ca in A. rewrite B in D3. destruct D3 as [Rv _].
  assert (V : manage o files (revoke_request q (v_sn v)) later (m_db m) =
    if is_admin o q email || mem email (xc_emails (v_cert v)) then ARevoke (xc_serial (v_cert v)) else ADenied).
  { rewrite (revoke_at o files _ email later (m_db m) (en_serial e)).
    - rewrite (found _ _ ND A Ie), Rv, <- D2. destruct (Z.ltb_spec (xc_not_after (v_cert v)) later); [lia|]. reflexivity.
    - destruct U as (c & C & E). exists c. auto.
    - rewrite D1. repeat split. }
  unfold revoke_button. rewrite B, Can, <- D2. cbn [mark_eqb andb]. split.
  - intros (m' & M' & Q). rewrite M in M'. injection M' as <-. rewrite V in Q.
    destruct (is_admin o q email) eqn:Ad; cbn [orb] in *.
    + apply is_admin_spec in Ad. destruct (xc_ca (v_cert v)); auto.
    + destruct (mem email (xc_emails (v_cert v))) eqn:Me; [|discriminate]. apply mem_spec in Me. destruct (xc_ca (v_cert v)); auto.
  - intros H. exists m. split; [exact M|]. rewrite V.
    assert (H' : is_admin o q email || mem email (xc_emails (v_cert v)) = true).
    { destruct H as [H|[_ [H|H]]]; [apply andb_true_iff in H; apply H| |]; apply orb_true_iff; [left; now apply is_admin_spec|right; now apply mem_spec]. }
    now rewrite H'.
Qed.
Print Assumptions C92_offered_iff_granted.

(** The button Revoke never revokes a certificate of somebody else, whatever rights the
    user has and whatever page it is on: its request does not ask for the rights of an
    administrator. *)
Theorem C92_button_only_for_own : forall o files ops j q sn now n email,
  asks o files ops j (press_revoke q sn) now (ARevoke n) -> user q email ->
  exists e, knows o ops j e /\ en_serial e = sn /\ xc_serial (en_cert e) = n /\ In email (xc_emails (en_cert e)).
Proof.
  intros o files ops j q sn now n email (m & M & A) U.
  rewrite (revoke_at o files _ email now (m_db m) sn (press_user _ _ _ U) (press_is _ _)) in A.
  destruct (find_cert sn (m_db m)) as [x|] eqn:F; [|discriminate]. destruct (_ <? _); [discriminate|].
  rewrite press_not_admin in A. cbn [orb] in A. destruct (mem email (xc_emails x)) eqn:Me; [|discriminate].
  injection A as <-. destruct (found_inv _ _ _ F) as (e & I & E & <- & _). exists e. apply mem_spec in Me.
  split; [exists m; auto|]. auto.
Qed.
Print Assumptions C92_button_only_for_own.

(** The files that are embedded. *)
Definition ex_files : list (str * str) := [(lit "certs.js", lit """1a"""); (lit "sw.js", lit """2b""")].
Definition ex_query (user : str) (f : list (str * str)) : query :=
  {| q_claims := Some (Some user); q_method := lit "GET"; q_form := f; q_csrf := []; q_content_type := [];
     q_if_none_match := []; q_peer := None; q_csr := None |}.
Definition as_admin : query := ex_query (lit "admin@x") [(lit "admin", lit "1"); (lit "owner", lit "ALL")].

(** So an administrator is shown a button that does not work. *)
Theorem C92_admin_button_refuted :
  ~ (forall o files ops j q now p v later,
     NoDup (serials ops) -> asks o files ops j q now (APage p) -> In v (p_lines p) -> revoke_button v = true ->
     later <= xc_not_after (v_cert v) -> exists n, asks o files ops j (press_revoke q (v_sn v)) later (ARevoke n)).
Proof.
  intros H.
  assert (Q : exists p v, asks ex_opts ex_files ex_issue 0 as_admin (1010 * second) (APage p) /\ In v (p_lines p) /\
            revoke_button v = true /\ 1010 * second <= xc_not_after (v_cert v) /\ v_cert v = ex_alice).
  { eexists. eexists. split; [eexists; split; [reflexivity|vm_compute; reflexivity]|].
    split; [right; right; left; reflexivity|]. split; [reflexivity|]. split; [vm_compute; discriminate|vm_compute; reflexivity]. }
  destruct Q as (p & v & A & I & B & T & E).
  destruct (H ex_opts ex_files ex_issue 0%nat as_admin (1010 * second) p v (1010 * second)) as (n & K); auto.
  - repeat constructor; cbn; intuition discriminate.
  - destruct (C92_button_only_for_own _ _ _ _ _ _ _ _ (lit "admin@x") K) as (e & (m & M & Ie) & Es & En & Em).
    { exists (Some (lit "admin@x")). split; reflexivity. }
    vm_compute in M. injection M as <-. cbn in Ie.
    decompose [or] Ie; try contradiction; subst e; cbn in Em; intuition discriminate.
Qed.
Print Assumptions C92_admin_button_refuted.

(** Also the filters drop the rights of an administrator: on a page that was reached with
    them the button is only on the user's own certificates. *)
Theorem C92_filters_drop_admin : forall o files ops j q owner status now p v email,
  asks o files ops j (choose q owner status) now (APage p) -> user q email -> In v (p_lines p) ->
  revoke_button v = true -> In email (xc_emails (v_cert v)).
Proof.
  intros o files ops j q owner status now p v email (m & M & A) U I B.
  destruct (listed_sound _ _ _ _ _ _ _ A I) as (email' & e & U' & Ie & (_ & D2 & _) & _ & _ & Can).
  assert (U2 : user (choose q owner status) email) by exact U. rewrite (user_unique _ _ _ U' U2) in Can.
  apply andb_true_iff in B as [_ B]. rewrite Can in B. apply andb_true_iff in B as [_ B]. rewrite D2.
  change (is_admin o (choose q owner status) email) with false in B. cbn [orb] in B. now apply mem_spec.
Qed.
Print Assumptions C92_filters_drop_admin.

(** View and Download show the certificate of the line, to every user, if it is not revoked. *)
Theorem C92_view_button_partial : forall o files ops j q now p v later,
  NoDup (serials ops) -> asks o files ops j q now (APage p) -> In v (p_lines p) -> v_mark v <> MRevoked ->
  exists name, asks o files ops j (press_view q (v_sn v)) later (ADownload name (v_cert v)).
Proof.
  intros o files ops j q now p v later N (m & M & A) I K.
  destruct (listed_sound _ _ _ _ _ _ _ A I) as (email & e & (c & C & _) & Ie & (D1 & D2 & _ & D3 & _) & _).
  assert (ND := proj2 (nodup_all o ops N) j m M). apply page_ca in A.
  assert (R : en_rev e = None) by (destruct (v_mark v); cbn in D3; [apply D3|congruence|apply D3]).
  eexists. exists m. split; [exact M|]. unfold manage. cbn [press_view q_claims]. rewrite C. cbv zeta.
  unfold form at 1 2 3. cbn [press_view q_form]. cbn. unfold handle_download. cbn. rewrite D1, (found _ _ ND A Ie), R, D2. reflexivity.
Qed.
Print Assumptions C92_view_button_partial.

(** They are also on the lines of revoked certificates, where they fail. *)
Theorem C92_view_button_refuted :
  ~ (forall o files ops j q now p v later,
     NoDup (serials ops) -> asks o files ops j q now (APage p) -> In v (p_lines p) -> view_button v = true ->
     exists name, asks o files ops j (press_view q (v_sn v)) later (ADownload name (v_cert v))).
Proof.
  intros H.
  assert (Q : exists p v, asks ex_opts ex_files (ex_issue ++ [ex_check; ex_revoke]) 0 (ex_query (lit "alice@x") [(lit "status", lit "revoked")]) (1010 * second) (APage p) /\
            In v (p_lines p) /\ v_sn v = lit "01:f4").
  { eexists. eexists. split; [eexists; split; [reflexivity|vm_compute; reflexivity]|]. split; [left; reflexivity|reflexivity]. }
  destruct Q as (p & v & A & I & E).
  assert (N : NoDup (serials (ex_issue ++ [ex_check; ex_revoke]))) by (repeat constructor; cbn; intuition discriminate).
  destruct (H _ _ _ _ _ _ _ _ (1010 * second)%Z N A I eq_refl) as (name & (m & M & K)).
  rewrite E in K. vm_compute in M. injection M as <-. vm_compute in K. discriminate.
Qed.
Print Assumptions C92_view_button_refuted.

(** A certificate that is handed out for download is not revoked. *)
Theorem C92_download_not_revoked : forall o files ops j q now name c,
  asks o files ops j q now (ADownload name c) ->
  exists e, knows o ops j e /\ en_serial e = form q (lit "sn") /\ en_cert e = c /\ en_rev e = None.
Proof.
  intros o files ops j q now name c (m & M & A). destruct (manage_download _ _ _ _ _ _ _ A) as (e & I & H).
  exists e. split; [exists m; auto|exact H].
Qed.
Print Assumptions C92_download_not_revoked.

(** Nothing is issued or revoked without a POST request of a signed-in user with the header
    x-csrf-check, which a form on another site cannot send. *)
Theorem C92_changes_are_deliberate : forall o files ops j q now a,
  asks o files ops j q now a -> (exists cr, a = ARequest cr) \/ (exists n, a = ARevoke n) ->
  (exists email, user q email) /\ q_method q = lit "POST" /\ q_csrf q = lit "1".
Proof.
  intros o files ops j q now a (m & M & A) C. destruct (manage_change _ _ _ _ _ _ A C) as (Q & P & X).
  split; [|auto]. destruct (q_claims q) as [c|] eqn:E; [|congruence]. eexists. exists c. split; [exact E|reflexivity].
Qed.
Print Assumptions C92_changes_are_deliberate.

(** What is refused, and how: without a signed-in user nothing is done; an unknown operation,
    or a known one with the wrong method or without the header, is a bad request. *)
Theorem C92_refusals : forall o files ops j q now a, asks o files ops j q now a ->
  (q_claims q = None -> a = AError 500) /\
  (q_claims q <> None ->
   (~ In (form q (lit "get")) [[]; lit "requestCert"; lit "revokeCert"; lit "downloadCert"; lit "static"] -> a = AError 400) /\
   (form q (lit "get") = lit "revokeCert" -> q_method q <> lit "POST" \/ q_csrf q <> lit "1" -> a = AError 400) /\
   (In (form q (lit "get")) [lit "downloadCert"; lit "static"] -> q_method q <> lit "GET" -> a = AError 400) /\
   (form q (lit "get") = lit "static" -> q_method q = lit "GET" -> assoc (form q (lit "file")) files = None -> a = AError 404) /\
   (form q (lit "get") = [] -> a = AError 500 \/ exists p, a = APage p)).
Proof.
  intros o files ops j q now a (m & _ & A). unfold manage in A. split; [intros E; rewrite E in A; auto|].
  destruct (q_claims q) as [c|]; [|contradiction]. intros _. cbv zeta in A. split; [|split; [|split; [|split]]].
  - intros N. rewrite !(proj2 (str_eqb_neq _ _)) in A by (intros X; apply N; rewrite X; cbn; tauto). cbn [negb] in A. auto.
  - intros E H. rewrite E in A. change (str_eqb (lit "revokeCert") (lit "requestCert")) with false in A. rewrite str_eqb_refl in A. unfold handle_revoke in A.
    destruct (str_eqb (q_method q) (lit "POST")) eqn:M; [|auto]. cbn [negb] in A. apply str_eqb_spec in M. destruct H as [H|H]; [contradiction|].
    rewrite (proj2 (str_eqb_neq _ _) H) in A. auto.
  - intros H M. apply str_eqb_neq in M. destruct H as [H|[H|[]]]; rewrite <- H in A.
    + change (str_eqb (lit "downloadCert") (lit "requestCert")) with false in A. change (str_eqb (lit "downloadCert") (lit "revokeCert")) with false in A.
      rewrite str_eqb_refl in A. unfold handle_download in A. rewrite M in A. auto.
    + change (str_eqb (lit "static") (lit "requestCert")) with false in A. change (str_eqb (lit "static") (lit "revokeCert")) with false in A.
      change (str_eqb (lit "static") (lit "downloadCert")) with false in A. rewrite str_eqb_refl in A. unfold handle_static in A. rewrite M in A. auto.
  - intros E M F. rewrite E in A. change (str_eqb (lit "static") (lit "requestCert")) with false in A. change (str_eqb (lit "static") (lit "revokeCert")) with false in A.
    change (str_eqb (lit "static") (lit "downloadCert")) with false in A. rewrite str_eqb_refl in A. unfold handle_static in A. rewrite M, str_eqb_refl, F in A. auto.
  - intros E. rewrite E in A. cbn [str_eqb negb] in A. change (str_eqb [] (lit "requestCert")) with false in A. change (str_eqb [] (lit "revokeCert")) with false in A.
    change (str_eqb [] (lit "downloadCert")) with false in A. change (str_eqb [] (lit "static")) with false in A. destruct (d_ca _); [right; eexists; symmetry; exact A|auto].
Qed.
Print Assumptions C92_refusals.

(** The page of alice before and after they press Revoke. *)
Example C92_example :
  (exists p v, asks ex_opts ex_files ex_issue 0 (ex_query (lit "alice@x") []) (1010 * second) (APage p) /\ p_lines p = [v] /\
     v_cert v = ex_alice /\ v_mark v = MValid /\ revoke_button v = true /\
     asks ex_opts ex_files ex_issue 0 (press_revoke (ex_query (lit "alice@x") []) (v_sn v)) (1010 * second) (ARevoke 500)) /\
  (exists p, asks ex_opts ex_files (ex_issue ++ [ex_check; ex_revoke]) 0 (ex_query (lit "alice@x") []) (1010 * second) (APage p) /\ p_lines p = []) /\
  (exists p v, asks ex_opts ex_files (ex_issue ++ [ex_check; ex_revoke]) 0 (ex_query (lit "alice@x") [(lit "status", lit "Revoked")]) (1010 * second) (APage p) /\
     p_lines p = [v] /\ v_mark v = MRevoked /\ v_rev v = Some (1005 * second)) /\
  (exists p, asks ex_opts ex_files ex_issue 0 as_admin (1010 * second) (APage p) /\
     map v_sn (p_lines p) = [lit "02:58"; lit "02"; lit "01:f4"; lit "01"] /\ map revoke_button (p_lines p) = [true; false; true; false]) /\
  (exists cr, asks ex_opts ex_files ex_issue 0 (press_request (ex_query (lit "bob@x") []) (ex_csr [])) 0 (ARequest cr) /\ cs_emails cr = [lit "bob@x"]) /\
  asks ex_opts ex_files ex_issue 0 (ex_query (lit "bob@x") [(lit "get", lit "static"); (lit "file", lit "sw.js")]) 0 (AFile (lit "sw.js")).
Proof.
  Local Ltac page := eexists; split; [reflexivity|vm_compute; reflexivity].
  split. { eexists. eexists. split; [page|]. split; [reflexivity|]. split; [vm_compute; reflexivity|]. split; [reflexivity|]. split; [reflexivity|]. page. }
  split. { eexists. split; [page|reflexivity]. }
  split. { eexists. eexists. split; [page|]. split; [reflexivity|]. split; reflexivity. }
  split. { eexists. split; [page|]. split; reflexivity. }
  split. { eexists. split; [page|reflexivity]. }
  page.
Qed.
