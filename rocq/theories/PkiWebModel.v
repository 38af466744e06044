(** The web page of the certificate authority: internal/pki/http.go, the page certs.html
    and its script certs.js.

    The data are those of PkiModel.  A request is answered from what the manager has in
    memory ([d] below).  Certificates in the file parse, as those that the authority has
    made do (http.go:261-265, 299-303), and strings.ToLower is that of ASCII. *)
From Verif Require Import Base PkiModel.
Open Scope Z_scope.

(** A request to the management page.  [q_form]: req.Form; [q_peer]: the serial number of
    the client certificate; the other fields are as in PkiModel.web. *)
Record query := {
  q_claims : option (option str); q_method : str; q_form : list (str * str); q_csrf : str;
  q_content_type : str; q_if_none_match : str; q_peer : option N; q_csr : option csr
}.

(** url.Values.Get: the first value, or the empty string *)
Definition form (q : query) (k : str) : str := match assoc k (q_form q) with Some v => v | None => [] end.

(** Artefact: the request as handleRequestCert and handleRevokeCert see it. *)
Definition to_web (q : query) : web :=
  {| w_claims := q_claims q; w_method := q_method q; w_csrf := q_csrf q; w_content_type := q_content_type q;
     w_admin := form q (lit "admin"); w_sn := form q (lit "sn"); w_csr := q_csr q |}.

(** http.go:273-278: what has become of a certificate *)
Inductive mark := MValid | MRevoked | MExpired.
(** http.go:269-278.  A revocation has a time (pki.go:700-708). *)
Definition mark_of (now : Z) (e : entry) : mark :=
  match en_rev e with
  | Some _ => MRevoked
  | None => if xc_not_after (en_cert e) <? now then MExpired else MValid
  end.
(** Artefact: decidable equality. *)
Definition mark_eqb (a b : mark) : bool :=
  match a, b with MValid, MValid | MRevoked, MRevoked | MExpired, MExpired => true | _, _ => false end.
(** http.go:279-287: the filter by status *)
Definition status_passes (f : str) (s : mark) : bool :=
  if (str_eqb f [] || str_eqb f (lit "valid")) && negb (mark_eqb s MValid) then false
  else if str_eqb f (lit "revoked") && negb (mark_eqb s MRevoked) then false
  else if str_eqb f (lit "expired") && negb (mark_eqb s MExpired) then false
  else true.

(** http.go:241-256: a line of the page *)
Record line := {
  v_sn : str; v_cert : xcert; v_mark : mark; v_rev : option Z; v_used : bool; v_can : bool
}.
(** certs.html:67-69: View and Download are on each line *)
Definition view_button (v : line) : bool := true.
(** certs.html:70-74 *)
Definition revoke_button (v : line) : bool := mark_eqb (v_mark v) MValid && v_can v.

(** http.go:304-319: one certificate *)
Definition line_of (email : str) (is_admin : bool) (current : str) (now : Z) (e : entry) : line :=
  let c := en_cert e in
  {| v_sn := en_serial e; v_cert := c; v_mark := mark_of now e; v_rev := option_map rv_time (en_rev e);
     v_used := str_eqb current (en_serial e);
     v_can := negb (xc_ca c) && (is_admin || mem email (xc_emails c)) |}.
(** http.go:266-287: the filters *)
Definition passes (email owner status : str) (now : Z) (e : entry) : bool :=
  (str_eqb owner (lit "all") || mem email (xc_emails (en_cert e))) && status_passes status (mark_of now e).
(** http.go:257-321: all lines *)
Definition lines (email : str) (is_admin : bool) (owner status current : str) (now : Z) (d : db) : list line :=
  rev (map (line_of email is_admin current now) (filter (passes email owner status now) (d_issued d))).

(** http.go:323-339: what is on the page, besides the certificate of the authority *)
Record page := { p_owner : str; p_status : str; p_email : str; p_lines : list line }.

(** The answers.  [AError]: an HTTP error; [ARequest]: handleRequestCert goes on to
    IssueCertificate; [ADenied]: "permission denied"; [ARevoke]: handleRevokeCert goes on to
    RevokeCertificate. *)
Inductive answer :=
| AError (code : Z)
| APage (p : page)
| ARequest (cr : csr)
| ADenied
| ARevoke (sn : N)
| ADownload (filename : str) (c : xcert)
| AFile (name : str)
| ANotModified.

(** http.go:190-197: the rights of an administrator have to be asked for *)
Definition is_admin (o : opts) (q : query) (email : str) : bool :=
  negb (str_eqb (form q (lit "admin")) []) && mem email (o_admins o).

(** http.go:411-457 handleRevokeCert, with its answers *)
Definition handle_revoke (o : opts) (q : query) (email : str) (now : Z) (d : db) : answer :=
  if negb (str_eqb (q_method q) (lit "POST")) then AError 400
  else if negb (str_eqb (q_csrf q) (lit "1")) then AError 400
  else match find_cert (form q (lit "sn")) d with
       | None => AError 500
       | Some x =>
           if xc_not_after x <? now then AError 400
           else if negb (is_admin o q email) && negb (mem email (xc_emails x)) then ADenied
           else ARevoke (xc_serial x)
       end.

(** strings.ReplaceAll(sn, ":", "") *)
Definition without_colons (s : str) : str := filter (fun c => negb (Ascii.eqb c ":")) s.

(** http.go:459-476 handleDownloadCert *)
Definition handle_download (q : query) (d : db) : answer :=
  if negb (str_eqb (q_method q) (lit "GET")) then AError 400
  else match find_cert (form q (lit "sn")) d with
       | None => AError 500
       | Some x => ADownload (without_colons (form q (lit "sn")) ++ lit ".pem") x
       end.

(** http.go:478-509 handleStaticFile.  [files]: the embedded files with their tags; the name
    of the directory itself (".") is left out. *)
Definition handle_static (files : list (str * str)) (q : query) : answer :=
  if negb (str_eqb (q_method q) (lit "GET")) then AError 400
  else match assoc (form q (lit "file")) files with
       | None => AError 404
       | Some tag => if str_eqb (q_if_none_match q) tag then ANotModified else AFile (form q (lit "file"))
       end.

(** http.go:187-342 ServeCertificateManagement *)
Definition manage (o : opts) (files : list (str * str)) (q : query) (now : Z) (d : db) : answer :=
  match q_claims q with
  | None => AError 500
  | Some c =>
      let email := email_of c in
      let mode := form q (lit "get") in
      if str_eqb mode (lit "requestCert") then
        match request_cert (to_web q) with Some cr => ARequest cr | None => AError 400 end
      else if str_eqb mode (lit "revokeCert") then handle_revoke o q email now d
      else if str_eqb mode (lit "downloadCert") then handle_download q d
      else if str_eqb mode (lit "static") then handle_static files q
      else if negb (str_eqb mode []) then AError 400
      else match d_ca d with
           | None => AError 500
           | Some _ =>
               let owner := to_lower (form q (lit "owner")) in
               let status := to_lower (form q (lit "status")) in
               let current := match q_peer q with Some n => serial_hex n | None => [] end in
               APage {| p_owner := owner; p_status := status; p_email := email;
                        p_lines := lines email (is_admin o q email) owner status current now d |}
           end
  end.

(** ** The buttons *)

(** certs.js:53-83 revokeCert: what the browser sends when Revoke is pressed on the page that
    was fetched with [q].  The query of the page is not in it. *)
Definition press_revoke (q : query) (sn : str) : query :=
  {| q_claims := q_claims q; q_method := lit "POST"; q_form := [(lit "sn", sn); (lit "get", lit "revokeCert")];
     q_csrf := lit "1"; q_content_type := lit "application/x-www-form-urlencoded"; q_if_none_match := [];
     q_peer := q_peer q; q_csr := None |}.
(** certs.js:84-86, 149-166 downloadCert, showView *)
Definition press_view (q : query) (sn : str) : query :=
  {| q_claims := q_claims q; q_method := lit "GET"; q_form := [(lit "get", lit "downloadCert"); (lit "sn", sn)];
     q_csrf := []; q_content_type := []; q_if_none_match := []; q_peer := q_peer q; q_csr := None |}.
(** certs.js:24-52 requestCert, with a PEM block [b] in the text field *)
Definition press_request (q : query) (b : csr) : query :=
  {| q_claims := q_claims q; q_method := lit "POST"; q_form := [(lit "get", lit "requestCert")];
     q_csrf := lit "1"; q_content_type := lit "application/x-pem-file"; q_if_none_match := [];
     q_peer := q_peer q; q_csr := Some b |}.
(** certs.html:25-36: choosing a filter submits the form, with these two fields *)
Definition choose (q : query) (owner status : str) : query :=
  {| q_claims := q_claims q; q_method := lit "GET"; q_form := [(lit "owner", owner); (lit "status", status)];
     q_csrf := []; q_content_type := []; q_if_none_match := []; q_peer := q_peer q; q_csr := None |}.
