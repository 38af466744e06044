(** The built-in certificate authority: internal/pki/pki.go and http.go.

    An operation is one critical section of a manager (under [mu], and under the lock of
    the file that [open] takes) with the pure computations of its request.  The state
    keeps what is on disk and what each manager has in memory.  There can be several
    managers for the same file: proxy.go:390-412 makes a new one at each
    reconfiguration, and requests in flight keep the old one (backend.go:71).

    Keys, hashes, signatures and the encoding of certificates are left out: what is
    signed is kept as a value, and times in it are whole seconds, as in the encoding.
    Clock readings are nanoseconds. *)
From Verif Require Import Base.
Open Scope Z_scope.

(** ** Serial numbers *)

(** big.Int.Bytes: big endian, no leading zero *)
Fixpoint be_bytes (fuel : nat) (n : N) (acc : str) : str :=
  match fuel with
  | O => acc
  | S f => if (n =? 0)%N then acc else be_bytes f (n / 256)%N (ascii_of_N (n mod 256) :: acc)
  end.
(** big.Int.Bytes *)
Definition big_bytes (n : N) : str := be_bytes (N.size_nat n) n [].

(** Artefact: a hexadecimal digit. *)
Definition hex_digit (n : N) : ascii := ascii_of_N (if (n <? 10)%N then 48 + n else 87 + n)%N.
(** fmt.Sprintf("%02x", v) *)
Definition hex2 (a : ascii) : str := [hex_digit (N_of_ascii a / 16); hex_digit (N_of_ascii a mod 16)].
(** pki.go:834-840 bytesToHex *)
Definition bytes_to_hex (b : str) : str := join ":" (map hex2 b).
(** pki.go:834-840 bytesToHex of SerialNumber.Bytes() *)
Definition serial_hex (n : N) : str := bytes_to_hex (big_bytes n).

(** ** The data of the authority *)

(** time.Second *)
Definition second := 1000000000.
(** time.Hour *)
Definition hour := 3600 * second.
(** Artefact: 24 hours. *)
Definition day := 24 * hour.
(** pki.go:72-76 *)
Definition crl_refresh := hour.
(** pki.go:73 *)
Definition ca_lifetime := 10 * 365 * day.
(** pki.go:74 *)
Definition delegate_lifetime := 10 * day.
(** pki.go:75 *)
Definition issued_lifetime := 10 * 365 * day.
(** pki.go:76 *)
Definition max_crl : nat := 128.

(** time.Truncate(time.Second), and what the encoding of a time keeps *)
Definition trunc (t : Z) : Z := t / second * second.

(** x509.ExtKeyUsage *)
Inductive usage := ClientAuth | ServerAuth | OCSPSigning.
(** An x509.Certificate, as far as it is used. *)
Record xcert := {
  xc_serial : N; xc_cn : str; xc_pub : str; xc_emails : list str; xc_dns : list str; xc_ips : list str; xc_uris : list str;
  xc_usages : list usage; xc_ca : bool; xc_not_before : Z; xc_not_after : Z
}.
(** pki.go:202-205 *)
Record revocation := { rv_time : Z; rv_reason : Z }.
(** pki.go:167-174 *)
Record entry := { en_serial : str; en_cert : xcert; en_rev : option revocation }.
(** pki.go:207-210 and x509.RevocationList; the signer stands for RawCert *)
Record rlist := { rl_number : Z; rl_this : Z; rl_next : Z; rl_entries : list (N * revocation); rl_signer : xcert }.
(** pki.go:155-165.  [d_key] stands for the key pair, if it was made. *)
Record db := {
  d_key : option str; d_ca : option xcert; d_delegate_key : str; d_delegates : list xcert; d_issued : list entry;
  d_number : Z; d_lists : list rlist; d_revoked : list str
}.
(** pki.go:240-246: a new file. *)
Definition empty_db : db :=
  {| d_key := None; d_ca := None; d_delegate_key := []; d_delegates := []; d_issued := []; d_number := 0; d_lists := []; d_revoked := [] |}.

(** m.opts, as far as it is used *)
Record opts := { o_name : str; o_admins : list str }.

(** What the store and the signing code do in an operation. *)
Inductive io := Works | OpenFails | SignFails | CommitFails.

(** golang.org/x/crypto/ocsp: Good, Revoked, Unknown. *)
Inductive status := Good | Revoked | Unknown.
(** Artefact: the answers. *)
Inductive out :=
| ONothing
| ONotRunning                     (* artefact: there is no such manager *)
| OErr                            (* an error is returned *)
| OPanic                          (* run-time panic *)
| ODone
| OCert (c : xcert)
| OList (l : rlist)
| OStatus (s : status) (serial : N) (rev : option revocation)
| OBool (b : bool)
| OAllowed (serial : N).          (* handleRevokeCert goes on to RevokeCertificate *)

(** pki.go:276, 398: half of the lifetime of a certificate has passed. *)
Definition half_life_passed (c : xcert) (now : Z) : bool :=
  xc_not_before c + (xc_not_after c - xc_not_before c) / 2 <? now.

(** pki.go:286-299: the certificate of the authority *)
Definition ca_cert (o : opts) (key : str) (sn : N) (now : Z) : xcert :=
  {| xc_serial := sn; xc_cn := o_name o; xc_pub := key; xc_emails := []; xc_dns := []; xc_ips := []; xc_uris := []; xc_usages := [];
     xc_ca := true; xc_not_before := trunc now; xc_not_after := trunc (now + ca_lifetime) |}.

(** pki.go:224-316 initCA, on what [open] has read.  [key]: a generated key. *)
Definition init_ca (o : opts) (key : str) (sn : N) (now : Z) (d : db) : db * bool :=
  let '(k, changed) := match d_key d with None => (key, true) | Some k => (k, false) end in
  let need := match d_ca d with None => true | Some c => half_life_passed c now end in
  let d1 := {| d_key := Some k; d_ca := d_ca d; d_delegate_key := d_delegate_key d; d_delegates := d_delegates d; d_issued := d_issued d;
               d_number := d_number d; d_lists := d_lists d; d_revoked := d_revoked d |} in
  if need then
    let c := ca_cert o k sn now in
    ({| d_key := Some k; d_ca := Some c; d_delegate_key := d_delegate_key d; d_delegates := d_delegates d;
        d_issued := d_issued d ++ [{| en_serial := serial_hex sn; en_cert := c; en_rev := None |}];
        d_number := d_number d; d_lists := d_lists d; d_revoked := d_revoked d |}, true)
  else (d1, changed).

(** pki.go:772-821 signCertificate: what is appended *)
Definition add_cert (c : xcert) (d : db) : db :=
  {| d_key := d_key d; d_ca := d_ca d; d_delegate_key := d_delegate_key d; d_delegates := d_delegates d;
     d_issued := d_issued d ++ [{| en_serial := serial_hex (xc_serial c); en_cert := c; en_rev := None |}];
     d_number := d_number d; d_lists := d_lists d; d_revoked := d_revoked d |}.

(** pki.go:387-403 maybeRotateDelegateCert: whether a new delegate is needed.
    Simplified: the types of keys are not modelled here, and with a type written as documented
    a delegate has no Ed25519 key (pki.go:410-413), so that clause is left out.  The other
    types are in AuthorityModel.v (C98). *)
Definition delegate_due (now : Z) (d : db) : bool :=
  match d_delegates d with
  | [] => true
  | c :: _ => half_life_passed c now
  end.
(** pki.go:425-443: the certificate of the delegate *)
Definition delegate_cert (o : opts) (key : str) (sn : N) (now : Z) : xcert :=
  {| xc_serial := sn; xc_cn := o_name o ++ lit " CRL OCSP"; xc_pub := key; xc_emails := []; xc_dns := []; xc_ips := []; xc_uris := [];
     xc_usages := [OCSPSigning]; xc_ca := true; xc_not_before := trunc now; xc_not_after := trunc (now + delegate_lifetime) |}.
(** pki.go:444-453: [next] of signCertificate *)
Definition install_delegate (key : str) (c : xcert) (d : db) : db :=
  {| d_key := d_key d; d_ca := d_ca d; d_delegate_key := key; d_delegates := c :: firstn 1 (d_delegates d); d_issued := d_issued d;
     d_number := d_number d; d_lists := d_lists d; d_revoked := d_revoked d |}.

(** pki.go:499-504: the last revocation; None is the zero time *)
Definition later (a : option Z) (t : Z) : option Z :=
  match a with Some u => if u <? t then Some t else a | None => Some t end.
(** pki.go:499-504: the time of the last revocation. *)
Definition last_revocation (l : list entry) : option Z :=
  fold_left (fun a e => match en_rev e with Some r => later a (rv_time r) | None => a end) l None.

(** x509.RevocationList entries, pki.go:528-544 *)
Fixpoint list_entries (now : Z) (l : list entry) : list (N * revocation) :=
  match l with
  | [] => []
  | e :: l =>
      match en_rev e with
      | None => list_entries now l
      | Some r => if xc_not_after (en_cert e) <? now then list_entries now l
                  else (xc_serial (en_cert e), r) :: list_entries now l
      end
  end.

(** m.db.RevocationLists[len-1] *)
Definition last_list (d : db) : option rlist := last (map Some (d_lists d)) None.

(** pki.go:498-514: the list that can be handed out again *)
Definition cached_list (now : Z) (d : db) : option rlist :=
  match last_list d with
  | None => None
  | Some rl =>
      let before := match last_revocation (d_issued d) with Some t => rl_this rl <? t | None => false end in
      if negb before && (now <? rl_next rl + crl_refresh / 2) then Some rl else None
  end.

(** pki.go:516-562: a new list *)
Definition new_list (now : Z) (signer : xcert) (d : db) : rlist :=
  {| rl_number := d_number d + 1; rl_this := trunc now; rl_next := trunc (now + crl_refresh);
     rl_entries := list_entries now (d_issued d); rl_signer := signer |}.
(** pki.go:557-563: the list is kept, at most 128 of them. *)
Definition add_list (l : rlist) (d : db) : db :=
  let ls := d_lists d ++ [l] in
  {| d_key := d_key d; d_ca := d_ca d; d_delegate_key := d_delegate_key d; d_delegates := d_delegates d; d_issued := d_issued d;
     d_number := d_number d + 1; d_lists := skipn (List.length ls - max_crl) ls; d_revoked := d_revoked d |}.

(** pki.go:696-708: the first certificate with this serial number *)
Fixpoint revoke_first (snh : str) (r : revocation) (l : list entry) : option (list entry) :=
  match l with
  | [] => None
  | e :: l =>
      if str_eqb (en_serial e) snh then Some ({| en_serial := en_serial e; en_cert := en_cert e; en_rev := Some r |} :: l)
      else option_map (cons e) (revoke_first snh r l)
  end.
(** slices.IndexFunc over IssuedCerts *)
Definition find_serial (snh : str) (l : list entry) : option entry := find (fun e => str_eqb (en_serial e) snh) l.

(** ** Requests *)

(** ocsp.Request.  [rq_hash]: the hash function, if it is available. *)
Record ocsp_request := { rq_hash : option (str -> str); rq_name_hash : str; rq_key_hash : str; rq_serial : N }.

(** pki.go:583-676 OCSPResponse after the rotation of the delegate. *)
Definition ocsp_response (rq : ocsp_request) (now : Z) (d : db) : out :=
  match rq_hash rq, d_ca d with
  | None, _ => OErr
  | _, None => OPanic
  | Some h, Some ca =>
      match d_delegates d with
      | [] => OPanic
      | _ =>
          if negb (str_eqb (rq_name_hash rq) (h (xc_cn ca))) || negb (str_eqb (rq_key_hash rq) (h (xc_pub ca)))
          then OStatus Unknown (rq_serial rq) None
          else match find_serial (serial_hex (rq_serial rq)) (d_issued d) with
               | None => OStatus Revoked (rq_serial rq) (Some {| rv_time := now; rv_reason := 6 |})
               | Some e => match en_rev e with
                           | Some r => OStatus Revoked (rq_serial rq) (Some r)
                           | None => OStatus Good (rq_serial rq) None
                           end
               end
      end
  end.

(** An x509.CertificateRequest. *)
Record csr := { cs_pub : str; cs_cn : str; cs_emails : list str; cs_dns : list str; cs_ips : list str; cs_uris : list str }.

(** A request to the management page.  [w_claims]: the claims of the user, with their
    e-mail address if it is a string; [w_csr]: the request in the body, if there is a PEM
    block, it parses and its signature is that of its key. *)
Record web := {
  w_claims : option (option str); w_method : str; w_csrf : str; w_content_type : str;
  w_admin : str; w_sn : str; w_csr : option csr
}.

(** http.go:350, 417: a missing address is the empty one *)
Definition email_of (c : option str) : str := match c with Some e => e | None => [] end.

(** http.go:344-397 handleRequestCert: what is passed to IssueCertificate *)
Definition request_cert (w : web) : option csr :=
  match w_claims w with
  | None => None
  | Some c =>
      if negb (str_eqb (w_method w) (lit "POST")) then None
      else if negb (str_eqb (w_csrf w) (lit "1")) then None
      else if negb (str_eqb (w_content_type w) (lit "application/x-pem-file")) then None
      else match w_csr w with
           | None => None
           | Some i =>
               let e := email_of c in
               Some {| cs_pub := cs_pub i; cs_cn := match cs_cn i with [] => e | cn => e ++ lit "::" ++ cn end;
                       cs_emails := [e]; cs_dns := cs_dns i; cs_ips := []; cs_uris := [] |}
           end
  end.

(** pki.go:737-769 IssueCertificate: the certificate to be signed *)
Definition issued_cert (cr : csr) (sn : N) (now : Z) : xcert :=
  {| xc_serial := sn; xc_cn := cs_cn cr; xc_pub := cs_pub cr; xc_emails := cs_emails cr; xc_dns := cs_dns cr; xc_ips := cs_ips cr; xc_uris := cs_uris cr;
     xc_usages := match cs_dns cr, cs_ips cr with [], [] => [ClientAuth] | _, _ => [ServerAuth] end;
     xc_ca := false; xc_not_before := trunc now; xc_not_after := trunc (now + issued_lifetime) |}.

(** http.go:511-526 findCert *)
Definition find_cert (sn : str) (d : db) : option xcert :=
  match d_ca d with
  | None => None
  | Some _ => match find_serial sn (d_issued d) with
              | Some e => match en_rev e with None => Some (en_cert e) | Some _ => None end
              | None => None
              end
  end.

(** http.go:187-199 and 411-447 handleRevokeCert up to the call of RevokeCertificate *)
Definition revoke_cert (o : opts) (w : web) (now : Z) (d : db) : out :=
  match w_claims w with
  | None => OErr
  | Some c =>
      let e := email_of c in
      let is_admin := match w_admin w with [] => false | _ => mem e (o_admins o) end in
      if negb (str_eqb (w_method w) (lit "POST")) then OErr
      else if negb (str_eqb (w_csrf w) (lit "1")) then OErr
      else match find_cert (w_sn w) d with
           | None => OErr
           | Some x =>
               if xc_not_after x <? now then OErr
               else if negb is_admin && negb (mem e (xc_emails x)) then OErr
               else OAllowed (xc_serial x)
           end
  end.

(** ** The state *)

(** A manager: what it has in memory, and the requests that go on to RevokeCertificate. *)
Record manager := { m_db : db; m_pending : list N }.
(** Artefact: the file and the managers that use it, by number. *)
Record state := { s_disk : db; s_managers : nat -> option manager }.
(** Artefact: no file, no manager. *)
Definition empty_state : state := {| s_disk := empty_db; s_managers := fun _ => None |}.
(** Artefact: update of one manager. *)
Definition set_manager (st : state) (i : nat) (m : option manager) : state :=
  {| s_disk := s_disk st; s_managers := fun j => if Nat.eqb i j then m else s_managers st j |}.
(** Artefact: record update. *)
Definition set_disk (st : state) (d : db) : state := {| s_disk := d; s_managers := s_managers st |}.

(** Artefact: the critical sections. *)
Inductive op :=
| Start (i : nat) (key : str) (sn : N) (now : Z) (x : io)       (* New *)
| Issue (i : nat) (w : web) (sn : N) (now : Z) (x : io)         (* handleRequestCert *)
| Rotate (i : nat) (key : str) (sn : N) (now : Z) (x : io)      (* maybeRotateDelegateCert, when a delegate was found to be due *)
| GetList (i : nat) (now : Z) (x : io)                          (* RevocationList after that *)
| AskOCSP (i : nat) (rq : ocsp_request) (now : Z)               (* OCSPResponse after that *)
| AskRevoked (i : nat) (sn : N)                                 (* IsRevoked *)
| RevokeCheck (i : nat) (w : web) (now : Z)                     (* handleRevokeCert: findCert and the checks *)
| Revoke (i : nat) (sn : N) (now : Z) (x : io).                 (* handleRevokeCert: RevokeCertificate *)

(** The last step of an operation that changes the data: commit(true, nil).  When it fails
    the data in memory stay changed until the next [open]. *)
Definition finish (st : state) (i : nat) (d : db) (pend : list N) (x : io) (o : out) : state * out :=
  let st' := set_manager st i (Some {| m_db := d; m_pending := pend |}) in
  match x with
  | CommitFails => (st', OErr)
  | _ => (set_disk st' d, o)
  end.
(** The end of an operation that does not: commit(false, ...) *)
Definition leave (st : state) (i : nat) (pend : list N) (o : out) : state * out :=
  (set_manager st i (Some {| m_db := s_disk st; m_pending := pend |}), o).

(** Artefact: one pending request is done. *)
Fixpoint remove_one (n : N) (l : list N) : list N :=
  match l with
  | [] => []
  | m :: l => if (n =? m)%N then l else m :: remove_one n l
  end.

(** Artefact: one operation. *)
Definition step (o : opts) (st : state) (p : op) : state * out :=
  match p with
  | Start i key sn now x =>
      match x with
      | OpenFails | SignFails => (set_manager st i None, OErr)
      | _ =>
          let '(d, changed) := init_ca o key sn now (s_disk st) in
          if changed then
            match x with
            | CommitFails => (set_manager st i None, OErr)
            | _ => (set_disk (set_manager st i (Some {| m_db := d; m_pending := [] |})) d, ODone)
            end
          else (set_manager st i (Some {| m_db := d; m_pending := [] |}), ODone)
      end
  | Issue i w sn now x =>
      match s_managers st i with
      | None => (st, ONotRunning)
      | Some m =>
          match request_cert w with
          | None => (st, OErr)
          | Some cr =>
              match x with
              | OpenFails => (st, OErr)
              | SignFails => leave st i (m_pending m) OErr
              | _ => let c := issued_cert cr sn now in finish st i (add_cert c (s_disk st)) (m_pending m) x (OCert c)
              end
          end
      end
  | Rotate i key sn now x =>
      match s_managers st i with
      | None => (st, ONotRunning)
      | Some m =>
          match x with
          | OpenFails => (st, OErr)
          | SignFails => leave st i (m_pending m) OErr
          | _ => let c := delegate_cert o key sn now in
                 finish st i (install_delegate key c (add_cert c (s_disk st))) (m_pending m) x ODone
          end
      end
  | GetList i now x =>
      match s_managers st i with
      | None => (st, ONotRunning)
      | Some m =>
          match x with
          | OpenFails => (st, OErr)
          | _ =>
              match cached_list now (s_disk st) with
              | Some l => leave st i (m_pending m) (OList l)
              | None =>
                  match d_delegates (s_disk st) with
                  | [] => leave st i (m_pending m) OPanic
                  | signer :: _ =>
                      match x with
                      | SignFails => leave st i (m_pending m) OErr   (* the number in memory is then one too high until the next [open] *)
                      | _ => let l := new_list now signer (s_disk st) in
                             finish st i (add_list l (s_disk st)) (m_pending m) x (OList l)
                      end
                  end
              end
          end
      end
  | AskOCSP i rq now =>
      match s_managers st i with
      | None => (st, ONotRunning)
      | Some m => (st, ocsp_response rq now (m_db m))
      end
  | AskRevoked i sn =>
      match s_managers st i with
      | None => (st, ONotRunning)
      | Some m => (st, OBool (mem (serial_hex sn) (d_revoked (m_db m))))
      end
  | RevokeCheck i w now =>
      match s_managers st i with
      | None => (st, ONotRunning)
      | Some m =>
          match revoke_cert o w now (m_db m) with
          | OAllowed sn => (set_manager st i (Some {| m_db := m_db m; m_pending := sn :: m_pending m |}), OAllowed sn)
          | out => (st, out)
          end
      end
  | Revoke i sn now x =>
      match s_managers st i with
      | None => (st, ONotRunning)
      | Some m =>
          if negb (existsb (N.eqb sn) (m_pending m)) then (st, ONothing) else
          let pend := remove_one sn (m_pending m) in
          match x with
          | OpenFails => (set_manager st i (Some {| m_db := m_db m; m_pending := pend |}), OErr)
          | _ =>
              let d := s_disk st in
              match revoke_first (serial_hex sn) {| rv_time := trunc now; rv_reason := 0 |} (d_issued d) with
              | None => leave st i pend OErr
              | Some l =>
                  finish st i {| d_key := d_key d; d_ca := d_ca d; d_delegate_key := d_delegate_key d; d_delegates := d_delegates d;
                                 d_issued := l; d_number := d_number d; d_lists := d_lists d;
                                 d_revoked := serial_hex sn :: d_revoked d |} pend x ODone
              end
          end
      end
  end.

(** Artefact: a history with the answers. *)
Fixpoint run (o : opts) (st : state) (l : list op) : state * list (op * out) :=
  match l with
  | [] => (st, [])
  | p :: l => let '(st1, out) := step o st p in let '(st2, tr) := run o st1 l in (st2, (p, out) :: tr)
  end.

(** RevocationList and OCSPResponse as they are called: first maybeRotateDelegateCert, then
    the section above; no other operation comes in between. *)
Definition fetch_list (o : opts) (i : nat) (key : str) (sn : N) (now : Z) (x y : io) (st : state) : state * out :=
  match s_managers st i with
  | None => (st, ONotRunning)
  | Some m =>
      if delegate_due now (m_db m) then
        match step o st (Rotate i key sn now x) with
        | (st1, ODone) => step o st1 (GetList i now y)
        | r => r
        end
      else step o st (GetList i now y)
  end.
(** pki.go:583-676 OCSPResponse as it is called. *)
Definition fetch_ocsp (o : opts) (i : nat) (key : str) (sn : N) (rq : ocsp_request) (now : Z) (x : io) (st : state) : state * out :=
  match s_managers st i with
  | None => (st, ONotRunning)
  | Some m =>
      match rq_hash rq with
      | None => (st, OErr)
      | Some _ =>
          if delegate_due now (m_db m) then
            match step o st (Rotate i key sn now x) with
            | (st1, ODone) => step o st1 (AskOCSP i rq now)
            | r => r
            end
          else step o st (AskOCSP i rq now)
      end
  end.
