(** The key types of the authorities, the delegate that signs for them, and the file with
    their certificates: internal/pki/pki.go, internal/pki/http.go, internal/pki/keys/keys.go,
    internal/sshca/sshca.go.  What the authority issues to users and its lists are in
    PkiModel.v, which leaves out the types of keys. *)
From Verif Require Import Base.
From Verif Require XfccModel.
Open Scope Z_scope.

(** Artefact: the kinds of keys, with their size. *)
Inductive alg := Ed25519 | EC (bits : N) | RSA (bits : N).
(** Artefact: equality of kinds. *)
Definition alg_eqb (a b : alg) : bool :=
  match a, b with
  | Ed25519, Ed25519 => true
  | EC n, EC m | RSA n, RSA m => (n =? m)%N
  | _, _ => false
  end.

(** proxy/internal/pki/keys/keys.go:44-57 the ecdsa types. *)
Definition ecdsa_type (k : str) : option alg :=
  if str_eqb k (lit "ecdsa-p224") then Some (EC 224)
  else if str_eqb k (lit "ecdsa-p256") then Some (EC 256)
  else if str_eqb k (lit "ecdsa-p384") then Some (EC 384)
  else if str_eqb k (lit "ecdsa-p521") then Some (EC 521)
  else None.
(** proxy/internal/pki/keys/keys.go:58-70 the rsa types. *)
Definition rsa_type (k : str) : option alg :=
  if str_eqb k (lit "rsa-2048") then Some (RSA 2048)
  else if str_eqb k (lit "rsa-3072") then Some (RSA 3072)
  else if str_eqb k (lit "rsa-4096") then Some (RSA 4096)
  else if str_eqb k (lit "rsa-8192") then Some (RSA 8192)
  else None.
(** proxy/internal/pki/keys/keys.go:38-75 GenerateKey *)
Definition generate_key (kt : str) : option alg :=
  let k := to_lower kt in
  if str_eqb k (lit "ed25519") then Some Ed25519
  else match ecdsa_type k with Some a => Some a | None => rsa_type k end.

(** proxy/internal/pki/pki.go:319-367: the types with a TPM. *)
Definition tpm_type (kt : str) : option alg :=
  let k := to_lower kt in
  match ecdsa_type k with Some a => Some a | None => rsa_type k end.
(** proxy/internal/sshca/sshca.go:178-224: the types with a TPM. *)
Definition ssh_tpm_type (kt : str) : option alg :=
  let k := to_lower kt in
  if str_eqb k (lit "ecdsa-p224") then None
  else match ecdsa_type k with Some a => Some a | None => rsa_type k end.

(** m.opts: the type as configured, and which keys the TPM can make, if there is one. *)
Record opts := { o_type : str; o_tpm : option (alg -> bool) }.

(** proxy/internal/pki/pki.go:136-138 and proxy/internal/sshca/sshca.go:98-100 *)
Definition key_type (o : opts) : str := if str_eqb (o_type o) [] then lit "ecdsa-p256" else o_type o.

(** proxy/internal/pki/pki.go:318-378 generateKey; [types]: those with a TPM.  Storing and
    reading back the key (x509.MarshalPKCS8PrivateKey, tpm.UnmarshalKey) is left out. *)
Definition generate (types : str -> option alg) (o : opts) (kt : str) : option alg :=
  match o_tpm o with
  | Some can => match types kt with Some a => if can a then Some a else None | None => None end
  | None => generate_key kt
  end.

(** ** The authority *)

(** A certificate: the kind of its key, its validity, its encoding. *)
Record cert := { ct_alg : alg; ct_from : Z; ct_until : Z; ct_raw : str }.
(** proxy/internal/pki/pki.go:155-165, the part that is used here. *)
Record db := { d_key : option alg; d_ca : option cert; d_delegates : list cert; d_issued : list cert }.
(** proxy/internal/pki/pki.go:239-244 *)
Definition empty_db : db := {| d_key := None; d_ca := None; d_delegates := []; d_issued := [] |}.

(** time.Second; times are nanoseconds *)
Definition second := 1000000000.
(** Artefact: 24 hours. *)
Definition day := 24 * 3600 * second.
(** What the encoding of a time keeps: whole seconds. *)
Definition trunc (t : Z) : Z := t / second * second.
(** proxy/internal/pki/pki.go:276, 398: half of the validity has passed. *)
Definition half_passed (c : cert) (now : Z) : bool := ct_from c + (ct_until c - ct_from c) / 2 <? now.

(** proxy/internal/pki/pki.go:128-144 New and 224-316 initCA.  [raw]: what
    x509.CreateCertificate returns, if it is called.  [None]: an error.  Simplified: the
    store works. *)
Definition new (o : opts) (now : Z) (raw : str) (d : db) : option db :=
  match (match d_key d with Some a => Some a | None => generate tpm_type o (key_type o) end) with
  | None => None
  | Some a =>
      let need := match d_ca d with None => true | Some c => half_passed c now end in
      if need then
        let c := {| ct_alg := a; ct_from := trunc now; ct_until := trunc (now + 10 * 365 * day); ct_raw := raw |} in
        Some {| d_key := Some a; d_ca := Some c; d_delegates := d_delegates d; d_issued := d_issued d ++ [c] |}
      else Some {| d_key := Some a; d_ca := d_ca d; d_delegates := d_delegates d; d_issued := d_issued d |}
  end.

(** proxy/internal/pki/pki.go:393-404: whether a delegate is needed. *)
Definition delegate_due (now : Z) (d : db) : bool :=
  match d_delegates d with
  | [] => true
  | c :: _ => half_passed c now || alg_eqb (ct_alg c) Ed25519
  end.
(** proxy/internal/pki/pki.go:411-415: the type of its key. *)
Definition delegate_type (o : opts) : str :=
  let kt := key_type o in if str_eqb kt (lit "ed25519") then lit "ecdsa-p256" else kt.
(** proxy/internal/pki/pki.go:387-455 maybeRotateDelegateCert *)
Definition rotate (o : opts) (now : Z) (raw : str) (d : db) : option db :=
  if negb (delegate_due now d) then Some d
  else match d_ca d with
       | None => None
       | Some _ =>
           match generate tpm_type o (delegate_type o) with
           | None => None
           | Some a =>
               let c := {| ct_alg := a; ct_from := trunc now; ct_until := trunc (now + 10 * day); ct_raw := raw |} in
               Some {| d_key := d_key d; d_ca := d_ca d; d_delegates := c :: firstn 1 (d_delegates d); d_issued := d_issued d ++ [c] |}
           end
       end.

(** golang.org/x/crypto/ocsp CreateResponse, signingParamsForPublicKey: RSA and ECDSA. *)
Definition ocsp_signs (a : alg) : bool := match a with Ed25519 => false | _ => true end.

(** What anyone can ask for: the status of a certificate, or the list of the revoked ones. *)
Inductive ask := Status | Revoked.
(** proxy/internal/pki/pki.go:476-569 RevocationList and 583-676 OCSPResponse: whether there is
    an answer.  Simplified: the request is well formed, so only the signature can fail;
    x509.CreateRevocationList accepts all kinds of keys. *)
Definition request (o : opts) (now : Z) (raw : str) (a : ask) (d : db) : db * bool :=
  match rotate o now raw d with
  | None => (d, false)
  | Some d' =>
      (d', match d_delegates d' with
           | [] => false
           | c :: _ => match a with Status => ocsp_signs (ct_alg c) | Revoked => true end
           end)
  end.

(** Artefact: requests, and starts of the proxy or changes of its configuration. *)
Inductive op := Ask (now : Z) (raw : str) (a : ask) | Restart (o : opts) (now : Z) (raw : str).
(** proxy/internal/pki/pki.go:148-153, the part that is used here. *)
Record manager := { m_opts : opts; m_db : db }.
(** Artefact: one of them, with whether it worked.  A new configuration that does not work is
    not used (proxy/proxy.go:407-411). *)
Definition step (m : manager) (p : op) : manager * bool :=
  match p with
  | Ask now raw a => let '(d, b) := request (m_opts m) now raw a (m_db m) in ({| m_opts := m_opts m; m_db := d |}, b)
  | Restart o now raw => match new o now raw (m_db m) with Some d => ({| m_opts := o; m_db := d |}, true) | None => (m, false) end
  end.
(** Artefact: a history: for each, the options at the time and the result. *)
Fixpoint run (m : manager) (l : list op) : manager * list (opts * op * bool) :=
  match l with
  | [] => (m, [])
  | p :: l => let '(m1, b) := step m p in let '(m2, r) := run m1 l in (m2, (m_opts m, p, b) :: r)
  end.

(** ** The file with the certificates *)

(** proxy/internal/pki/http.go:77-100 ServeCACert: the content type and the content.
    [None]: 500.  The tag is in DiscoveryModel.v. *)
Definition serve_ca_cert (path : str) (d : db) : option (str * str) :=
  match d_ca d with
  | None => None
  | Some ca =>
      if has_suffix path (lit ".pem") then
        Some (lit "application/x-pem-file", XfccModel.pem (ct_raw ca) ++ List.concat (map (fun c => XfccModel.pem (ct_raw c)) (d_delegates d)))
      else
        Some (lit "application/x-x509-ca-cert", ct_raw ca ++ List.concat (map ct_raw (d_delegates d)))
  end.

(** ** The SSH authority *)

(** golang.org/x/crypto/ssh NewSignerFromKey: P-224 is not supported. *)
Definition ssh_signs (a : alg) : bool := match a with EC n => negb (n =? 224)%N | _ => true end.
(** proxy/internal/sshca/sshca.go:90-109 New and 133-175 initCA: the key that is stored
    afterwards and the one that signs, if it starts. *)
Definition ssh_new (o : opts) (stored : option alg) : option alg * option alg :=
  match (match stored with Some a => Some a | None => generate ssh_tpm_type o (key_type o) end) with
  | None => (stored, None)
  | Some a => if ssh_signs a then (Some a, Some a) else (stored, None)
  end.
