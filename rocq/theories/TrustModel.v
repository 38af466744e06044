(** Whom the proxy trusts: the pools of certificate authorities made in
    Reconfigure (proxy/proxy.go), and the verification of the certificates of
    clients and of backends with them (proxy/backend.go, proxy/quic.go). *)
From Verif Require Import Base.
From Verif Require RouteModel.
Open Scope list_scope.

(** x509.Certificate: the fields of [RouteModel.cert] and SubjectKeyId. *)
Record x509 := { x_cert : RouteModel.cert; x_ski : str }.

(** What is outside of this code.  [w_pkis]: the authorities of the PKI section by
    name, with the result of CACert (pki.go:713-721).  [w_read]: os.ReadFile.
    [w_pem]: the CERTIFICATE blocks that pem.Decode finds in a text, [None] where
    x509.ParseCertificate fails.  [w_signs c p]: p may have issued c (x509.Verify:
    the signature, the names, the validity of both, the constraints of p).
    [w_system]: the roots of the operating system.  [w_named]: VerifyHostname.
    [w_revoked]: IsRevoked of the authority of that name.  [w_ocsp]: VerifyChains
    returns no error, given whether there are verified chains. *)
Record world := {
  w_pkis : list (str * option x509);
  w_read : str -> option str;
  w_pem : str -> list (option x509);
  w_signs : x509 -> x509 -> bool;
  w_system : list x509;
  w_named : str -> x509 -> bool;
  w_revoked : str -> N -> bool;
  w_ocsp : bool -> RouteModel.cert -> bool
}.

(** x509 AppendCertsFromPEM: the certificates that can be parsed; the others are
    skipped. *)
Fixpoint parsed (l : list (option x509)) : list x509 :=
  match l with
  | [] => []
  | Some c :: l' => c :: parsed l'
  | None :: l' => parsed l'
  end.

(** proxy.go:1502-1516 loadCerts *)
Definition load_certs (w : world) (pool : list x509) (s : str) : outcome (list x509) :=
  match (match s with
         | c :: _ => if Ascii.eqb c "/"%char then w_read w s else Some s
         | [] => Some s
         end) with
  | None => Err
  | Some text =>
      match parsed (w_pem w text) with
      | [] => Err
      | certs => Ok (pool ++ certs)
      end
  end.

(** proxy.go:570-586, 661-677, 679-695: the loop over one list of roots.  The pool
    is nil ([None]) until the first element; the map is pkiMap. *)
Fixpoint add_roots (w : world) (l : list str) (pool : option (list x509)) (m : list (str * str))
  : outcome (option (list x509) * list (str * str)) :=
  match l with
  | [] => Ok (pool, m)
  | n :: l' =>
      let p := match pool with None => [] | Some p => p end in
      match assoc n (w_pkis w) with
      | Some None => Err
      | Some (Some ca) => add_roots w l' (Some (p ++ [ca])) (assoc_set (x_ski ca) n m)
      | None => do p' <- load_certs w p n; add_roots w l' (Some p') m
      end
  end.

(** config.go:642-703 PathOverride, config.go:223-443 Backend: what says how to
    connect to the server. *)
Record peering := { pr_tls : bool; pr_name : str; pr_insecure : bool; pr_roots : list str }.
(** config.go:223-443 Backend: the roots of clients ([None]: no ClientAuth), the
    default server and those of the overrides. *)
Record bconf := { bc_client : option (list str); bc_own : peering; bc_over : list peering }.
(** config.go:423-427, 701: what Reconfigure makes of them. *)
Record pools := {
  po_client : option (list x509);
  po_own : option (list x509);
  po_over : list (option (list x509));
  po_map : list (str * str)
}.

(** proxy.go:678-696: the loop over the overrides. *)
Fixpoint add_over (w : world) (l : list peering) (m : list (str * str))
  : outcome (list (option (list x509)) * list (str * str)) :=
  match l with
  | [] => Ok ([], m)
  | p :: l' =>
      do x <- add_roots w (pr_roots p) None m;
      do y <- add_over w l' (snd x);
      Ok (fst x :: fst y, snd y)
  end.

(** proxy.go:566-586, 661-696: the pools of a backend; baseTLSConfig
    (proxy.go:1032-1079) has no ClientCAs. *)
Definition make_pools (w : world) (b : bconf) : outcome pools :=
  do x <- match bc_client b with None => Ok (None, []) | Some l => add_roots w l None [] end;
  do y <- add_roots w (pr_roots (bc_own b)) None (snd x);
  do z <- add_over w (bc_over b) (snd y);
  Ok {| po_client := fst x; po_own := fst y; po_over := fst z; po_map := snd z |}.

(** x509 Verify, the search for a chain.  A chain repeats no certificate, so it has
    at most as many intermediates as were sent; repetitions are not looked for. *)
Fixpoint search (w : world) (roots inter : list x509) (depth : nat) (c : x509) : bool :=
  existsb (w_signs w c) roots ||
  match depth with
  | O => false
  | S d => existsb (fun i => w_signs w c i && search w roots inter d i) inter
  end.

(** Artefact: equality of certificates. *)
Definition x509_eq_dec (a b : x509) : {a = b} + {a <> b}.
Proof. repeat decide equality. Defined.

(** x509 Verify without a name.  A certificate that is itself a root is accepted;
    without a pool the roots of the system are used. *)
Definition verify (w : world) (pool : option (list x509)) (c : x509) (inter : list x509) : bool :=
  let roots := match pool with None => w_system w | Some p => p end in
  (if in_dec x509_eq_dec c roots then true else false) || search w roots inter (List.length inter) c.

(** backend.go:115-131, quic.go:527-543, proxy.go:602-614: the revocation test. *)
Definition revocation_ok (w : world) (m : list (str * str)) (verified : bool) (c : RouteModel.cert) : bool :=
  match assoc (RouteModel.cAKI c) m with
  | Some n => negb (w_revoked w n (RouteModel.cSerial c))
  | None => match RouteModel.cOCSP c with [] => true | _ => w_ocsp w verified c end
  end.

(** proxy.go:568-612 with crypto/tls (RequireAndVerifyClientCert): whether
    the certificates that a client sends get it past the verification and the
    revocation test; the access list is in [RouteModel.authorize]. *)
Definition client_ok (w : world) (ps : pools) (sent : list x509) : bool :=
  match sent with
  | [] => false
  | c :: inter => verify w (po_client ps) c inter && revocation_ok w (po_map ps) true (x_cert c)
  end.

(** backend.go:84-104, quic.go:498-515: the settings in use. *)
Definition settings (b : bconf) (ps : pools) (ov : option nat) : peering * option (list x509) :=
  match ov with
  | None => (bc_own b, po_own ps)
  | Some i =>
      match nth_error (bc_over b) i with
      | Some p => (p, match nth_error (po_over ps) i with Some x => x | None => None end)
      | None => (bc_own b, po_own ps)
      end
  end.

(** The result of connecting to a server. *)
Inductive dialled := Plain | Secure | Refused.

(** backend.go:109-132, 170-172, quic.go:521-544 with crypto/tls: what becomes of a
    connection to a server that sends these certificates.  [quic]: over QUIC
    (mode QUIC, or HTTP/3), which is always TLS and where an empty name is replaced
    by the address (quic-go). *)
Definition connect (w : world) (b : bconf) (ps : pools) (ov : option nat) (quic : bool) (addr : str)
  (sent : list x509) : dialled :=
  let '(p, pool) := settings b ps ov in
  if negb (quic || pr_tls p) then Plain else
  let name := match pr_name p with [] => if quic then addr else [] | n => n end in
  if negb (pr_insecure p) && str_eqb name [] then Refused else
  match sent with
  | [] => Refused
  | c :: inter =>
      if negb (pr_insecure p) && negb (verify w pool c inter && w_named w name c) then Refused
      else if revocation_ok w (po_map ps) (negb (pr_insecure p)) (x_cert c) then Secure else Refused
  end.
