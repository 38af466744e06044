(** Configuration of backends, routing, and the decisions taken for an incoming
    connection (proxy/config.go, proxy/proxy.go, proxy/backend.go,
    proxy/quic.go). *)
From Verif Require Import Base ConnModel HelloModel IPModel.

(** config.go:57-65 *)
Inductive mode :=
| ModeTCP | ModeTLS | ModeTLSPassthrough | ModeQUIC
| ModeHTTP | ModeHTTPS | ModeLocal | ModeConsole.

(** Artefact: equality of modes. *)
Definition mode_eqb (a b : mode) : bool :=
  match a, b with
  | ModeTCP, ModeTCP | ModeTLS, ModeTLS | ModeTLSPassthrough, ModeTLSPassthrough
  | ModeQUIC, ModeQUIC | ModeHTTP, ModeHTTP | ModeHTTPS, ModeHTTPS
  | ModeLocal, ModeLocal | ModeConsole, ModeConsole => true
  | _, _ => false
  end.

(** config.go:922-928: the mode is upper-cased, "" and PLAINTEXT mean TCP, other
    values must be one of validModes (config.go:68-77). *)
Definition parse_mode (s : str) : option mode :=
  let s := to_upper s in
  if str_eqb s [] || str_eqb s !"PLAINTEXT" then Some ModeTCP
  else if str_eqb s !"TCP" then Some ModeTCP
  else if str_eqb s !"TLS" then Some ModeTLS
  else if str_eqb s !"TLSPASSTHROUGH" then Some ModeTLSPassthrough
  else if str_eqb s !"QUIC" then Some ModeQUIC
  else if str_eqb s !"HTTP" then Some ModeHTTP
  else if str_eqb s !"HTTPS" then Some ModeHTTPS
  else if str_eqb s !"LOCAL" then Some ModeLocal
  else if str_eqb s !"CONSOLE" then Some ModeConsole
  else None.

(** config.go ClientAuth: the names of the trusted roots and the ACL (a nil ACL
    is [None]). *)
Record clientAuth := { caRoots : list str; caACL : option (list str) }.

(** A backend as written in the file; only the fields used here.  The CIDR
    lists are already parsed (see [IPModel.parse_cidr]). *)
Record rawBackend := {
  rNames : list str;
  rMode : str;
  rALPN : option (list str);
  rClientAuth : option clientAuth;
  rDeny : option (list ipnet);
  rAllow : option (list ipnet);
  rAddrs : list str;
  rPki : list (str * str)
}.

(** A backend after Check and Reconfigure.  [bPki] is pkiMap (proxy.go:566-589,
    660-694): authority key id -> name of the built-in CA. *)
Record backend := {
  bNames : list str;
  bMode : mode;
  bALPN : list str;
  bClientAuth : option clientAuth;
  bDeny : option (list ipnet);
  bAllow : option (list ipnet);
  bAddrs : list str;
  bPki : list (str * str)
}.

(** config.go:87-88 *)
Definition default_alpn : list str := [!"h2"; !"http/1.1"].
(** config.go:88 *)
Definition default_alpn_h3 : list str := [!"h3"; !"h2"; !"http/1.1"].

(** config.go:919-949, first loop over the backends: mode, ALPN defaults. *)
Definition check_mode (quic : bool) (idna : str -> str) (r : rawBackend) : option backend :=
  match parse_mode (rMode r) with
  | None => None
  | Some m =>
      if mode_eqb m ModeTLSPassthrough &&
         match rClientAuth r with Some _ => true | None => false end
      then None
      else
        let alpn :=
          match rALPN r with
          | Some l => l
          | None =>
              if quic && (mode_eqb m ModeHTTP || mode_eqb m ModeHTTPS || mode_eqb m ModeQUIC ||
                          mode_eqb m ModeLocal || mode_eqb m ModeConsole)
              then default_alpn_h3 else default_alpn
          end in
        Some {| bNames := map idna (rNames r); bMode := m; bALPN := alpn;
                bClientAuth := rClientAuth r; bDeny := rDeny r; bAllow := rAllow r;
                bAddrs := rAddrs r; bPki := rPki r |}
  end.

(** beKey (proxy.go): server name and protocol. *)
Definition beKey := (str * str)%type.
(** Artefact: equality of map keys. *)
Definition key_eqb (a b : beKey) : bool := str_eqb (fst a) (fst b) && str_eqb (snd a) (snd b).
(** Artefact: membership in the set of keys. *)
Fixpoint key_mem (k : beKey) (l : list beKey) : bool :=
  match l with
  | [] => false
  | x :: l' => if key_eqb k x then true else key_mem k l'
  end.

(** config.go:964-970: the loop over the protocols of one backend. *)
Fixpoint check_protos (sn : str) (ps : list str) (keys : list beKey) : option (list beKey) :=
  match ps with
  | [] => Some keys
  | p :: ps' =>
      if key_mem (sn, p) keys then None
      else check_protos sn ps' ((sn, p) :: keys)
  end.

(** config.go:956-971: the loop over the server names of one backend. *)
Fixpoint check_names (sns : list str) (alpn : list str) (seen : list str) (keys : list beKey)
  : option (list str * list beKey) :=
  match sns with
  | [] => Some (seen, keys)
  | sn :: sns' =>
      if mem sn seen && (List.length alpn =? 0) then None
      else
        let seen' := if mem sn seen then seen else sn :: seen in
        match check_protos sn alpn keys with
        | None => None
        | Some keys' => check_names sns' alpn seen' keys'
        end
  end.

(** config.go:953-972 *)
Fixpoint check_unique (bes : list backend) (seen : list str) (keys : list beKey) : bool :=
  match bes with
  | [] => true
  | b :: bes' =>
      match check_names (bNames b) (bALPN b) seen keys with
      | None => false
      | Some (seen', keys') => check_unique bes' seen' keys'
      end
  end.

(** config.go:1025-1036, third loop: server names and addresses. *)
Definition check_addrs (b : backend) : bool :=
  negb (List.length (bNames b) =? 0) &&
  (negb (List.length (bAddrs b) =? 0) ||
   match bMode b with
   | ModeConsole | ModeHTTP | ModeHTTPS | ModeLocal => true | _ => false end) &&
  ((List.length (bAddrs b) =? 0) ||
   negb (mode_eqb (bMode b) ModeConsole || mode_eqb (bMode b) ModeLocal)).

(** Artefact: a loop that stops at the first error. *)
Fixpoint map_opt {A B} (f : A -> option B) (l : list A) : option (list B) :=
  match l with
  | [] => Some []
  | x :: l' =>
      match f x, map_opt f l' with
      | Some y, Some l'' => Some (y :: l'')
      | _, _ => None
      end
  end.

(** config.go:780-1174 Config.Check, the parts about backends and routing.
    [idna] is idnaToASCII (util.go:140-145), an external function. *)
Definition check_config (quic : bool) (idna : str -> str) (rs : list rawBackend)
  : option (list backend) :=
  match map_opt (check_mode quic idna) rs with
  | None => None
  | Some bes =>
      if check_unique bes [] [] && forallb check_addrs bes then Some bes else None
  end.

(** ** The routing table *)

(** p.backends: a Go map from beKey to *Backend; a backend is identified by its
    position in the configuration. *)
Definition table := beKey -> option nat.
(** Artefact: assignment to a map. *)
Definition t_set (t : table) (k : beKey) (v : nat) : table :=
  fun k' => if key_eqb k k' then Some v else t k'.

(** proxy.go:446-448 *)
Fixpoint add_protos (t : table) (sn : str) (ps : list str) (i : nat) : table :=
  match ps with
  | [] => t
  | p :: ps' => add_protos (t_set t (sn, p) i) sn ps' i
  end.

(** proxy.go:438-449 *)
Fixpoint add_names (t : table) (sns : list str) (alpn : list str) (i : nat) : table :=
  match sns with
  | [] => t
  | sn :: sns' =>
      let t1 := match t (sn, []) with
                | None => t_set t (sn, []) i
                | Some _ => t
                end in
      add_names (add_protos t1 sn alpn i) sns' alpn i
  end.

(** proxy.go:430-449 *)
Fixpoint build_table (t : table) (bes : list backend) (i : nat) : table :=
  match bes with
  | [] => t
  | b :: bes' => build_table (add_names t (bNames b) (bALPN b) i) bes' (S i)
  end.

(** proxy.go:430: make(map[beKey]*Backend). *)
Definition empty_table : table := fun _ => None.

(** The routing state of the proxy.  [shut] is be.state.shutdown of each
    backend.  [isRevoked] stands for PKIManager.IsRevoked by CA name and serial,
    [ocspOK] for ocspCache.VerifyChains (both modelled elsewhere). *)
Record proxy := {
  backs : list backend;
  shut : nat -> bool;
  defName : str;
  maxOpen : nat
}.

(** proxy.go:430-449: p.backends. *)
Definition ptable (p : proxy) : table := build_table empty_table (backs p) 0.

(** proxy.go:1412-1417: first protocol with an entry. *)
Fixpoint find_proto (t : table) (sn : str) (protos : list str) : option nat :=
  match protos with
  | [] => None
  | pr :: protos' =>
      match t (sn, pr) with
      | Some i => Some i
      | None => find_proto t sn protos'
      end
  end.

(** proxy.go:1412-1423: the entry for the first protocol that has one, or else for the name
    alone. *)
Definition lookup (t : table) (sn : str) (protos : list str) : option nat :=
  match find_proto t sn protos with
  | Some i => Some i
  | None => t (sn, [])
  end.

(** proxy.go:1408-1430 Proxy.backend; [None] is an error. *)
Definition get_backend (p : proxy) (sn : str) (protos : list str) : option (nat * backend) :=
  match lookup (ptable p) sn protos with
  | None => None
  | Some i =>
      if shut p i then None
      else match nth_error (backs p) i with
           | Some b => Some (i, b)
           | None => None
           end
  end.

(** ** Client certificates *)

(** The fields of x509.Certificate that are used. *)
Record cert := {
  cSubject : str; cDNS : list str; cEmails : list str; cURIs : list str;
  cAKI : str; cSerial : N; cOCSP : list str
}.

(** backend.go:218-241 authorize; a nil certificate is [None] and is
    dereferenced at line 222. [Ok tt] is a nil error. *)
Definition authorize (ca : option clientAuth) (c : option cert) : outcome unit :=
  match ca with
  | None => Ok tt
  | Some a =>
      match caACL a with
      | None => Ok tt
      | Some acl =>
          match c with
          | None => Panic
          | Some c =>
              if negb (str_eqb (cSubject c) []) &&
                 (mem (cSubject c) acl || mem (!"SUBJECT:" ++ cSubject c) acl) then Ok tt
              else if existsb (fun v => mem (!"DNS:" ++ v) acl) (cDNS c) then Ok tt
              else if existsb (fun v => mem (!"EMAIL:" ++ v) acl) (cEmails c) then Ok tt
              else if existsb (fun v => mem (!"URI:" ++ v) acl) (cURIs c) then Ok tt
              else Err
          end
      end
  end.

(** ** The TLS handshake as the proxy configures it *)

(** crypto/tls negotiateALPN.  [None]: handshake failure. *)
Fixpoint nego_client (s : str) (cps : list str) : bool * bool :=
  match cps with
  | [] => (false, false)
  | c :: cps' =>
      if str_eqb s c then (true, false)
      else
        let '(f, h) := nego_client s cps' in
        (f, h || (str_eqb s !"h2" && str_eqb c !"http/1.1"))
  end.
(** crypto/tls negotiateALPN: the loop over the protocols of the server. *)
Fixpoint nego_server (sps cps : list str) (fallback : bool) : option str :=
  match sps with
  | [] => if fallback then Some [] else None
  | s :: sps' =>
      let '(found, h) := nego_client s cps in
      if found then Some s else nego_server sps' cps (fallback || h)
  end.
(** crypto/tls negotiateALPN *)
Definition negotiate_alpn (quic : bool) (sps cps : list str) : option str :=
  if (List.length sps =? 0) || (List.length cps =? 0) then
    if quic && negb (List.length sps =? 0) then None else Some []
  else nego_server sps cps false.

(** config.go:90-92 *)
Definition quic_only (p : str) : bool := str_eqb p !"h3".

(** proxy.go:625-630: protocols in tlsConfigQUIC. *)
Definition next_protos_quic (b : backend) : list str :=
  filter (fun p => negb (quic_only p && (mode_eqb (bMode b) ModeTLS || mode_eqb (bMode b) ModeTCP)))
         (bALPN b).
(** proxy.go:635-638: protocols in tlsConfig. *)
Definition next_protos_tcp (b : backend) : list str :=
  filter (fun p => negb (quic_only p)) (next_protos_quic b).

(** What the peer and the libraries contribute to a handshake.
    [hsOK]: the cryptographic part succeeded; [hsName]: the server name as
    crypto/tls understood it; [hsCert]: the certificate offered when one is
    requested; [verifies roots c]: chain verification against the roots. *)
Record env := {
  hsOK : bool;
  hsName : str;
  hsCert : option cert;
  verifies : list str -> cert -> bool;
  isRevoked : str -> N -> bool;
  ocspOK : cert -> bool;
  waitOK : bool
}.

(** proxy.go:599-607: the revocation test with the CAs of one backend. *)
Definition not_revoked (e : env) (b : backend) (c : cert) : bool :=
  match assoc (cAKI c) (bPki b) with
  | Some pki => negb (isRevoked e pki (cSerial c))
  | None => if List.length (cOCSP c) =? 0 then true else ocspOK e c
  end.

(** proxy.go:587-623: VerifyConnection, installed when the backend that the
    handshake started with has ClientAuth.  The certificate is present and
    verified because ClientAuth is RequireAndVerifyClientCert, see
    [tls_handshake]. *)
Definition verify_connection (p : proxy) (e : env) (sn proto : str) (c : option cert) : bool :=
  match get_backend p sn [proto] with
  | None => false
  | Some (_, b) =>
      match bClientAuth b with
      | None => true
      | Some _ =>
          match c with
          | None => false
          | Some c =>
              if not_revoked e b c then
                match authorize (bClientAuth b) (Some c) with Ok _ => true | _ => false end
              else false
          end
      end
  end.

(** tls.Server(conn, be.tlsConfig).Handshake: negotiated protocol and peer
    certificate.  Without ClientAuth no certificate is requested
    (tls.NoClientCert). *)
Definition tls_handshake (p : proxy) (e : env) (quic : bool) (b : backend) (cps : list str)
  : option (str * option cert) :=
  if negb (hsOK e) then None
  else
    match negotiate_alpn quic (if quic then next_protos_quic b else next_protos_tcp b) cps with
    | None => None
    | Some proto =>
        match bClientAuth b with
        | None => Some (proto, None)
        | Some ca =>
            match hsCert e with
            | None => None
            | Some c =>
                if verifies e (caRoots ca) c && verify_connection p e (hsName e) proto (Some c)
                then Some (proto, Some c)
                else None
            end
        end
    end.

(** proxy.go:1243-1287 authorizeTLSConnection; the result is the negotiated
    protocol and the certificate. *)
Definition authorize_tls (p : proxy) (e : env) (sn : str) (b : backend) (cps : list str)
  : outcome (str * option cert) :=
  match tls_handshake p e false b cps with
  | None => Err
  | Some (proto, c) =>
      if (str_eqb (hsName e) [] && negb (str_eqb sn (defName p))) ||
         (negb (str_eqb (hsName e) []) && negb (str_eqb (hsName e) sn))
      then Err
      else
        match bClientAuth b with
        | Some ca =>
            match caACL ca with
            | Some _ => do _ <- authorize (bClientAuth b) c; Ok (proto, c)
            | None => Ok (proto, c)
            end
        | None => Ok (proto, c)
        end
  end.

(** ** What happens to a connection *)

(** Artefact: what handleConnection does with a connection. *)
Inductive action :=
| ActTooMany                 (* close_notify alert, refused: too many connections *)
| ActBadHello                (* closed: invalid ClientHello *)
| ActUnrecognized            (* unrecognized_name alert *)
| ActACME                    (* TLS handshake of the ACME responder, nothing else *)
| ActHandshakeFailed
| ActHTTP (i : nat) (proto : str) (c : option cert)   (* handed to the HTTP server of backend i *)
| ActDial (i : nat) (proto : str) (c : option cert)   (* dials backend i and bridges *)
| ActPassthrough (i : nat)                            (* dials backend i, raw bytes *)
| ActPanic.                                           (* recovered panic, connection closed *)

(** golang.org/x/crypto/acme ALPNProto *)
Definition acme_proto : str := !"acme-tls/1".

(** proxy.go:1120-1216 handleConnection, with handleHTTPConnection (1289-1317),
    handleTLSConnection (1319-1340) and handleTLSPassthroughConnection
    (1363-1380) up to the point where the backend gets the connection.
    [numOpen] is the result of inConns.add.  A dial error is not modelled here
    (see [DialModel]). *)
Definition handle_connection (p : proxy) (e : env) (numOpen : nat) (remote : addr)
    (hello : outcome clientHello) : action :=
  if maxOpen p <=? numOpen then ActTooMany
  else
    match hello with
    | Panic => ActPanic
    | Err | OutOfFuel => ActBadHello
    | Ok h =>
        let sn := match serverName h with [] => defName p | _ => serverName h end in
        match get_backend p sn (alpnProtos h) with
        | None => ActUnrecognized
        | Some (i, b) =>
            let ipok := check_ip (bDeny b) (bAllow b) remote in
            if mode_eqb (bMode b) ModeTLSPassthrough then
              if ipok then (if waitOK e then ActPassthrough i else ActHandshakeFailed)
              else ActUnrecognized
            else if (List.length (alpnProtos h) =? 1) &&
                    str_eqb (hd [] (alpnProtos h)) acme_proto &&
                    negb (str_eqb (serverName h) []) then ActACME
            else if negb ipok then ActUnrecognized
            else
              match authorize_tls p e sn b (alpnProtos h) with
              | Ok (proto, c) =>
                  if waitOK e then
                    match bMode b with
                    | ModeConsole | ModeLocal | ModeHTTP | ModeHTTPS => ActHTTP i proto c
                    | _ => ActDial i proto c
                    end
                  else ActHandshakeFailed
              | Panic => ActPanic
              | _ => ActHandshakeFailed
              end
        end
    end.

(** ** QUIC *)

(** quic.go:74-84 GetConfigForClient: first offered protocol with an entry that
    is not a passthrough backend. (The shutdown flag is not consulted.) *)
Fixpoint quic_config (p : proxy) (sn : str) (cps : list str) : option backend :=
  match cps with
  | [] => None
  | c :: cps' =>
      match ptable p (sn, c) with
      | Some i =>
          match nth_error (backs p) i with
          | Some b => if mode_eqb (bMode b) ModeTLSPassthrough then quic_config p sn cps'
                      else Some b
          | None => quic_config p sn cps'
          end
      | None => quic_config p sn cps'
      end
  end.

(** quic.go:117-190 handleQUICConnection after the handshake, up to the point
    where the backend gets the connection.  [p] is the configuration at the
    time of the handshake, [p'] the one when the connection is handled.  The
    http3Server exists for HTTP, HTTPS, LOCAL and CONSOLE backends.  QUnrecognized: the
    code means to close the connection with the error "unrecognized name" (quic.go:162), but
    the call before it (quic.go:161) dereferences the missing backend (logging.go:73-74), so
    the panic is recovered and the connection closed without an error (quic.go:118-124). *)
Inductive qaction :=
| QRefusedHandshake | QUnrecognized | QTooMany | QDenied | QWaitFailed
| QServe (i : nat) (proto : str) (c : option cert).

(** quic.go:117-190 *)
Definition handle_quic (p p' : proxy) (e : env) (numOpen : nat) (remote : addr) (cps : list str)
  : qaction :=
  match quic_config p (hsName e) cps with
  | None => QRefusedHandshake
  | Some b =>
      match tls_handshake p e true b cps with
      | None => QRefusedHandshake
      | Some (proto, c) =>
          match get_backend p' (hsName e) [proto] with
          | None => QUnrecognized
          | Some (i, b') =>
              if maxOpen p' <=? numOpen then QTooMany
              else if negb (check_ip (bDeny b') (bAllow b') remote) then QDenied
              else if waitOK e then QServe i proto c else QWaitFailed
          end
      end
  end.
