(** Which certificate the proxy presents: path.Match, the certificates of the
    configuration, and the certificate manager. *)
From Coq Require Import Lia.
From Verif Require Import Base.

(** ** path.Match of the Go standard library (proxy.go:1089-1091 calls it)

    Simplification: characters are bytes.  The library decodes UTF-8 for [?]
    and for classes; server names in a ClientHello are ASCII. *)

(** Library path, scanChunk: the leading stars. *)
Fixpoint strip_stars (p : str) : bool * str :=
  match p with
  | c :: p' => if Ascii.eqb c "*" then (true, snd (strip_stars p')) else (false, p)
  | [] => (false, [])
  end.

(** Library path, scanChunk: the text up to the next star outside a class. *)
Fixpoint scan (inrange : bool) (p : str) : str * str :=
  match p with
  | [] => ([], [])
  | c :: p' =>
      if Ascii.eqb c "\" then
        match p' with
        | [] => ([c], [])
        | d :: p'' => let '(a, b) := scan inrange p'' in (c :: d :: a, b)
        end
      else if Ascii.eqb c "*" && negb inrange then ([], p)
      else
        let inrange := if Ascii.eqb c "[" then true else if Ascii.eqb c "]" then false else inrange in
        let '(a, b) := scan inrange p' in (c :: a, b)
  end.

(** Library path, getEsc. *)
Definition get_esc (chunk : str) : outcome (ascii * str) :=
  match chunk with
  | [] => Err
  | c :: chunk' =>
      if Ascii.eqb c "-" || Ascii.eqb c "]" then Err
      else
        let '(r, rest) := if Ascii.eqb c "\" then match chunk' with [] => (None, []) | d :: x => (Some d, x) end
                          else (Some c, chunk') in
        match r, rest with
        | None, _ => Err
        | _, [] => Err
        | Some r, rest => Ok (r, rest)
        end
  end.

(** Artefact: order of bytes. *)
Definition byte_leb (a b : ascii) : bool := Nat.leb (nat_of_ascii a) (nat_of_ascii b).

(** Library path, matchChunk: the loop that parses all ranges of a class.
    [first]: no range was parsed yet; [m]: one of them matched [r]. *)
Fixpoint ranges (fuel : nat) (first : bool) (r : ascii) (chunk : str) (m : bool) : outcome (bool * str) :=
  match fuel with
  | O => OutOfFuel
  | S fuel =>
      match chunk with
      | c :: chunk' =>
          if Ascii.eqb c "]" && negb first then Ok (m, chunk')
          else
            do (lo, x) <- get_esc chunk;
            do (hi, y) <-
              match x with
              | d :: x' => if Ascii.eqb d "-" then get_esc x' else Ok (lo, x)
              | [] => Ok (lo, x)
              end;
            ranges fuel false r y (m || (byte_leb lo r && byte_leb r hi))
      | [] => Err
      end
  end.

(** Library path, matchChunk.  None: no match, and the chunk is well-formed. *)
Fixpoint match_chunk (fuel : nat) (failed : bool) (chunk s : str) : outcome (option str) :=
  match fuel with
  | O => OutOfFuel
  | S fuel =>
      match chunk with
      | [] => Ok (if failed then None else Some s)
      | c :: chunk' =>
          let failed := failed || match s with [] => true | _ => false end in
          let s' := if failed then s else tl s in
          let head := hd "000"%char s in
          if Ascii.eqb c "[" then
            let r := if failed then "000"%char else head in
            let '(negated, x) :=
              match chunk' with
              | d :: x => if Ascii.eqb d "^" then (true, x) else (false, chunk')
              | [] => (false, chunk')
              end in
            do (m, y) <- ranges (S (List.length x)) true r x false;
            match_chunk fuel (failed || Bool.eqb m negated) y s'
          else if Ascii.eqb c "?" then
            match_chunk fuel (failed || Ascii.eqb head "/") chunk' s'
          else if Ascii.eqb c "\" then
            match chunk' with
            | [] => Err
            | d :: x => match_chunk fuel (failed || negb (Ascii.eqb d head)) x s'
            end
          else match_chunk fuel (failed || negb (Ascii.eqb c head)) chunk' s'
      end
  end.

(** Artefact: matchChunk with enough fuel. *)
Definition chunk_match (chunk s : str) : outcome (option str) := match_chunk (S (List.length chunk)) false chunk s.

(** Library path, Match: the loop over the positions that a star may skip to.
    [last]: this is the last chunk. *)
Fixpoint skip (chunk : str) (last : bool) (name : str) : outcome (option str) :=
  match name with
  | [] => Ok None
  | c :: name' =>
      if Ascii.eqb c "/" then Ok None
      else
        do r <- chunk_match chunk name';
        match r with
        | Some t => if last && match t with [] => false | _ => true end then skip chunk last name' else Ok (Some t)
        | None => skip chunk last name'
        end
  end.

(** Library path, Match: the check that the rest of the pattern is well-formed. *)
Fixpoint check_rest (fuel : nat) (pattern : str) : outcome bool :=
  match fuel with
  | O => OutOfFuel
  | S fuel =>
      match pattern with
      | [] => Ok false
      | _ =>
          let '(_, q) := strip_stars pattern in
          let '(chunk, rest) := scan false q in
          do _ <- chunk_match chunk [];
          check_rest fuel rest
      end
  end.

(** Library path, Match. *)
Fixpoint path_match_loop (fuel : nat) (pattern name : str) : outcome bool :=
  match fuel with
  | O => OutOfFuel
  | S fuel =>
      match pattern with
      | [] => Ok (match name with [] => true | _ => false end)
      | _ =>
          let '(star, q) := strip_stars pattern in
          let '(chunk, rest) := scan false q in
          if star && match chunk with [] => true | _ => false end then Ok (negb (has_char "/" name))
          else
            let last := match rest with [] => true | _ => false end in
            do r <- chunk_match chunk name;
            match r with
            | Some t =>
                if match t with [] => true | _ => false end || negb last then path_match_loop fuel rest t
                else if star then
                  do r2 <- skip chunk last name;
                  match r2 with Some t2 => path_match_loop fuel rest t2 | None => check_rest fuel rest end
                else check_rest fuel rest
            | None =>
                if star then
                  do r2 <- skip chunk last name;
                  match r2 with Some t2 => path_match_loop fuel rest t2 | None => check_rest fuel rest end
                else check_rest fuel rest
            end
      end
  end.

(** Library path, Match. *)
Definition path_match (pattern name : str) : outcome bool := path_match_loop (S (List.length pattern)) pattern name.

(** ** Certificates *)

(** config.go:203-214 TLSCertificate. *)
Record tls_cert := { tc_names : list str; tc_key : str; tc_file : str }.

(** tls.Certificate: the chain, leaf first, and the OCSP staple.  The private
    key and the parsed leaf are not modelled. *)
Record chain := { ch_certs : list str; ch_staple : option str }.

(** The status in an OCSP response. *)
Inductive ocsp_status := OGood | ORevoked | OUnknown.

(** The rest of the world at the time of a handshake: tls.LoadX509KeyPair of a
    certificate and a key file, x509.ParseCertificate succeeding, and the OCSP
    cache (ocspcache/ocsp.go:194-204 Response for a leaf and its issuer, see [OcspModel]). *)
Record cert_env := {
  ce_load : str -> str -> option chain;
  ce_parses : str -> bool;
  ce_ocsp : str -> str -> option (ocsp_status * str)
}.

(** The parts of the configuration that matter here (config.go:130-132, 147-149, 164-167). *)
Record cert_cfg := { cc_certs : list tls_cert; cc_accept_tos : bool; cc_default_name : str }.

(** proxy.go:1085-1093: the function passed to slices.IndexFunc. *)
Definition name_fits (server_name v : str) : bool :=
  str_eqb v server_name || match path_match v server_name with Ok b => b | _ => false end.

(** proxy.go:1081-1103 getCertFromConfig.  The outer outcome is the error of
    tls.LoadX509KeyPair. *)
Fixpoint cert_from_config (e : cert_env) (certs : list tls_cert) (server_name : str) : outcome (option chain) :=
  match certs with
  | [] => Ok None
  | c :: certs' =>
      if existsb (name_fits server_name) (tc_names c) then
        match ce_load e (tc_file c) (tc_key c) with
        | Some ch => Ok (Some ch)
        | None => Err
        end
      else cert_from_config e certs' server_name
  end.

(** The certificate manager (proxy.go:204-214, 233-240, 263): autocert.Manager or the test
    authority of certmanager/certmanager.go.  [cm_prompt]: the function that
    accepts the terms of service (it is set once, when the proxy is created);
    [cm_account]: an account is registered; [cm_cache]: the certificates it has. *)
Record manager := {
  cm_autocert : bool;
  cm_prompt : bool;
  cm_account : bool;
  cm_cache : list (str * chain)
}.

(** Library autocert, Manager.GetCertificate: the certificate in the cache, or
    else a new one, for which an account is needed; registering one means
    accepting the terms.  [issue] is what the authority would hand out for the
    name.  Third result: the authority was asked for a certificate.  Renewal is
    not modelled.  The test authority (certmanager/certmanager.go:226-272
    GetCert) has no terms. *)
Definition manager_get (issue : str -> option chain) (m : manager) (name : str) : manager * option chain * bool :=
  match assoc name (cm_cache m) with
  | Some ch => (m, Some ch, false)
  | None =>
      if negb (cm_autocert m) || cm_account m || cm_prompt m then
        let m' := {| cm_autocert := cm_autocert m; cm_prompt := cm_prompt m; cm_account := true; cm_cache := cm_cache m |} in
        match issue name with
        | Some ch =>
            ({| cm_autocert := cm_autocert m; cm_prompt := cm_prompt m; cm_account := true;
                cm_cache := assoc_set name ch (cm_cache m) |}, Some ch, true)
        | None => (m', None, true)
        end
      else (m, None, false)
  end.

(** proxy.go:1055-1074: the staple is added to certificates that come with
    their issuer. *)
Definition with_staple (e : cert_env) (ch : chain) : outcome chain :=
  match ch_certs ch with
  | leaf :: issuer :: _ =>
      if ce_parses e leaf && ce_parses e issuer then
        match ce_ocsp e leaf issuer with
        | Some (OGood, raw) => Ok {| ch_certs := ch_certs ch; ch_staple := Some raw |}
        | _ => Ok ch
        end
      else Err
  | _ => Ok ch
  end.

(** proxy.go:1032-1075: the GetCertificate function of the proxy.  The last
    result tells that the authority was asked. *)
Definition get_certificate (e : cert_env) (issue : str -> option chain) (cfg : cert_cfg) (m : manager) (sni : str)
  : manager * outcome chain * bool :=
  let name := if str_eqb sni [] then cc_default_name cfg else sni in
  match cert_from_config e (cc_certs cfg) name with
  | Ok (Some ch) => (m, Ok ch, false)
  | Ok None =>
      if negb (cc_accept_tos cfg) && cm_autocert m then (m, Err, false)
      else
        let '(m', r, asked) := manager_get issue m name in
        match r with
        | Some ch => (m', with_staple e ch, asked)
        | None => (m', Err, asked)
        end
  | _ => (m, Err, false)
  end.

(** proxy.go:641-659 getClientCert: the certificate shown to a backend that asks
    for one, on behalf of a client that came for [name]. *)
Definition get_client_cert (issue : str -> option chain) (m : manager) (name : str)
  : manager * outcome chain * bool :=
  let '(m', r, asked) := manager_get issue m name in
  (m', match r with Some ch => Ok ch | None => Err end, asked).

(** ** Histories *)

(** What happens: a new configuration is accepted, a client completes a
    handshake, a backend asks for a certificate. *)
Inductive cert_op :=
| Reload (cfg : cert_cfg)
| Handshake (e : cert_env) (issue : str -> option chain) (sni : str)
| ClientCert (issue : str -> option chain) (name : str).

(** What can be seen of an operation: the configuration in force, the
    operation, its result, and whether Let's Encrypt was asked for a new
    certificate. *)
Record cert_event := { ev_cfg : cert_cfg; ev_op : cert_op; ev_result : outcome chain; ev_asked : bool }.

(** proxy.go:279-294, 857-860: a new configuration replaces the old one; the manager is
    kept. *)
Fixpoint cert_run (cfg : cert_cfg) (m : manager) (ops : list cert_op) : list cert_event :=
  match ops with
  | [] => []
  | Reload cfg' :: ops' => cert_run cfg' m ops'
  | Handshake e issue sni :: ops' =>
      let '(m', r, asked) := get_certificate e issue cfg m sni in
      {| ev_cfg := cfg; ev_op := Handshake e issue sni; ev_result := r; ev_asked := asked |} :: cert_run cfg m' ops'
  | ClientCert issue name :: ops' =>
      let '(m', r, asked) := get_client_cert issue m name in
      {| ev_cfg := cfg; ev_op := ClientCert issue name; ev_result := r; ev_asked := asked |} :: cert_run cfg m' ops'
  end.

(** main.go:85-88, proxy.go:204-214: the manager of a new proxy; the account and
    the cached certificates may be there from an earlier run.  The program does
    not start unless the terms are accepted. *)
Definition new_manager (cfg : cert_cfg) (account : bool) (cache : list (str * chain)) : option manager :=
  if cc_accept_tos cfg then
    Some {| cm_autocert := true; cm_prompt := cc_accept_tos cfg; cm_account := account; cm_cache := cache |}
  else None.
