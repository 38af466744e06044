(** Loading a configuration (proxy/config.go Check, proxy/proxy.go Reconfigure).
    What the configuration says about backends and routing is in RouteModel; this
    file has the order of the steps that may fail and what has been changed by
    then.  Not modelled: the validity of URLs, CIDRs, proxy protocol versions and
    path overrides (config.go:806-913, 1101-1172: more reasons for Check to fail,
    all of which change nothing), the local handlers, the content of the stores. *)
From Verif Require Import Base RouteModel.
Local Open Scope Z_scope.

(** config.go:184-191 BWLimit; the floats are integers here. *)
Record group := { gName : str; gIn : Z; gOut : Z }.

(** A backend of the configuration: the part of RouteModel, BWLimit,
    SSO.Provider if there is an SSO section, and the names or files of
    ClientAuth.RootCAs, ForwardRootCAs and those of the path overrides. *)
Record cbackend := {
  cbRaw : rawBackend;
  cbLimit : str;
  cbSSO : option str;
  cbCAs : list str
}.

(** config.go:96-182 Config, the parts used here. *)
Record config := {
  cfOIDC : list str;
  cfSAML : list str;
  cfPasskey : list (str * str);     (* name, IdentityProvider *)
  cfPKI : list str;
  cfSSH : list str;
  cfGroups : list group;
  cfBackends : list cbackend;
  cfDefault : str
}.

(** What the rest of the system answers during one Reconfigure. *)
Record env := {
  eQUIC : bool;
  eIDNA : str -> str;
  eOIDC : str -> bool;              (* oidc.New returns no error *)
  eSAML : str -> bool;
  ePasskey : str -> bool;
  ePKI : str -> bool;               (* pki.New *)
  eLoad : str -> bool;              (* loadCerts in Check *)
  eCA : str -> bool;                (* PKIManager.CACert in Reconfigure *)
  eReload : str -> bool;            (* loadCerts in Reconfigure *)
  eSSH : str -> bool                (* sshca.New *)
}.

(** *** Check *)

(** The loops that reject a duplicate name; the names seen so far come back. *)
Fixpoint check_dups (l : list str) (seen : list str) : option (list str) :=
  match l with
  | [] => Some seen
  | n :: l' => if mem n seen then None else check_dups l' (n :: seen)
  end.

(** config.go:888-913: the passkey providers; line 892 adds the name before line
    899 looks up the other provider. *)
Fixpoint check_passkeys (l : list (str * str)) (seen : list str) : option (list str) :=
  match l with
  | [] => Some seen
  | (n, other) :: l' =>
      if mem n seen then None
      else if str_eqb other [] then None
      else if negb (mem other (n :: seen)) then None
      else check_passkeys l' (n :: seen)
  end.

(** config.go:972-998, 1000-1014: names of the CAs. *)
Definition check_cas (l : list str) : bool :=
  forallb (fun n => negb (str_eqb n [])) l &&
  match check_dups l [] with Some _ => true | None => false end.

(** config.go:1024-1096: limit group, provider and root CAs of one backend. *)
Definition check_refs (e : env) (idps pkis groups : list str) (b : cbackend) : bool :=
  (str_eqb (cbLimit b) [] || mem (cbLimit b) groups) &&
  match cbSSO b with Some p => mem p idps | None => true end &&
  forallb (fun n => mem n pkis || eLoad e n) (cbCAs b).

(** config.go:780-1174; the result is the backends with their defaults. *)
Definition check (e : env) (c : config) : option (list backend) :=
  match check_dups (cfOIDC c ++ cfSAML c) [] with
  | None => None
  | Some seen =>
      match check_passkeys (cfPasskey c) seen with
      | None => None
      | Some idps =>
          match check_config (eQUIC e) (eIDNA e) (map cbRaw (cfBackends c)) with
          | None => None
          | Some bes =>
              if check_cas (cfPKI c) && check_cas (cfSSH c) &&
                 match check_dups (map gName (cfGroups c)) [] with Some _ => true | None => false end &&
                 forallb (check_refs e idps (cfPKI c) (map gName (cfGroups c))) (cfBackends c)
              then Some bes else None
          end
      end
  end.

(** *** The state of the proxy *)

(** The settings of the two rate limiters of a group. *)
Record limits := { lIn : Z; lInBurst : Z; lOut : Z; lOutBurst : Z }.

(** A backend that is in service, with the limiter it uses.  Entries of p.bwLimits
    are never replaced or removed, only modified: a pointer to one is its key. *)
Definition active := (backend * option str)%type.

(** proxy.go:107-139: the fields that Reconfigure replaces. *)
Record serving := { svBackends : list active; svPKI : list str; svDefault : str }.

(** [pServers] counts the internal HTTP servers that have been started and have not
    been told to stop. *)
Record proxy := {
  pLimits : list (str * limits);
  pServing : option serving;
  pServers : nat
}.

(** proxy.go:221, 269 *)
Definition initial : proxy := {| pLimits := []; pServing := None; pServers := 0 |}.

(** *** Reconfigure *)

(** proxy.go:414-428; 1 << 17 is the smallest burst. *)
Definition min_burst : Z := 131072.
(** proxy.go:416-427: the settings for one group. *)
Definition limits_of (g : group) : limits :=
  {| lIn := gIn g; lInBurst := Z.max (gIn g) min_burst;
     lOut := gOut g; lOutBurst := Z.max (gOut g) min_burst |}.
(** proxy.go:414-428: the loop over the groups. *)
Definition set_limits (l : list (str * limits)) (gs : list group) : list (str * limits) :=
  fold_left (fun l g => assoc_set (to_lower (gName g)) (limits_of g) l) gs l.

(** proxy.go:360-389: a passkey provider needs the other one to exist by then. *)
Fixpoint make_passkeys (e : env) (l : list (str * str)) (idps : list str) : option (list str) :=
  match l with
  | [] => Some idps
  | (n, other) :: l' =>
      if negb (mem other idps) then None
      else if negb (ePasskey e n) then None
      else make_passkeys e l' (n :: idps)
  end.

(** proxy.go:300-412: everything before the limits are changed; the names of the
    identity providers come back. *)
Definition prepare (e : env) (c : config) : option (list str) :=
  if negb (forallb (eOIDC e) (cfOIDC c)) then None
  else if negb (forallb (eSAML e) (cfSAML c)) then None
  else
    match make_passkeys e (cfPasskey c) (cfSAML c ++ cfOIDC c) with
    | None => None
    | Some idps => if negb (forallb (ePKI e) (cfPKI c)) then None else Some idps
    end.

(** proxy.go:566-584, 660-694: the root CAs of a backend. *)
Definition load_cas (e : env) (pkis : list str) (l : list str) : bool :=
  forallb (fun n => if mem n pkis then eCA e n else eReload e n) l.

(** proxy.go:704-730: the modes with an internal HTTP server. *)
Definition has_server (m : mode) : bool :=
  match m with ModeConsole | ModeLocal | ModeHTTP | ModeHTTPS => true | _ => false end.

(** proxy.go:430-731: the loop over the backends.  [None]: an error; the second
    component counts the servers started. *)
Fixpoint start (e : env) (lim : list (str * limits)) (idps pkis : list str)
  (l : list (cbackend * backend)) : option (list active) * nat :=
  match l with
  | [] => (Some [], 0%nat)
  | (c, b) :: l' =>
      let cell := match assoc (cbLimit c) lim with Some _ => Some (cbLimit c) | None => None end in
      if match cbSSO c with Some p => mem p idps | None => true end &&
         load_cas e pkis (cbCAs c)
      then
        let '(r, n) := start e lim idps pkis l' in
        (match r with Some r => Some ((b, cell) :: r) | None => None end,
         if has_server (bMode b) then S n else n)
      else (None, 0%nat)
  end.

(** Artefact: the number of backends with an internal HTTP server. *)
Definition running (l : list active) : nat :=
  List.length (filter (fun a => has_server (bMode (fst a))) l).

(** proxy.go:281-861; [false] is an error.  The comparison with the current
    configuration (line 285) is left out: it only skips a reload. *)
Definition reconfigure (e : env) (c : config) (p : proxy) : proxy * bool :=
  match check e c with
  | None => (p, false)
  | Some bes =>
      match prepare e c with
      | None => (p, false)
      | Some idps =>
          let lim := set_limits (pLimits p) (cfGroups c) in
          let '(r, n) := start e lim idps (cfPKI c) (combine (cfBackends c) bes) in
          let failed := ({| pLimits := lim; pServing := pServing p; pServers := pServers p + n |}, false) in
          match r with
          | None => failed
          | Some act =>
              if negb (forallb (eSSH e) (cfSSH c)) then failed
              else
                let old := match pServing p with Some s => running (svBackends s) | None => 0%nat end in
                ({| pLimits := lim;
                    pServing := Some {| svBackends := act; svPKI := cfPKI c; svDefault := cfDefault c |};
                    pServers := pServers p + n - old |}, true)
          end
      end
  end.

(** Artefact: a history of reloads. *)
Fixpoint after (p : proxy) (h : list (env * config)) : proxy :=
  match h with
  | [] => p
  | (e, c) :: h' => after (fst (reconfigure e c p)) h'
  end.

(** proxy.go:1185-1187, quic.go:175-177: the limits of a connection to backend [i]. *)
Definition cell_of (p : proxy) (i : nat) : option str :=
  match pServing p with
  | None => None
  | Some s => match nth_error (svBackends s) i with Some (_, c) => c | None => None end
  end.

(** Artefact: the settings behind a pointer. *)
Definition in_force (p : proxy) (cell : option str) : option limits :=
  match cell with None => None | Some n => assoc n (pLimits p) end.
