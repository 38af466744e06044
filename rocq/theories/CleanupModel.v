(** Revocation of the certificates that were obtained with ACME (proxy/revoke.go). *)
From Verif Require Import Base.
Local Open Scope Z_scope.

(** The fields of the leaf certificate that are used. *)
Record leaf := { lfNames : list str; lfNotAfter : Z; lfSerial : N }.

(** The cache of autocert: [None] is data that acmeAllCerts skips (revoke.go:205-245).  Entries with
    a broken key, which make the program panic, are left out: see PemModel. *)
Definition cache := list (str * option leaf).

(** revoke.go:43 *)
Definition account_key : str := !"acme_account+key".

(** *** revokeUnusedCertificates runs in a goroutine (proxy.go:933); configurations are
    loaded and certificates stored while it runs. *)
Inductive phase :=
| Idle
| HaveFlag (act : bool)                                             (* after line 106 *)
| HaveNames (act : bool) (names : list str)                         (* after line 115 *)
| Reading (act : bool) (names : list str) (keys : list str) (certs : list (str * leaf))
| Listed (act : bool) (todo : list str) (certs : list (str * leaf)) (* after line 134 *)
| Revoking (now : Z) (todo all : list str) (certs : list (str * leaf))
| Finished (ok : bool).

(** Artefact: the configuration and the cache as far as the clean-up reads them, and what
    the CA has revoked. *)
Record state := {
  sNames : list str;                    (* ServerNames of all the backends *)
  sFlag : bool;                         (* RevokeUnusedCertificates, true by default *)
  sCache : cache;
  sRevoked : list N;                    (* at the ACME CA *)
  sPhase : phase
}.

(** revoke.go:122-133: the certificates without any configured name. *)
Definition unused (names : list str) (certs : list (str * leaf)) : list str :=
  map fst (filter (fun kc => negb (existsb (fun n => mem n names) (lfNames (snd kc))) &&
                             negb (List.length (lfNames (snd kc)) =? 0)%nat) certs).

(** What the outside answers to one step: whether the cache, the account key or the CA
    reported success, whether a revocation took effect, and the clock. *)
Record answer := { aOK : bool; aDone : bool; aNow : Z }.

(** Artefact: record update. *)
Definition set_phase (s : state) (p : phase) : state :=
  {| sNames := sNames s; sFlag := sFlag s; sCache := sCache s; sRevoked := sRevoked s; sPhase := p |}.

(** revoke.go:105-164, one step.  The keys to revoke are sorted in the code; here they
    are in the order of the cache. *)
Definition step_cleanup (a : answer) (s : state) : state :=
  match sPhase s with
  | Idle => set_phase s (HaveFlag (sFlag s))
  | HaveFlag act => set_phase s (HaveNames act (sNames s))
  | HaveNames act names =>
      if aOK a then set_phase s (Reading act names (map fst (sCache s)) [])
      else set_phase s (Finished false)
  | Reading act names [] certs => set_phase s (Listed act (unused names certs) certs)
  | Reading act names (k :: keys) certs =>
      if str_eqb k account_key then set_phase s (Reading act names keys certs)
      else if negb (aOK a) then set_phase s (Reading act names keys certs)
      else match assoc k (sCache s) with
           | Some (Some c) => set_phase s (Reading act names keys (assoc_set k c certs))
           | _ => set_phase s (Reading act names keys certs)
           end
  | Listed act todo certs =>
      if negb act then set_phase s (Finished true)
      else if aOK a then set_phase s (Revoking (aNow a) todo todo certs)
      else set_phase s (Finished false)
  | Revoking now [] all certs =>
      if aOK a
      then {| sNames := sNames s; sFlag := sFlag s;
              sCache := fold_left (fun c k => assoc_del k c) all (sCache s);
              sRevoked := sRevoked s; sPhase := Finished true |}
      else set_phase s (Finished false)
  | Revoking now (k :: todo) all certs =>
      match assoc k certs with
      | None => set_phase s (Finished false)
      | Some c =>
          if lfNotAfter c <? now then set_phase s (Revoking now todo all certs)
          else
            {| sNames := sNames s; sFlag := sFlag s; sCache := sCache s;
               sRevoked := if aOK a || aDone a then lfSerial c :: sRevoked s else sRevoked s;
               sPhase := if aOK a then Revoking now todo all certs else Finished false |}
      end
  | Finished ok => s
  end.

(** Artefact: Reconfigure (proxy.go:281), autocert storing a certificate, one step of the
    clean-up. *)
Inductive op :=
| Reconfigured (names : list str) (flag : bool)
| Stored (k : str) (c : option leaf)               (* autocert stores a certificate *)
| CleanupStep (a : answer).

(** Artefact: one operation. *)
Definition step (s : state) (o : op) : state :=
  match o with
  | Reconfigured names flag =>
      {| sNames := names; sFlag := flag; sCache := sCache s; sRevoked := sRevoked s; sPhase := sPhase s |}
  | Stored k c =>
      {| sNames := sNames s; sFlag := sFlag s; sCache := assoc_set k c (sCache s);
         sRevoked := sRevoked s; sPhase := sPhase s |}
  | CleanupStep a => step_cleanup a s
  end.

(** Artefact: a history. *)
Fixpoint after (s : state) (ops : list op) : state :=
  match ops with
  | [] => s
  | o :: ops' => after (step s o) ops'
  end.

(** *** RevokeAllCertificates (revoke.go:45-103), called from main with the proxy not
    started.  [acme k] is whether the CA accepts the revocation of the certificate
    under [k].  The result: revoked serials, the cache, and whether it succeeded. *)

(** revoke.go:254-267 *)
Definition valid_reason (r : str) : bool :=
  mem r [!"unspecified"; !"keyCompromise"; !"superseded"; !"cessationOfOperation"].

(** revoke.go:190-252 acmeAllCerts *)
Definition all_certs (c : cache) : list (str * leaf) :=
  flat_map (fun kc => if str_eqb (fst kc) account_key then []
                      else match snd kc with Some l => [(fst kc, l)] | None => [] end) c.

(** revoke.go:92-101 *)
Fixpoint revoke_loop (now : Z) (acme : str -> bool) (l : list (str * leaf)) (revoked : list N)
  : list N * bool :=
  match l with
  | [] => (revoked, true)
  | (k, c) :: l' =>
      if lfNotAfter c <? now then revoke_loop now acme l' revoked
      else if acme k then revoke_loop now acme l' (lfSerial c :: revoked)
      else (revoked, false)
  end.

(** revoke.go:45-103 RevokeAllCertificates. *)
Definition revoke_all (reason : str) (now : Z) (keyOK delOK : bool) (acme : str -> bool)
  (c : cache) (revoked : list N) : list N * cache * bool :=
  if negb (valid_reason reason) then (revoked, c, false)
  else
    match all_certs c with
    | [] => (revoked, c, true)
    | certs =>
        if negb keyOK then (revoked, c, false)
        else
          let '(revoked', ok) := revoke_loop now acme certs revoked in
          if negb ok then (revoked', c, false)
          else if delOK then (revoked', fold_left (fun c k => assoc_del k c) (map fst certs) c, true)
          else (revoked', c, false)
    end.
