(** Passkeys: internal/passkeys/manager.go and webauthn.go.

    An operation is one critical section of the manager (under [mu]) with the pure
    computations of its request.  The store is assumed to work: reads and writes of
    the passkey file do not fail. *)
From Verif Require Import Base.
Open Scope Z_scope.

(** ** Authenticator data (webauthn.go) *)

(** webauthn.go:189-199.  The backup flags are decoded but not used. *)
Record auth_data := {
  ad_rp : str; ad_up : bool; ad_uv : bool; ad_be : bool; ad_bs : bool; ad_at : bool; ad_ed : bool; ad_count : N;
  ad_creds : option (str * str * str)   (* AAGUID, credential id, COSE key *)
}.

(** Artefact: a byte as a number. *)
Definition bnum (a : ascii) : N := N_of_ascii a.

(** raw[:n] and raw[n:]; Go panics when the slice is shorter *)
Definition take (n : nat) (raw : str) : outcome (str * str) :=
  if (List.length raw <? n)%nat then Panic else Ok (firstn n raw, skipn n raw).
(** binary.BigEndian.Uint16, Uint32; panic on short input *)
Definition be16 (b : str) : outcome N := match b with x :: y :: _ => Ok (bnum x * 256 + bnum y)%N | _ => Panic end.
(** binary.BigEndian.Uint32 *)
Definition be32 (b : str) : outcome N :=
  match b with x :: y :: z :: t :: _ => Ok (((bnum x * 256 + bnum y) * 256 + bnum z) * 256 + bnum t)%N | _ => Panic end.
(** raw[0] *)
Definition first_byte (b : str) : outcome N := match b with x :: _ => Ok (bnum x) | [] => Panic end.

(** webauthn.go:221-269 parseAuthenticatorData; [cbor] is cbor.UnmarshalFirst into a raw
    message: the first item and the rest. *)
Definition parse_auth_data (cbor : str -> option (str * str)) (raw : str) : outcome auth_data :=
  if (List.length raw <? 37)%nat then Err else
  do p <- take 32 raw; let '(rp, raw) := p in
  do flags <- first_byte raw;
  do p <- take 1 raw; let '(_, raw) := p in
  do p <- take 4 raw; let '(cnt, _) := p in
  do n <- be32 cnt;
  do p <- take 4 raw; let '(_, raw) := p in
  let at_ := N.testbit flags 6 in
  do creds <-
    (if at_ then
       if (List.length raw <? 18)%nat then Err else
       do p <- take 16 raw; let '(aaguid, raw) := p in
       do p <- take 2 raw; let '(szb, raw) := p in
       do sz <- be16 szb;
       if (1023 <? sz)%N then Err else
       if (N.of_nat (List.length raw) <? sz)%N then Err else
       do p <- take (N.to_nat sz) raw; let '(id, raw) := p in
       match cbor raw with
       | None => Err
       | Some (key, _) => Ok (Some (aaguid, id, key))
       end
     else Ok None);
  Ok {| ad_rp := rp; ad_up := N.testbit flags 0; ad_uv := N.testbit flags 2; ad_be := N.testbit flags 3; ad_bs := N.testbit flags 4;
        ad_at := at_; ad_ed := N.testbit flags 7; ad_count := n; ad_creds := creds |}.

(** ** The manager *)

(** The claims of the identity that registers; [u_rest]: all other claims. *)
Record pclaims := { u_email : option str; u_sub : str; u_sid : str; u_iat : option Z; u_rest : nat }.
(** Artefact: equality of optional values. *)
Definition opt_eqb {A} (eqb : A -> A -> bool) (x y : option A) : bool :=
  match x, y with Some a, Some b => eqb a b | None, None => true | _, _ => false end.
(** reflect.DeepEqual on claims *)
Definition claims_eqb (a b : pclaims) : bool :=
  opt_eqb str_eqb (u_email a) (u_email b) && str_eqb (u_sub a) (u_sub b) && str_eqb (u_sid a) (u_sid b) &&
  opt_eqb Z.eqb (u_iat a) (u_iat b) && Nat.eqb (u_rest a) (u_rest b).

(** manager.go:77-91.  The handle of a user is its key in the map (the code stores the
    bytes and uses their base64 encoding as key).  Names, transports and times of a key
    are left out. *)
Record ukey := { k_id : str; k_pub : str; k_rp : str }.
(** manager.go:77-81 user *)
Record user := { us_claims : pclaims; us_keys : list ukey }.
(** manager.go:154-158; [ch_for]: the claims and user handle of a registration *)
Record challenge := { ch_created : Z; ch_for : option (pclaims * str) }.
(** manager.go:139-152 Manager: the maps of the manager. *)
Record pstate := { p_challenges : list (str * challenge); p_subjects : list (str * str); p_handles : list (str * user) }.
(** manager.go:121-137 NewManager: a new store. *)
Definition empty_pstate : pstate := {| p_challenges := []; p_subjects := []; p_handles := [] |}.

(** webauthn.go:172-176 *)
Record client_data := { cd_type : str; cd_challenge : str; cd_origin : str }.

(** The library functions used. *)
Record env := {
  e_client_data : str -> option client_data;         (* parseClientData: JSON *)
  e_attestation : str -> option str;                 (* CBOR attestation object: its authData *)
  e_cbor : str -> option (str * str);                (* cbor.UnmarshalFirst *)
  e_verify : str -> str -> str -> str -> bool;       (* verifySignature key authData clientData signature *)
  e_hash : str -> str;                               (* sha256 *)
  e_hostname : str -> str;                           (* host without the port *)
  e_acl : option (list str);                         (* of the provider *)
  e_refresh : Z                                      (* RefreshInterval, 0 = not set *)
}.

(** Artefact: the answers. *)
Inductive pout :=
| PNothing
| PRefused
| PRefresh                           (* the identity is to be confirmed again *)
| PAdded (c : pclaims) (k : ukey)    (* a key was registered *)
| PLogin (c : pclaims) (k : ukey).   (* the key was accepted: claims of the new session *)

(** manager.go:699-705 subjectIsAllowed *)
Definition subject_allowed (acl : option (list str)) (email : str) : bool :=
  match acl with
  | None => true
  | Some l => let '(_, domain, _) := cut "@" email in mem email l || mem (lit "@" ++ domain) l
  end.

(** manager.go:170-179 *)
Definition vacuum (now : Z) (st : pstate) : pstate :=
  {| p_challenges := filter (fun kv => negb (ch_created (snd kv) + 300 <? now)) (p_challenges st);
     p_subjects := p_subjects st; p_handles := p_handles st |}.

(** manager.go:778-826 attestationOptions: [uid] the random handle, [ch] the challenge *)
Definition attestation_options (c : pclaims) (uid ch : str) (now : Z) (st : pstate) : pstate * pout :=
  match u_email c with
  | None => (st, PRefused)
  | Some email =>
      let add uid := {| p_challenges := assoc_set ch {| ch_created := now; ch_for := Some (c, uid) |} (p_challenges st);
                        p_subjects := p_subjects st; p_handles := p_handles st |} in
      match assoc email (p_subjects st) with
      | Some h => match assoc h (p_handles st) with
                  | None => (st, PRefused)
                  | Some _ => (add h, PNothing)
                  end
      | None => (add uid, PNothing)
      end
  end.

(** manager.go:828-921 processAttestation *)
Definition process_attestation (e : env) (c : pclaims) (host cdata att : str) (allow_new : bool) (st : pstate) : pstate * pout :=
  match u_email c with
  | None => (st, PRefused)
  | Some email =>
  match e_client_data e cdata with
  | None => (st, PRefused)
  | Some cd =>
  if negb (str_eqb (cd_type cd) (lit "webauthn.create")) then (st, PRefused) else
  if negb (str_eqb (cd_origin cd) (lit "https://" ++ host)) then (st, PRefused) else
  let st1 := {| p_challenges := assoc_del (cd_challenge cd) (p_challenges st); p_subjects := p_subjects st; p_handles := p_handles st |} in
  match assoc (cd_challenge cd) (p_challenges st) with
  | Some {| ch_for := Some (c', uid) |} =>
    if negb (claims_eqb c' c) then (st1, PRefused) else
    match (match e_attestation e att with Some raw => parse_auth_data (e_cbor e) raw | None => Err end) with
    | Ok ad =>
      if negb (str_eqb (ad_rp ad) (e_hash e (e_hostname e host))) then (st1, PRefused) else
      if negb (ad_up ad) then (st1, PRefused) else
      if negb (ad_uv ad) then (st1, PRefused) else
      match ad_creds ad with
      | None => (st1, PRefused)
      | Some (_, id, pub) =>
        let k := {| k_id := id; k_pub := pub; k_rp := ad_rp ad |} in
        match (match assoc email (p_subjects st) with Some h => match assoc h (p_handles st) with Some u => Some (h, u) | None => None end | None => None end) with
        | Some (h, u) =>
            if negb allow_new && negb (match us_keys u with [] => true | _ => false end) then (st1, PRefused)
            else ({| p_challenges := p_challenges st1; p_subjects := p_subjects st;
                     p_handles := assoc_set h {| us_claims := us_claims u; us_keys := us_keys u ++ [k] |} (p_handles st) |}, PAdded c k)
        | None =>
            ({| p_challenges := p_challenges st1; p_subjects := assoc_set email uid (p_subjects st);
                p_handles := assoc_set uid {| us_claims := c'; us_keys := [k] |} (p_handles st) |}, PAdded c k)
        end
      end
    | _ => (st1, PRefused)
    end
  | _ => (st1, PRefused)
  end end end.

(** manager.go:923-954 assertionOptions *)
Definition assertion_options (ch : str) (now : Z) (st : pstate) : pstate * pout :=
  ({| p_challenges := assoc_set ch {| ch_created := now; ch_for := None |} (p_challenges st); p_subjects := p_subjects st; p_handles := p_handles st |}, PNothing).

(** The arguments of a login (manager.go:958-965); [a_id]: the decoded key identifier. *)
Record assertion := { a_id : option str; a_cdata : str; a_adata : str; a_sig : str; a_handle : str; a_login : str }.

(** manager.go:1033-1038; the claims of the other provider's session, if there is one *)
Definition refreshed (token : option pclaims) (c : pclaims) : pclaims :=
  match token with
  | Some nc => if str_eqb (u_sub nc) (u_sub c) && opt_eqb str_eqb (u_email nc) (u_email c) then nc else c
  | None => c
  end.

(** manager.go:956-1044 processAssertion *)
Definition process_assertion (e : env) (a : assertion) (token : option pclaims) (st : pstate) : pstate * option (pclaims * ukey) :=
  match e_client_data e (a_cdata a) with
  | None => (st, None)
  | Some cd =>
  if negb (str_eqb (cd_type cd) (lit "webauthn.get")) then (st, None) else
  match parse_auth_data (e_cbor e) (a_adata a) with
  | Ok ad =>
    if negb (ad_up ad) then (st, None) else
    if negb (ad_uv ad) then (st, None) else
    match assoc (cd_challenge cd) (p_challenges st) with
    | None => (st, None)
    | Some _ =>
      let st1 := {| p_challenges := assoc_del (cd_challenge cd) (p_challenges st); p_subjects := p_subjects st; p_handles := p_handles st |} in
      let handle := if str_eqb (a_handle a) [] && negb (str_eqb (a_login a) []) then
                      match assoc (a_login a) (p_subjects st) with Some h => h | None => a_handle a end
                    else a_handle a in
      match assoc handle (p_handles st), a_id a with
      | Some u, Some id =>
          match find (fun k => str_eqb (k_id k) id) (us_keys u) with
          | None => (st1, None)
          | Some k =>
              if negb (str_eqb (ad_rp ad) (k_rp k)) then (st1, None) else
              if negb (e_verify e (k_pub k) (a_adata a) (a_cdata a) (a_sig a)) then (st1, None) else
              let c := refreshed token (us_claims u) in
              ({| p_challenges := p_challenges st1; p_subjects := p_subjects st;
                  p_handles := assoc_set handle {| us_claims := c; us_keys := us_keys u |} (p_handles st) |}, Some (c, k))
          end
      | _, _ => (st1, None)
      end
    end
  | _ => (st, None)
  end end.

(** manager.go:406-443 mode Check, [now] is when the age of the claims is looked at;
    setAuthToken (746-776) needs an e-mail address. *)
Definition check (e : env) (a : assertion) (token : option pclaims) (now : Z) (st : pstate) : pstate * pout :=
  match process_assertion e a token st with
  | (st1, None) => (st1, PRefused)
  | (st1, Some (c, k)) =>
      if (0 <? e_refresh e) && match u_iat c with Some t => e_refresh e <? now - t | None => true end then (st1, PRefresh)
      else match u_email c with Some _ => (st1, PLogin c k) | None => (st1, PRefused) end
  end.

(** manager.go:718-744 deleteKey *)
Definition delete_key (email id : str) (st : pstate) : pstate :=
  match assoc email (p_subjects st) with
  | None => st
  | Some h => match assoc h (p_handles st) with
              | None => st
              | Some u => {| p_challenges := p_challenges st; p_subjects := p_subjects st;
                             p_handles := assoc_set h {| us_claims := us_claims u; us_keys := filter (fun k => negb (str_eqb (k_id k) id)) (us_keys u) |} (p_handles st) |}
              end
  end.

(** Artefact: the critical sections. *)
Inductive pop :=
| Vacuum (now : Z)                                                    (* start of every request *)
| AttOptions (c : pclaims) (uid ch : str) (now : Z)
| AddKey (c : pclaims) (host cdata att : str) (allow_new : bool)      (* manager.go 445-472 (first key), 587-606 (signed in) *)
| AssOptions (ch : str) (now : Z)
| Check (a : assertion) (token : option pclaims) (now : Z)
| DeleteKey (c : pclaims) (session_key : str) (id : str).             (* manager.go 608-635, [session_key] is passkey_hash *)

(** Artefact: one operation. *)
Definition pstep (e : env) (st : pstate) (o : pop) : pstate * pout :=
  match o with
  | Vacuum now => (vacuum now st, PNothing)
  | AttOptions c uid ch now => attestation_options c uid ch now st
  | AddKey c host cdata att allow_new =>
      if negb allow_new && negb (subject_allowed (e_acl e) (match u_email c with Some m => m | None => [] end)) then (st, PRefused)
      else process_attestation e c host cdata att allow_new st
  | AssOptions ch now => assertion_options ch now st
  | Check a token now => check e a token now st
  | DeleteKey c sk id =>
      if str_eqb sk (e_hash e id) then (st, PRefused)
      else (delete_key (match u_email c with Some m => m | None => [] end) id st, PNothing)
  end.
(** Artefact: a history with the answers. *)
Fixpoint prun (e : env) (st : pstate) (ops : list pop) : pstate * list (pop * pout) :=
  match ops with
  | [] => (st, [])
  | o :: r => let '(st1, out) := pstep e st o in let '(st2, tr) := prun e st1 r in (st2, (o, out) :: tr)
  end.
