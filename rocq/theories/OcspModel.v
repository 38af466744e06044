(** The OCSP cache: internal/ocspcache/ocsp.go and its uses.

    The functions are written as programs that stop at each use of the clock, of the cache
    and of the network.  Any number of them run at the same time, interleaved in any way;
    the answers of the network and of the clock are arbitrary. *)
From Verif Require Import Base.
Open Scope Z_scope.

(** An x509.Certificate, as far as it is used: [ct_raw] stands for Raw and for its SHA-256
    (certHash, ocsp.go:189-192, taken to be collision-free), [ct_key] for the public key,
    [ct_servers] for OCSPServer.  [ct_spki_ok]: ocsp.CreateRequest can read the public key
    of this certificate as an issuer. *)
Record cert := { ct_raw : str; ct_serial : N; ct_key : str; ct_servers : list str; ct_spki_ok : bool }.

(** golang.org/x/crypto/ocsp: Good, Revoked, Unknown. *)
Inductive status := Good | Revoked | Unknown.
(** The bytes of an OCSP response of status "successful".  [wi_signer]: the key that the
    signature verifies with, by way of an embedded certificate or directly.  Each single
    response has a serial number, a status and NextUpdate. *)
Record wire := { wi_signer : str; wi_singles : list (N * status * Z) }.
(** ocsp.Response *)
Record response := { rs_serial : N; rs_status : status; rs_next : Z; rs_raw : wire }.

(** golang.org/x/crypto/ocsp ParseResponseForCert; ParseResponse is the case without a
    certificate.  None: an error. *)
Definition parse_response (w : wire) (serial : option N) (issuer : option str) : option response :=
  let signed := match issuer with None => true | Some k => str_eqb k (wi_signer w) end in
  let single :=
    match serial with
    | None => match wi_singles w with [x] => Some x | _ => None end
    | Some n => find (fun x => (fst (fst x) =? n)%N) (wi_singles w)
    end in
  match single with
  | Some (n, s, t) => if signed then Some {| rs_serial := n; rs_status := s; rs_next := t; rs_raw := w |} else None
  | None => None
  end.

(** ocsp.go:45-50 *)
Inductive err := ErrRevoked | ErrUnknown | Protocol | Internal.

(** What comes back from a responder: http.NewRequest fails for the URL, nothing usable
    comes back, or bytes that are a response of status "successful" (others are errors of
    ParseResponse, as is a body that is cut off at 4096 bytes: [NoAnswer]). *)
Inductive reply := NoRequest | NoAnswer | Body (w : wire).

(** Programs.  A value of the cache can be the nil pointer (None). *)
Inductive prog (A : Type) : Type :=
| Ret (a : A)
| Crash
| Clock (k : Z -> prog A)
| Get (h : str) (k : option (option response) -> prog A)
| Add (h : str) (r : option response) (k : prog A)
| Ask (server : str) (k : reply -> prog A).
Arguments Ret {A}. Arguments Crash {A}. Arguments Clock {A}. Arguments Get {A}. Arguments Add {A}. Arguments Ask {A}.

(** Artefact: sequencing of programs. *)
Fixpoint bind {A B : Type} (p : prog A) (f : A -> prog B) : prog B :=
  match p with
  | Ret a => f a
  | Crash => Crash
  | Clock k => Clock (fun t => bind (k t) f)
  | Get h k => Get h (fun v => bind (k v) f)
  | Add h r k => Add h r (bind k f)
  | Ask s k => Ask s (fun x => bind (k x) f)
  end.

(** (ocsp response, error) *)
Definition rerr : Type := option response * option err.

(** ocsp.go:225-252 fetchOneOCSP *)
Definition fetch_one (issuer : cert) (server : str) : prog rerr :=
  Ask server (fun x =>
    match x with
    | NoRequest => Ret (None, Some Internal)
    | NoAnswer => Ret (None, Some Protocol)
    | Body w => match parse_response w None (Some (ct_key issuer)) with
                | None => Ret (None, Some Protocol)
                | Some r => Ret (Some r, None)
                end
    end).

(** ocsp.go:212-222, the loop of fetchOCSP.  The third case does not arise: fetchOneOCSP
    returns a response or an error. *)
Fixpoint fetch_loop (issuer : cert) (servers : list str) (last : rerr) : prog rerr :=
  match servers with
  | [] => Ret last
  | s :: rest =>
      bind (fetch_one issuer s) (fun x =>
        match x with
        | (_, Some _) => fetch_loop issuer rest x
        | (Some r, None) => match rs_status r with Unknown => fetch_loop issuer rest x | _ => Ret x end
        | (None, None) => Crash
        end)
  end.
(** ocsp.go:206-223 fetchOCSP.  Without a responder it returns (nil, nil). *)
Definition fetch_ocsp (c issuer : cert) : prog rerr :=
  if ct_spki_ok issuer then fetch_loop issuer (ct_servers c) (None, None) else Ret (None, Some Internal).

(** ocsp.go:199-203 *)
Definition fetch_and_add (c issuer : cert) : prog rerr :=
  bind (fetch_ocsp c issuer) (fun x =>
    match snd x with
    | None => Add (ct_raw c) (fst x) (Ret x)
    | Some _ => Ret x
    end).
(** ocsp.go:194-204 Response.  A nil pointer in the cache is dereferenced at line 196. *)
Definition get_response (c issuer : cert) (margin : Z) : prog rerr :=
  Get (ct_raw c) (fun v =>
    match v with
    | Some None => Crash
    | Some (Some r) => Clock (fun now => if now + margin <? rs_next r then Ret (Some r, None) else fetch_and_add c issuer)
    | None => fetch_and_add c issuer
    end).

(** ocsp.go:149-184, one chain.  The second component: whether the end of the chain was
    reached ("break") or the next one is tried ("continue nextChain"). *)
Fixpoint check_chain (chain : list cert) (last : option err) : prog (option err * bool) :=
  match chain with
  | [] => Ret (last, true)
  | c :: rest =>
      match ct_servers c with
      | [] => check_chain rest last
      | _ =>
          bind (get_response c (hd c rest) 0) (fun x =>
            match x with
            | (_, Some Internal) => check_chain rest last
            | (_, Some e) => Ret (Some e, false)
            | (None, None) => Crash
            | (Some r, None) =>
                match rs_status r with
                | Revoked => Ret (Some ErrRevoked, false)
                | Unknown => Ret (Some ErrUnknown, false)
                | Good => check_chain rest None
                end
            end)
      end
  end.
(** ocsp.go:146-186 *)
Fixpoint check_chains (chains : list (list cert)) (last : option err) : prog (option err) :=
  match chains with
  | [] => Ret last
  | chain :: rest =>
      bind (check_chain chain last) (fun x => if snd x then Ret (fst x) else check_chains rest (fst x))
  end.
(** ocsp.go:134-187 VerifyChains *)
Definition verify_chains (chains : list (list cert)) (stapled : option wire) : prog (option err) :=
  match stapled, chains with
  | Some w, (c :: issuer :: _) :: _ =>
      match parse_response w (Some (ct_serial c)) (Some (ct_key issuer)) with
      | None => check_chains chains None
      | Some r =>
          Clock (fun now =>
            match now <? rs_next r, rs_status r with
            | true, Good =>
                Get (ct_raw c) (fun v =>
                  match v with
                  | Some None => Crash
                  | Some (Some old) => match rs_status old with
                                       | Revoked => Ret (Some ErrRevoked)
                                       | _ => Add (ct_raw c) (Some r) (check_chains chains None)
                                       end
                  | None => Add (ct_raw c) (Some r) (check_chains chains None)
                  end)
            | _, _ => check_chains chains None
            end)
      end
  | _, _ => check_chains chains None
  end.

(** Artefact: what a call returns. *)
Inductive result := Verdict (e : option err) | Staple (r : option wire).

(** proxy.go:609-613, backend.go:124-128, quic.go:536-540: a peer whose certificate is not
    of a built-in authority.  [peer]: PeerCertificates[0]. *)
Definition verify_peer (peer : cert) (chains : list (list cert)) (stapled : option wire) : prog result :=
  match ct_servers peer with
  | [] => Ret (Verdict None)
  | _ => bind (verify_chains chains stapled) (fun e => Ret (Verdict e))
  end.
(** proxy.go:1069-1073, in GetCertificate.  A nil response is dereferenced at line 1069. *)
Definition get_staple (leaf issuer : cert) : prog result :=
  bind (get_response leaf issuer 3600000000000) (fun x =>
    match x with
    | (Some r, None) => Ret (Staple (match rs_status r with Good => Some (rs_raw r) | _ => None end))
    | (None, None) => Crash
    | (_, Some _) => Ret (Staple None)
    end).

(** ** Many of them *)

(** The cache, what is on disk, and the calls by number; None: has ended. *)
Record state := { s_cache : list (str * option response); s_disk : list (str * wire); s_calls : list (option (prog result)) }.

(** Artefact: what can happen next. *)
Inductive op :=
| CallVerify (peer : cert) (chains : list (list cert)) (stapled : option wire)
| CallStaple (leaf issuer : cert)
| Go (i : nat) (now : Z) (x : reply)      (* call i goes on to its next stop; the clock says [now], the network [x] *)
| Evict (h : str)                         (* lru: an entry is dropped *)
| Flush (now : Z)                         (* ocsp.go:117-132 flush *)
| Restart (now : Z).                      (* the process ends; ocsp.go:90-102 load *)

(** Artefact: what did happen. *)
Inductive event :=
| EVerify (i : nat) (peer : cert) (chains : list (list cert)) (stapled : option wire)
| EStaple (i : nat) (leaf issuer : cert)
| EClock (i : nat) (now : Z)
| EGet (i : nat) (h : str) (v : option (option response))
| EAdd (i : nat) (h : str) (r : option response)
| EAnswer (i : nat) (server : str) (x : reply)
| EEnd (i : nat) (r : result)
| ECrash (i : nat)                        (* run-time panic in a call *)
| EFlushCrash                             (* run-time panic in FlushLoop: the process ends *)
| EOther.

(** Artefact: list update. *)
Fixpoint set_nth {A : Type} (i : nat) (x : A) (l : list A) : list A :=
  match l, i with
  | [], _ => []
  | _ :: l, O => x :: l
  | y :: l, S i => y :: set_nth i x l
  end.

(** Artefact: record update. *)
Definition with_call (st : state) (i : nat) (p : option (prog result)) : state :=
  {| s_cache := s_cache st; s_disk := s_disk st; s_calls := set_nth i p (s_calls st) |}.
(** Artefact: a goroutine starts a call. *)
Definition new_call (st : state) (p : prog result) : state :=
  {| s_cache := s_cache st; s_disk := s_disk st; s_calls := s_calls st ++ [Some p] |}.

(** ocsp.go:117-132 flush: what is saved; None: a nil pointer is dereferenced *)
Fixpoint to_save (now : Z) (l : list (str * option response)) : option (list (str * wire)) :=
  match l with
  | [] => Some []
  | (h, r) :: l =>
      match r, to_save now l with
      | Some r, Some items => Some (if rs_next r <? now then items else (h, rs_raw r) :: items)
      | _, _ => None
      end
  end.
(** ocsp.go:90-102 load; the signature is not looked at again *)
Fixpoint load (now : Z) (l : list (str * wire)) : list (str * option response) :=
  match l with
  | [] => []
  | (h, w) :: l =>
      match parse_response w None None with
      | Some r => if now <? rs_next r then assoc_set h (Some r) (load now l) else load now l
      | None => load now l
      end
  end.

(** Artefact: one operation. *)
Definition step (st : state) (o : op) : state * event :=
  match o with
  | CallVerify peer chains stapled => (new_call st (verify_peer peer chains stapled), EVerify (List.length (s_calls st)) peer chains stapled)
  | CallStaple leaf issuer => (new_call st (get_staple leaf issuer), EStaple (List.length (s_calls st)) leaf issuer)
  | Go i now x =>
      match nth_error (s_calls st) i with
      | Some (Some p) =>
          match p with
          | Ret a => (with_call st i None, EEnd i a)
          | Crash => (with_call st i None, ECrash i)
          | Clock k => (with_call st i (Some (k now)), EClock i now)
          | Get h k => (with_call st i (Some (k (assoc h (s_cache st)))), EGet i h (assoc h (s_cache st)))
          | Add h r k => ({| s_cache := assoc_set h r (s_cache st); s_disk := s_disk st; s_calls := set_nth i (Some k) (s_calls st) |}, EAdd i h r)
          | Ask s k => (with_call st i (Some (k x)), EAnswer i s x)
          end
      | _ => (st, EOther)
      end
  | Evict h => ({| s_cache := assoc_del h (s_cache st); s_disk := s_disk st; s_calls := s_calls st |}, EOther)
  | Flush now =>
      match to_save now (s_cache st) with
      | Some items => ({| s_cache := s_cache st; s_disk := items; s_calls := s_calls st |}, EOther)
      | None => ({| s_cache := []; s_disk := s_disk st; s_calls := map (fun _ => None) (s_calls st) |}, EFlushCrash)
      end
  | Restart now => ({| s_cache := load now (s_disk st); s_disk := s_disk st; s_calls := map (fun _ => None) (s_calls st) |}, EOther)
  end.

(** ocsp.go:59-76 New makes an empty file when there is none. *)
Definition start : state := {| s_cache := []; s_disk := []; s_calls := [] |}.
(** The events are in reverse order. *)
Definition run (ops : list op) : state * list event :=
  fold_left (fun se o => let '(st, e) := step (fst se) o in (st, e :: snd se)) ops (start, []).
