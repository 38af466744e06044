(** Two small settings: what is logged (proxy/logging.go) and the version of the proxy
    protocol (proxy/config.go). *)
From Verif Require Import Base.
Local Open Scope Z_scope.

(** config.go:193-202 *)
Record logFilter := {
  lfConnections : option bool;
  lfRequests : option bool;
  lfErrors : option bool
}.

(** logging.go:30-36 *)
Inductive logType := logConnection | logRequest | logError.

(** One of the loops of shouldLog: the first filter with a setting. *)
Fixpoint first_set (get : logFilter -> option bool) (f : list logFilter) : bool :=
  match f with
  | [] => true
  | ff :: f' => match get ff with Some b => b | None => first_set get f' end
  end.

(** logging.go:87-114 shouldLog *)
Definition should_log (t : logType) (f : list logFilter) : bool :=
  match t with
  | logConnection => first_set lfConnections f
  | logRequest => first_set lfRequests f
  | logError => first_set lfErrors f
  end.

(** A backend after Reconfigure: its own filter and the one of the configuration
    (proxy.go:436). *)
Record logBackend := { lbFilter : logFilter; lbDefault : logFilter }.

(** proxy.go:430-436 *)
Definition reconfigure_log (global : logFilter) (be : logFilter) : logBackend :=
  {| lbFilter := be; lbDefault := global |}.

(** logging.go:59-85: whether the backend's logConnF, logRequestF, logErrorF and
    logError print. *)
Definition be_logs (b : logBackend) (t : logType) : bool :=
  should_log t [lbFilter b; lbDefault b].

(** logging.go:38-57: the same for the proxy; [None] is a nil p.cfg, with which
    connections are not logged and errors are. *)
Definition proxy_logs (cfg : option logFilter) (t : logType) : bool :=
  match cfg, t with
  | None, logConnection => false
  | None, _ => true
  | Some f, t => should_log t [f]
  end.

(** *** The proxy protocol *)

(** strconv.ParseUint: one digit. *)
Definition digit (c : ascii) : option Z :=
  let n := Z.of_nat (nat_of_ascii c) in
  if (48 <=? n) && (n <=? 57) then Some (n - 48) else None.

(** strconv.ParseUint with base 10, without a limit on the size. *)
Fixpoint parse_digits (s : str) (acc : Z) : option Z :=
  match s with
  | [] => Some acc
  | c :: s' => match digit c with Some d => parse_digits s' (10 * acc + d) | None => None end
  end.
(** strconv.ParseUint *)
Definition parse_uint (s : str) : option Z :=
  match s with [] => None | _ => parse_digits s 0 end.

(** strconv.ParseInt(s, 10, 8) *)
Definition parse_int8 (s : str) : option Z :=
  let '(neg, s') :=
    match s with
    | c :: s' => if Ascii.eqb c "+" then (false, s') else if Ascii.eqb c "-" then (true, s') else (false, s)
    | [] => (false, s)
    end in
  match parse_uint s' with
  | None => None
  | Some v =>
      if negb neg && (128 <=? v) then None
      else if neg && (128 <? v) then None
      else Some (if neg then - v else v)
  end.

(** config.go:1176-1188 validateProxyProtoVersion; the result is a byte. *)
Definition validate_version (s : str) : option Z :=
  match s with
  | [] => Some 0
  | c :: s' =>
      if (List.length s <? 2)%nat || negb (Ascii.eqb c "v") then None
      else match parse_int8 s' with
           | None => None
           | Some v => Some (v mod 256)
           end
  end.

(** backend.go:156: a header is sent when the version is not zero. *)
Definition header_version (b : Z) : option Z := if 0 <? b then Some b else None.
