(** The headers that the proxy adds: the configured ones of requests, with their
    variables (backend-http.go expandVars, os.Expand), and those of responses
    (backend-http.go setAltSvc, reverseProxyModifyResponse). *)
From Verif Require Import Base IPModel TokenModel HttpModel ProxyHdrModel.
Open Scope list_scope.
Local Open Scope nat_scope.

(** ** Variables *)

(** os/env.go isShellSpecialVar *)
Definition special (c : ascii) : bool := has_char c (lit "*#$@!?-0123456789").
(** os/env.go isAlphaNum *)
Definition alnum (c : ascii) : bool :=
  let n := N_of_ascii c in
  (Ascii.eqb c "_" || (48 <=? n) && (n <=? 57) || (97 <=? n) && (n <=? 122) || (65 <=? n) && (n <=? 90))%N.

(** os/env.go getShellName: the loop over alphanumerics. *)
Fixpoint alnums (s : str) : str :=
  match s with
  | c :: r => if alnum c then c :: alnums r else []
  | [] => []
  end.

(** os/env.go getShellName: the name and the number of characters it takes, for a
    text that is not empty.  The braces: for one special character the result is
    that of the scan. *)
Definition shell_name (s : str) : str * nat :=
  match s with
  | c :: r =>
      if Ascii.eqb c "{" then
        match cut "}" r with
        | (name, _, true) => (name, List.length name + 2)
        | _ => ([], 1)
        end
      else if special c then ([c], 1)
      else let n := alnums s in (n, List.length n)
  | [] => ([], 0)
  end.

(** os/env.go Expand; [skip] characters belong to the variable before. *)
Fixpoint expand_from (m : str -> str) (s : str) (skip : nat) : str :=
  match s with
  | [] => []
  | c :: r =>
      match skip with
      | S k => expand_from m r k
      | O =>
          if Ascii.eqb c "$" && negb (str_eqb r []) then
            let '(name, w) := shell_name r in
            (match name, w with
             | [], O => [c]
             | [], S _ => []
             | _, _ => m name
             end) ++ expand_from m r w
          else c :: expand_from m r 0
      end
  end.
(** os/env.go Expand *)
Definition expand (m : str -> str) (s : str) : str := expand_from m s 0.

(** What is known about the connection: LocalAddr().Network(), the two addresses as
    text and as values, and the server name in Unicode. *)
Record facts := {
  fa_network : str; fa_local : str; fa_remote : str; fa_local_addr : naddr; fa_remote_addr : naddr; fa_name : str
}.

(** backend-http.go:357-366 addr2ip; [s6] as in [ip_string]. *)
Definition addr2ip (s6 : ip -> str) (a : naddr) : str :=
  match a with TCPAddr i _ | UDPAddr i _ => ip_string s6 i | OtherAddr => [] end.

(** fmt.Sprint of a claim; [show] for the ones that are not strings. *)
Definition sprint (show : cval -> str) (v : cval) : str := match v with VStr s => s | _ => show v end.

(** backend-http.go:372-394: the value of a variable. *)
Definition variable (s6 : ip -> str) (show : cval -> str) (f : facts) (c : option claims) (n : str) : str :=
  if str_eqb n (lit "NETWORK") then fa_network f
  else if str_eqb n (lit "LOCAL_ADDR") then fa_local f
  else if str_eqb n (lit "REMOTE_ADDR") then fa_remote f
  else if str_eqb n (lit "LOCAL_IP") then addr2ip s6 (fa_local_addr f)
  else if str_eqb n (lit "REMOTE_IP") then addr2ip s6 (fa_remote_addr f)
  else if str_eqb n (lit "SERVER_NAME") then fa_name f
  else if has_prefix n (lit "JWT:") then
    match c with
    | Some cl => match assoc (skipn 4 n) cl with Some v => sprint show v | None => [] end
    | None => []
    end
  else [].

(** backend-http.go:368-395 expandVars *)
Definition expand_vars (s6 : ip -> str) (show : cval -> str) (f : facts) (c : option claims) (s : str) : str :=
  expand (variable s6 show f c) s.

(** ** Responses *)

(** backend-http.go:51-52 *)
Definition hsts : str := lit "Strict-Transport-Security".
(** backend-http.go:52: hstsValue *)
Definition hsts_value : str := lit "max-age=2592000".
(** Artefact: the name of the header. *)
Definition altsvc : str := lit "Alt-Svc".

(** net.SplitHostPort: the port, or the empty string if there is an error *)
Definition port_of (hp : str) : str :=
  match split_host_port hp, cut_last colon hp with
  | Some _, Some (_, p) => p
  | _, _ => []
  end.

(** Artefact: the number a sequence of digits stands for. *)
Fixpoint digits_value (acc : N) (s : str) : option N :=
  match s with
  | [] => Some acc
  | c :: r => if is_digit c then digits_value (acc * 10 + (N_of_ascii c - 48))%N r else None
  end.
(** strconv.Atoi, for the numbers that matter here: positive ones.  Overflow is not
    modelled; it is an error and such numbers are refused anyway. *)
Definition atoi (s : str) : option N :=
  match s with
  | [] => None
  | c :: r => if Ascii.eqb c "+" then match r with [] => None | _ => digits_value 0 r end else digits_value 0 s
  end.

(** What setAltSvc looks at besides the request: whether the backend has an HTTP/3
    server (proxy.go:713-734) and its protocols. *)
Record h3conf := { h3_server : bool; h3_alpn : option (list str) }.

(** backend-http.go:397-413 setAltSvc.  [proto]: the protocol negotiated with the
    client, if the request came over TLS. *)
Definition set_alt_svc (b : h3conf) (proto : option str) (host : str) (h : headers) : headers :=
  if negb (h3_server b) then h
  else if match proto with Some p => str_eqb p (lit "h3") | None => false end then h
  else if negb (match h3_alpn b with Some l => mem (lit "h3") l | None => false end) then h
  else
    let port := match port_of host with [] => lit "443" | p => p end in
    match atoi port with
    | Some p => if ((0 <? p) && (p <? 65536))%N
                then h_set altsvc (lit "h3="":" ++ dec p ++ lit """; ma=2592000;") h else h
    | None => h
    end.

(** http.Response, the parts that matter. *)
Record resp := { rs_status : N; rs_headers : headers }.

(** backend-http.go:523-544 reverseProxyModifyResponse *)
Definition modify_response (b : h3conf) (proto : option str) (host : str) (r : resp) : resp :=
  let h := rs_headers r in
  let h := if negb (rs_status r =? 421)%N && str_eqb (h_get hsts h) [] then h_set hsts hsts_value h else h in
  let h := if ((200 <=? rs_status r) && (rs_status r <? 400))%N && str_eqb (h_get altsvc h) [] then set_alt_svc b proto host h else h in
  {| rs_status := rs_status r; rs_headers := h |}.
