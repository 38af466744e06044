(** The log: how connections and requests are written to it (proxy/proxy.go,
    proxy/backend-http.go, proxy/backend-sso.go, proxy/http.go). *)
From Verif Require Import Base PathModel XfccModel OcspGetModel HttpModel.

(** Artefact: the newline. *)
Definition nl : ascii := "010".

(** ** The request *)

(** net/url stringContainsCTLByte: the bytes that no request target may contain. *)
Definition ctl (c : ascii) : bool := let n := N_of_ascii c in ((n <? 32) || (n =? 127))%N.

(** url.URL of a request: Path, the path as it was sent, and the query if there was a
    question mark. *)
Record target := { t_path : str; t_raw : str; t_query : option str }.

(** net/url ParseRequestURI, for targets that begin with a slash, which is what clients
    send to servers that are not proxies. *)
Definition parse_target (s : str) : option target :=
  if existsb ctl s || negb (has_prefix s [slash]) then None else
  let '(raw, q, found) := cut question s in
  match unescape raw with
  | Some p => Some {| t_path := p; t_raw := raw; t_query := if found then Some q else None |}
  | None => None
  end.

(** net/url validEncoded, mode encodePath. *)
Definition valid_encoded (raw : str) : bool :=
  forallb (fun c => keep c || has_char c (lit "!$&'()*+,;=:@[]%")) raw.

(** net/url URL.EscapedPath: as it was sent, if that is a valid encoding. *)
Definition escaped_path (t : target) : str :=
  if valid_encoded (t_raw t) then t_raw t else escape_path (t_path t).

(** net/url URL.String.  [origin] is empty, or the scheme and the host that
    proxy/backend-http.go:224-230 has put into the URL. *)
Definition url_string (origin : str) (t : target) : str :=
  origin ++ escaped_path t ++ match t_query t with Some q => question :: q | None => [] end.

(** ** Quoting *)

(** strconv.Quote (verb %q): one ASCII byte.  Lower case digits. *)
Definition quote_char (c : ascii) : str :=
  let n := N_of_ascii c in
  if Ascii.eqb c dquote then [backslash; dquote]
  else if Ascii.eqb c backslash then [backslash; backslash]
  else if ((32 <=? n) && (n <? 127))%N then [c]
  else if (n =? 7)%N then lit "\a" else if (n =? 8)%N then lit "\b"
  else if (n =? 9)%N then lit "\t" else if (n =? 10)%N then lit "\n"
  else if (n =? 11)%N then lit "\v" else if (n =? 12)%N then lit "\f"
  else if (n =? 13)%N then lit "\r"
  else lit "\x" ++ [XfccModel.hex_digit false (n / 16); XfccModel.hex_digit false (n mod 16)].

(** Artefact: a byte above 127. *)
Definition high (c : ascii) : bool := (127 <? N_of_ascii c)%N.

(** strconv.Quote.  [wide] says what is written for a run of bytes above 127 (the
    printable characters as they are, the others escaped); [run] is the run so far,
    reversed. *)
Fixpoint quote_body (wide : str -> str) (run s : str) : str :=
  let flush := match run with [] => [] | _ => wide (rev run) end in
  match s with
  | [] => flush
  | c :: r => if high c then quote_body wide (c :: run) r else flush ++ quote_char c ++ quote_body wide [] r
  end.
(** strconv.Quote *)
Definition quoted (wide : str -> str) (s : str) : str := dquote :: quote_body wide [] s ++ [dquote].

(** ** The parties *)

(** proxy/proxy.go:1542-1560 certSummary: what it takes from the certificate. *)
Record names := { n_subject : list rdn; n_dns : list str; n_emails : list str; n_uris : list str }.
(** proxy/proxy.go:1542-1560 certSummary *)
Definition cert_summary (c : names) : str :=
  join ";" ((match name_string (n_subject c) with [] => [] | s => [lit "SUBJECT:" ++ s] end)
            ++ map (app (lit "DNS:")) (n_dns c) ++ map (app (lit "EMAIL:")) (n_emails c)
            ++ map (app (lit "URI:")) (n_uris c)).

(** proxy/proxy.go:1446-1486: what formatConnDesc knows of a connection.  Addresses are
    with their network; the names of servers are in Unicode already. *)
Record desc := {
  d_cert : option names; d_user : option str;
  d_remote : str; d_via : option str;
  d_name : str; d_mode : str; d_proto : str; d_upgrade : str; d_internal : option (str * str)
}.
(** Artefact: the arrow between the parts of an entry. *)
Definition arrow : str := lit " ➔ ".
(** proxy/proxy.go:1453-1457, 1433-1437: the identities of a client. *)
Definition identities (d : desc) : list str :=
  (match d_cert d with None => [] | Some c => match cert_summary c with [] => [] | s => [s] end end)
  ++ (match d_user d with None => [] | Some u => [u] end).
(** proxy/proxy.go:1459-1464 *)
Definition who (d : desc) : str :=
  match identities d with [] => lit "[-] " | l => lit "[" ++ join "|" l ++ lit "] " end.
(** proxy/proxy.go:1465-1485 *)
Definition where_ (d : desc) : str :=
  d_remote d
  ++ (match d_via d with Some a => arrow ++ a | None => [] end)
  ++ match d_name d with
     | [] => []
     | n => arrow ++ n ++ lit "|" ++ d_mode d
            ++ (match d_proto d with [] => [] | p => lit ":" ++ p end)
            ++ (match d_upgrade d with [] => [] | u => lit "+" ++ u end)
            ++ match d_internal d with Some (l, r) => lit "|" ++ l ++ arrow ++ r | None => [] end
     end.
(** proxy/proxy.go:1446-1486 formatConnDesc, 1432-1444 formatReqDesc *)
Definition conn_desc (d : desc) : str := who d ++ where_ d.

(** proxy/http.go:104-110 userAgent *)
Definition user_agent (ua : str) : str :=
  if (200 <? List.length ua)%nat then firstn 197 ua ++ lit "..." else ua.

(** ** Entries *)

Section Entries.
(** Artefact: strconv.Quote above ASCII, see [quote_body]. *)
Variable wide : str -> str.

(** proxy/backend-http.go:104, 124, 136, 168, 183, 187, proxy/backend-sso.go:288, 308,
    312, 336: the entry of a request that the proxy answers; the latter have (SSO) after
    the status. *)
Definition req_entry (d : desc) (method url status ua : str) : str :=
  lit "REQ " ++ conn_desc d ++ arrow ++ method ++ lit " " ++ url ++ arrow ++ lit "status:" ++ status
  ++ lit " (" ++ quoted wide (user_agent ua) ++ lit ")".
(** proxy/http.go:115, proxy/proxy.go:765: the entry of a request for an endpoint. *)
Definition endpoint_entry (d : desc) (method url note ua : str) : str :=
  lit "REQ " ++ conn_desc d ++ arrow ++ method ++ lit " " ++ url ++ note
  ++ lit " (" ++ quoted wide (user_agent ua) ++ lit ")".
(** proxy/backend-http.go:530-535: the entry of a request that was forwarded. *)
Definition prx_entry (d : desc) (method url status ua : str) : str :=
  lit "PRX " ++ conn_desc d ++ arrow ++ method ++ lit " " ++ url ++ arrow ++ lit "status:" ++ status
  ++ lit " (" ++ quoted wide (user_agent ua) ++ lit ")".

(** proxy/backend-http.go:95-106: the status of redirectPermanently. *)
Definition moved_status (method : str) : str :=
  if str_eqb method (lit "GET") || str_eqb method (lit "HEAD") then lit "301" else lit "303".

(** The entries of one request, by what was done with it: proxy/backend-http.go:95-190
    and 535, proxy/backend-sso.go:288-336, proxy/http.go:112-119, proxy/proxy.go:763-768.
    [sent] is RequestURI, [origin] as in [url_string], [callback] the endpoints that are
    callbacks of identity providers, [status] the status of the server with its content
    length.  A login page has status 403, a redirect to it 302: [page].  Not modelled:
    what is logged when a handler panics, and the other messages of the endpoints. *)
Definition request_log (d : desc) (origin method sent : str) (t : target) (ua : str)
    (callback : local_handler -> bool) (page : bool) (status : str) (res : result) : list str :=
  match res with
  | Static NotFound => [req_entry d method (url_string origin t) (lit "404") ua]
  | Static MethodNotAllowed => [req_entry d method (t_path t) (lit "405") ua]
  | Static Forbidden => [req_entry d method (t_path t) (lit "403") ua]
  | Static (RedirectTo _) | Redirect _ => [req_entry d method (t_path t) (moved_status method) ua]
  | Static (ServeFile _) => [req_entry d method (t_path t) (lit "200") ua]
  | AuthRequired | Denied => [req_entry d method sent (lit "403 (SSO)") ua]
  | Login => [req_entry d method sent (if page then lit "403 (SSO)" else lit "302 (SSO)") ua]
  | Local h => [if callback h then endpoint_entry d method (t_path t) (lit " (SSO callback)") ua
                else endpoint_entry d method (url_string origin t) [] ua]
  | Forward _ => [prx_entry d method (url_string origin t) status ua]
  | SetIDToken | Misdirected | LoopDetected => []
  end.
End Entries.

(** proxy/proxy.go:1147-1149, 1315: the entries at the start and the end of a connection;
    [rest] has its duration and its bytes. *)
Definition conn_entry (verb : str) (d : desc) (rest : str) : str := verb ++ lit " " ++ conn_desc d ++ rest.

(** log.Printf (standard library): a time stamp, the entry and a newline, if it does not
    end in one. *)
Definition output (stamp e : str) : str :=
  stamp ++ e ++ (if has_suffix e [nl] then [] else [nl]).
(** Artefact: the file that the entries are written to. *)
Definition log_file (l : list (str * str)) : str := List.concat (map (fun x => output (fst x) (snd x)) l).
