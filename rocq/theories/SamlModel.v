(** SAML logins in full (proxy/internal/saml/saml.go): the request that is sent to the
    identity provider, byte by byte, and the response as a document.  The map of pending
    logins is the one of LoginModel.

    Not modelled: compression, signatures, and reading XML, URLs and times; they are
    parameters. *)
From Verif Require Import Base XfccModel.
From Verif Require PathModel RefreshModel KeygenModel ConsoleModel HttpModel LoginModel.
Open Scope nat_scope.

(** *** Documents *)

(** etree (library): elements with their local names, character data and comments.
    Simplified: prefixes of names are left out; the paths and names that saml.go looks for
    have none and match every prefix. *)
Inductive node :=
| Elem (tag : str) (attrs : list (str * str)) (kids : list node)
| Chars (s : str)
| Comment (s : str).

(** etree (library): the child elements with a tag, in order. *)
Definition is_elem (tag : str) (n : node) : bool := match n with Elem t _ _ => str_eqb t tag | _ => false end.
(** etree (library): a path segment. *)
Definition children (tag : str) (n : node) : list node := match n with Elem _ _ kids => filter (is_elem tag) kids | _ => [] end.
(** etree (library) FindElements, for paths that go down by tag. *)
Fixpoint find_all (path : list str) (n : node) : list node :=
  match path with [] => [n] | t :: p => flat_map (find_all p) (children t n) end.
(** etree (library) FindElement: the first one. *)
Definition find_elem (path : list str) (n : node) : option node := match find_all path n with x :: _ => Some x | [] => None end.
(** etree (library): the text before the first child element; comments are skipped. *)
Fixpoint leading (kids : list node) : str :=
  match kids with
  | Chars s :: r => s ++ leading r
  | Comment _ :: r => leading r
  | _ => []
  end.
(** etree (library) Text *)
Definition text (n : node) : str := match n with Elem _ _ kids => leading kids | _ => [] end.
(** etree (library) SelectAttr *)
Definition attr (a : str) (n : node) : option str := match n with Elem _ l _ => assoc a l | _ => None end.

(** proxy/internal/saml/saml.go:288-294 findElementText *)
Definition text_at (n : node) (path : list str) : str := match find_elem path n with Some v => text v | None => [] end.
(** proxy/internal/saml/saml.go:296-306 findElementAttr *)
Definition attr_at (n : node) (path : list str) (a : str) : str :=
  match find_elem path n with
  | None => []
  | Some v => match attr a v with Some s => s | None => [] end
  end.

(** *** The request *)

(** proxy/internal/saml/saml.go:61-66 Config, without the certificates. *)
Record config := { c_sso : str; c_entity : str; c_acs : str }.

(** encoding/xml EscapeText and EscapeString (standard library), one byte.
    Simplified: bytes from 128 up are taken to be parts of valid characters. *)
Definition xml_byte (c : ascii) : str :=
  let n := N_of_ascii c in
  if (n =? 34)%N then lit "&#34;" else if (n =? 39)%N then lit "&#39;" else if (n =? 38)%N then lit "&amp;"
  else if (n =? 60)%N then lit "&lt;" else if (n =? 62)%N then lit "&gt;"
  else if (n =? 9)%N then lit "&#x9;" else if (n =? 10)%N then lit "&#xA;" else if (n =? 13)%N then lit "&#xD;"
  else if (n <? 32)%N then ["239"; "191"; "189"]%char else [c].
(** encoding/xml EscapeText and EscapeString (standard library). *)
Definition xml_escape (s : str) : str := List.concat (map xml_byte s).
(** encoding/xml (standard library): one attribute of a start tag. *)
Definition xml_attr (nv : str * str) : str := lit " " ++ fst nv ++ lit "=" ++ [quote] ++ xml_escape (snd nv) ++ [quote].
(** encoding/xml (standard library): a start tag, the content, an end tag. *)
Definition xml_elem (tag : str) (attrs : list (str * str)) (content : str) : str :=
  lit "<" ++ tag ++ List.concat (map xml_attr attrs) ++ lit ">" ++ content ++ lit "</" ++ tag ++ lit ">".

(** proxy/internal/saml/saml.go:128-141, 308-323, 331: the request as encoding/xml writes
    it; names and name spaces come from the tags of the structures.  [instant]:
    IssueInstant. *)
Definition request_xml (cfg : config) (id instant : str) : str :=
  xml_elem (lit "AuthnRequest")
    [(lit "xmlns", lit "urn:oasis:names:tc:SAML:2.0:protocol"); (lit "ID", id); (lit "Version", lit "2.0");
     (lit "IssueInstant", instant); (lit "Destination", c_sso cfg);
     (lit "ProtocolBinding", lit "urn:oasis:names:tc:SAML:2.0:bindings:HTTP-POST");
     (lit "AssertionConsumerServiceURL", c_acs cfg)]
    (xml_elem (lit "Issuer")
       [(lit "xmlns", lit "urn:oasis:names:tc:SAML:2.0:assertion");
        (lit "Format", lit "urn:oasis:names:tc:SAML:2.0:nameid-format:entity")]
       (xml_escape (c_entity cfg))).

(** net/url Values (standard library): a map from names to lists. *)
Definition values := list (str * list str).
(** net/url (standard library): indexing a Values. *)
Definition vals (k : str) (m : values) : list str := match assoc k m with Some l => l | None => [] end.
(** net/url Values.Add (standard library) *)
Definition add (m : values) (kv : str * str) : values := assoc_set (fst kv) (vals (fst kv) m ++ [snd kv]) m.
(** net/url URL.Query (standard library): pieces with an error are left out. *)
Definition query (q : str) : values :=
  fold_left (fun m p => match KeygenModel.parse_pair p with Some l => fold_left add l m | None => m end) (split_on "&" q) [].
(** net/url Values.Encode (standard library), one pair. *)
Definition pair_text (k v : str) : str := query_escape k ++ lit "=" ++ query_escape v.
(** net/url Values.Encode (standard library): sorted by name. *)
Definition encode (m : values) : str :=
  join "&" (flat_map (fun k => map (pair_text k) (vals k m)) (ConsoleModel.sort_strs (map fst m))).

(** proxy/internal/saml/saml.go:325-350 URL.  [deflate]: compress/flate.  Simplified: the
    URL is written back as it was read, except for its query. *)
Definition request_url (deflate : str -> str) (cfg : config) (id instant : str) : str :=
  let '(u, frag, _) := cut "#" (c_sso cfg) in
  let '(base, q, _) := cut "?" u in
  base ++ lit "?" ++ encode (assoc_set (lit "SAMLRequest") [base64 (deflate (request_xml cfg id instant))] (query q)) ++
  (if str_eqb frag [] then [] else lit "#" ++ frag).

(** net/url getScheme (standard library). *)
Definition has_scheme (u : str) : bool :=
  let '(s, _, found) := cut ":" u in
  let letter c := let n := N_of_ascii (lower_char c) in ((97 <=? n) && (n <=? 122))%N in
  let other c := let n := N_of_ascii c in ((48 <=? n) && (n <=? 57))%N || has_char c (lit "+-.") in
  found && match s with c :: r => letter c && forallb (fun c => letter c || other c) r | [] => false end.
(** net/url Parse (standard library): the host of a URL. *)
Definition url_host (u : str) : str :=
  if has_scheme u then let '(_, rest, _) := cut ":" u in RefreshModel.host_of_ref rest else RefreshModel.host_of_ref u.
(** net/http Redirect (standard library): the Location in the answer to a request for a
    path in the directory [dir]. *)
Definition location (dir url : str) : str :=
  RefreshModel.hex_escape
    (if has_scheme url || negb (str_eqb (RefreshModel.host_of_ref url) []) then url
     else
       let url := if has_prefix url (lit "/") then url else dir ++ url in
       let '(p, q, found) := cut "?" url in
       let p1 := PathModel.path_clean p in
       let p2 := if has_suffix p (lit "/") && negb (has_suffix p1 (lit "/")) then p1 ++ lit "/" else p1 in
       p2 ++ (if found then lit "?" ++ q else [])).

(** *** The provider *)

(** Libraries: [deflate]; what url.Parse accepts; encoding/base64 StdEncoding.DecodeString;
    etree's reader, with the root of the document; goxmldsig's Validate, which returns the
    element that the signature covers; time.Parse. *)
Record lib := {
  l_deflate : str -> str;
  l_url : str -> bool;
  l_base64 : str -> option str;
  l_xml : str -> option (option node);
  l_valid : node -> option node;
  l_time : str -> option Z
}.

(** proxy/internal/saml/saml.go:78-82 samlState, as in LoginModel. *)
Definition pending := list (str * LoginModel.login_state).

(** Artefact: the answers. *)
Inductive answer :=
| Status (code : N)
| Sent (location : str)                                        (* status 302 *)
| Session (s : LoginModel.session) (claims : list (str * str)).  (* cookie and status 302 *)

(** proxy/internal/saml/saml.go:108-149 RequestLogin.  [id]: the random bytes. *)
Definition request_login (l : lib) (cfg : config) (st : pending) (dir url id instant : str) (now : Z) : pending * answer :=
  if negb (l_url l url) then (st, Status 500)
  else
    (assoc_set (hex id) {| LoginModel.ls_created := now; LoginModel.ls_url := url; LoginModel.ls_host := url_host url; LoginModel.ls_seen := false |} st,
     Sent (location dir (request_url (l_deflate l) cfg (hex id) instant))).

(** proxy/internal/saml/saml.go:188: the path of SubjectConfirmationData. *)
Definition confirmation : list str := [lit "Subject"; lit "SubjectConfirmation"; lit "SubjectConfirmationData"].
(** proxy/internal/saml/saml.go:188, 208, 222, 227, 231, 235: what is read from the signed element. *)
Definition assertion_of (l : lib) (v : node) : LoginModel.assertion :=
  {| LoginModel.as_in_response_to := attr_at v confirmation (lit "InResponseTo");
     LoginModel.as_recipient := attr_at v confirmation (lit "Recipient");
     LoginModel.as_audience := text_at v [lit "Conditions"; lit "AudienceRestriction"; lit "Audience"];
     LoginModel.as_not_before := l_time l (attr_at v [lit "Conditions"] (lit "NotBefore"));
     LoginModel.as_not_after := l_time l (attr_at v [lit "Conditions"] (lit "NotOnOrAfter"));
     LoginModel.as_subject := text_at v [lit "Subject"; lit "NameID"] |}.
(** proxy/internal/saml/saml.go:241-255: the extra claims. *)
Definition claims_of (v : node) : list (str * str) :=
  fold_left (fun m a => match attr (lit "Name") a with
                        | Some k => assoc_set k (text_at a [lit "AttributeValue"]) m
                        | None => m
                        end)
    (find_all [lit "AttributeStatement"; lit "Attribute"] v) [(lit "source", text_at v [lit "Issuer"])].
(** proxy/internal/saml/saml.go:212-221: the expected audience. *)
Definition self (cfg : config) : str :=
  lit "https://" ++ HttpModel.host_from_req (url_host (c_acs cfg)) ++ lit "/".
(** proxy/internal/saml/saml.go:208-222: the configuration as LoginModel has it. *)
Definition addresses (cfg : config) : LoginModel.saml_config := {| LoginModel.sc_acs := c_acs cfg; LoginModel.sc_self := self cfg |}.

(** proxy/internal/saml/saml.go:160-187: the element that is signed, or the status. *)
Definition signed (l : lib) (field : str) : N + node :=
  match l_base64 l field with
  | None => inl 403%N
  | Some b =>
      match l_xml l b with
      | None => inl 500%N
      | Some None => inl 403%N
      | Some (Some root) =>
          match find_elem [lit "Assertion"] root with
          | None => inl 403%N
          | Some a => match l_valid l a with None => inl 403%N | Some v => inr v end
          end
      end
  end.

(** proxy/internal/saml/saml.go:151-261 HandleCallback.  [field]: SAMLResponse; [now] and
    [later]: two readings of the clock. *)
Definition handle_callback (l : lib) (cfg : config) (st : pending) (method field : str) (now later : Z) : pending * answer :=
  if negb (str_eqb method (lit "POST")) then (st, Status 403)
  else
    match signed l field with
    | inl code => (st, Status code)
    | inr v =>
        let a := assertion_of l v in
        let states := filter (fun kv => negb (5 * LoginModel.minute <? now - LoginModel.ls_created (snd kv))%Z) st in
        let id := LoginModel.as_in_response_to a in
        match assoc id states with
        | None => (states, Status 403)
        | Some s =>
            (assoc_del id states,
             if LoginModel.assertion_ok (addresses cfg) later a then
               Session {| LoginModel.se_user := LoginModel.as_subject a; LoginModel.se_email := LoginModel.as_subject a;
                          LoginModel.se_sid := id; LoginModel.se_host := LoginModel.ls_host s; LoginModel.se_url := LoginModel.ls_url s |}
                       (claims_of v)
             else Status 403)
        end
    end.

(** Artefact: the two requests. *)
Inductive op :=
| Login (dir url id instant : str) (now : Z)
| Post (method field : str) (now later : Z).
(** Artefact: one request. *)
Definition step (l : lib) (cfg : config) (st : pending) (o : op) : pending * answer :=
  match o with
  | Login dir url id instant now => request_login l cfg st dir url id instant now
  | Post method field now later => handle_callback l cfg st method field now later
  end.
(** Artefact: a history. *)
Fixpoint run (l : lib) (cfg : config) (st : pending) (ops : list op) : pending :=
  match ops with [] => st | o :: r => run l cfg (fst (step l cfg st o)) r end.
