(** What SAML logins are checked against: how an identity provider reads the request that
    a browser brings, and how an honest one answers. *)
From Verif Require Import Base SamlModel.
From Verif Require KeygenModel AuthoritySpec LoginModel.
Open Scope nat_scope.

(** *** XML (W3C recommendation), as far as it is needed here *)

(** Up to the first of these characters, and the rest, which begins with it. *)
Fixpoint upto (stop : str) (s : str) : str * str :=
  match s with
  | [] => ([], [])
  | c :: r => if has_char c stop then ([], s) else let '(a, b) := upto stop r in (c :: a, b)
  end.
(** References that may occur in text: to characters by number, and the five named ones. *)
Definition xml_dec (c : ascii) : option N := let n := N_of_ascii c in if ((48 <=? n) && (n <=? 57))%N then Some (n - 48)%N else None.
Definition xml_hex (c : ascii) : option N :=
  let n := N_of_ascii c in
  if ((48 <=? n) && (n <=? 57))%N then Some (n - 48)%N
  else if ((65 <=? n) && (n <=? 70))%N then Some (n - 55)%N
  else if ((97 <=? n) && (n <=? 102))%N then Some (n - 87)%N else None.
Fixpoint number (base : N) (digit : ascii -> option N) (acc : N) (s : str) : option N :=
  match s with [] => Some acc | c :: r => match digit c with Some d => number base digit (base * acc + d) r | None => None end end.
Definition reference (name : str) : option ascii :=
  if str_eqb name (lit "amp") then Some "&"%char else if str_eqb name (lit "lt") then Some "<"%char
  else if str_eqb name (lit "gt") then Some ">"%char else if str_eqb name (lit "quot") then Some """"%char
  else if str_eqb name (lit "apos") then Some "'"%char
  else match name with
       | h :: r =>
           if Ascii.eqb h "#" then
             match r with
             | x :: _ :: _ =>
                 match (if Ascii.eqb x "x" then number 16 xml_hex 0 (tl r) else number 10 xml_dec 0 r) with
                 | Some n => if (n <? 128)%N then Some (ascii_of_N n) else None
                 | None => None
                 end
             | _ => None
             end
           else None
       | [] => None
       end.
(** Text with its references resolved.  [blank]: white space is read as a blank, which is
    so in values of attributes.  [ref]: the reference that is being read. *)
Fixpoint resolve (blank : bool) (ref : option str) (s : str) : option str :=
  match s with
  | [] => match ref with None => Some [] | Some _ => None end
  | c :: r =>
      match ref with
      | Some name =>
          if Ascii.eqb c ";" then
            match reference (rev name), resolve blank None r with Some x, Some t => Some (x :: t) | _, _ => None end
          else resolve blank (Some (c :: name)) r
      | None =>
          let n := N_of_ascii c in
          if Ascii.eqb c "&" then resolve blank (Some []) r
          else if Ascii.eqb c "<" then None
          else if ((n =? 9) || (n =? 10) || (n =? 13))%N then option_map (cons (if blank then " "%char else c)) (resolve blank None r)
          else if (n <? 32)%N then None
          else option_map (cons c) (resolve blank None r)
      end
  end.
(** The attributes of a start tag, and what follows it. *)
Fixpoint read_attrs (fuel : nat) (s : str) : option (list (str * str) * str) :=
  match fuel with
  | O => None
  | S fuel =>
      match s with
      | c :: r =>
          if Ascii.eqb c ">" then Some ([], r)
          else if Ascii.eqb c " " then
            let '(n, r1) := upto (lit "=<> ") r in
            match r1 with
            | e :: q :: r2 =>
                if Ascii.eqb e "=" && Ascii.eqb q """" then
                  let '(v, r3) := upto [q] r2 in
                  match r3, resolve true None v with
                  | _ :: r4, Some v => match read_attrs fuel r4 with Some (l, r5) => Some ((n, v) :: l, r5) | None => None end
                  | _, _ => None
                  end
                else None
            | _ => None
            end
          else None
      | [] => None
      end
  end.
(** Elements and text, up to an end tag or the end. *)
Fixpoint read_nodes (fuel : nat) (s : str) : option (list node * str) :=
  match fuel with
  | O => None
  | S fuel =>
      match s with
      | [] => Some ([], [])
      | c :: r =>
          if Ascii.eqb c "<" then
            if has_prefix r (lit "/") then Some ([], s)
            else
              let '(tag, r1) := upto (lit " ><") r in
              match read_attrs fuel r1 with
              | None => None
              | Some (attrs, r2) =>
                  match read_nodes fuel r2 with
                  | None => None
                  | Some (kids, r3) =>
                      let close := lit "</" ++ tag ++ lit ">" in
                      if has_prefix r3 close then
                        match read_nodes fuel (skipn (List.length close) r3) with
                        | Some (l, r4) => Some (Elem tag attrs kids :: l, r4)
                        | None => None
                        end
                      else None
                  end
              end
          else
            let '(t, r1) := upto (lit "<") s in
            match resolve false None t, read_nodes fuel r1 with
            | Some t, Some (l, r2) => Some (Chars t :: l, r2)
            | _, _ => None
            end
      end
  end.
(** A document is one element. *)
Definition read_xml (s : str) : option node :=
  match read_nodes (S (List.length s)) s with Some ([n], []) => Some n | _ => None end.

(** *** What the identity provider gets *)

(** The parameters of a query, in order.  A server reads them by these rules: pieces
    between ampersands, name and value around the first equals sign. *)
Definition params (q : str) : list (str * str) :=
  flat_map (fun p => let '(k, v, _) := cut "=" p in
                     match KeygenModel.query_unescape k, KeygenModel.query_unescape v with
                     | Some k, Some v => if str_eqb p [] then [] else [(k, v)]
                     | _, _ => []
                     end) (split_on "&" q).
Definition values_of (k : str) (l : list (str * str)) : list str := map snd (filter (fun kv => str_eqb (fst kv) k) l).
(** A query that all servers read in the same way: semicolons do not separate anything for
    some and do for others, and percent signs are followed by two digits. *)
Definition well_formed (q : str) : Prop :=
  Forall (fun p => ~ List.In ";"%char p /\ let '(k, v, _) := cut "=" p in
                   KeygenModel.query_unescape k <> None /\ KeygenModel.query_unescape v <> None) (split_on "&" q).
(** The query of a URL: between the question mark and the fragment. *)
Definition query_of (url : str) : str := let '(u, _, _) := cut "#" url in let '(_, q, _) := cut "?" u in q.
(** The part of a URL before that. *)
Definition page_of (url : str) : str := let '(u, _, _) := cut "#" url in let '(b, _, _) := cut "?" u in b.

(** HTTP redirect binding of SAML: the only parameter SAMLRequest is a compressed document
    in base64. *)
Definition provider_reads (inflate : str -> option str) (url : str) : option node :=
  match values_of (lit "SAMLRequest") (params (query_of url)) with
  | [v] =>
      match AuthoritySpec.unbase64 v with
      | Some z => match inflate z with Some x => read_xml x | None => None end
      | None => None
      end
  | _ => None
  end.

(** A request for authentication: names and name spaces of the standard. *)
Definition authn_request (id instant destination acs issuer : str) : node :=
  Elem (lit "AuthnRequest")
    [(lit "xmlns", lit "urn:oasis:names:tc:SAML:2.0:protocol"); (lit "ID", id); (lit "Version", lit "2.0");
     (lit "IssueInstant", instant); (lit "Destination", destination);
     (lit "ProtocolBinding", lit "urn:oasis:names:tc:SAML:2.0:bindings:HTTP-POST");
     (lit "AssertionConsumerServiceURL", acs)]
    [Elem (lit "Issuer")
       [(lit "xmlns", lit "urn:oasis:names:tc:SAML:2.0:assertion");
        (lit "Format", lit "urn:oasis:names:tc:SAML:2.0:nameid-format:entity")]
       [Chars issuer]].

(** Text that XML can carry. *)
Definition carried (s : str) : Prop :=
  Forall (fun c => (32 <= N_of_ascii c)%N \/ In (N_of_ascii c) [9; 10; 13]%N) s.
(** What becomes of a character of a text that is put into XML: the control characters that XML
    does not have are shown as the replacement character U+FFFD. *)
Definition replaced (c : ascii) : str :=
  if (N_of_ascii c <? 32)%N && negb (has_char c ["009"; "010"; "013"]%char) then ["239"; "191"; "189"]%char else [c].
(** A configuration: the address of the provider has a scheme and only ASCII characters,
    the other values are text. *)
Definition proper (cfg : config) : Prop :=
  has_scheme (c_sso cfg) = true /\ Forall (fun c => (32 <= N_of_ascii c < 128)%N) (c_sso cfg) /\
  carried (c_acs cfg) /\ carried (c_entity cfg) /\ c_entity cfg <> [].

(** XML names (type xs:ID, without colon): they begin with a letter or an underscore. *)
Definition letter (c : ascii) : bool := let n := N_of_ascii (lower_char c) in ((97 <=? n) && (n <=? 122))%N || Ascii.eqb c "_".
Definition name_char (c : ascii) : bool :=
  let n := N_of_ascii c in letter c || ((48 <=? n) && (n <=? 57))%N || Ascii.eqb c "-" || Ascii.eqb c ".".
Definition xml_id (s : str) : bool := match s with c :: r => letter c && forallb name_char r | [] => false end.

(** *** The answer of an honest provider *)

(** It answers the request that it read, for the service that made it: the recipient is
    the address in the request, the audience is the issuer of the request. *)
Definition honest_answer (req : node) (issuer user not_before not_after : str) (attrs : list (str * str)) : node :=
  Elem (lit "Assertion") []
    [Elem (lit "Issuer") [] [Chars issuer];
     Elem (lit "Subject") []
       [Elem (lit "NameID") [] [Chars user];
        Elem (lit "SubjectConfirmation") []
          [Elem (lit "SubjectConfirmationData")
             [(lit "InResponseTo", match attr (lit "ID") req with Some i => i | None => [] end);
              (lit "Recipient", match attr (lit "AssertionConsumerServiceURL") req with Some i => i | None => [] end)] []]];
     Elem (lit "Conditions") [(lit "NotBefore", not_before); (lit "NotOnOrAfter", not_after)]
       [Elem (lit "AudienceRestriction") [] [Elem (lit "Audience") [] [Chars (text_at req [lit "Issuer"])]]];
     Elem (lit "AttributeStatement") []
       (map (fun kv => Elem (lit "Attribute") [(lit "Name", fst kv)] [Elem (lit "AttributeValue") [] [Chars (snd kv)]]) attrs)].

(** The operations of a history that leave a pending login alone: no other login gets the
    same identifier, no response answers it, and none is handled after the five minutes. *)
Definition leaves (l : lib) (id : str) (deadline : Z) (o : op) : Prop :=
  match o with
  | Login _ _ id' _ _ => id' <> id
  | Post _ field now _ =>
      (now <= deadline)%Z /\
      forall v, signed l field = inr v -> attr_at v confirmation (lit "InResponseTo") <> XfccModel.hex id
  end.
(** Requests of clients without a signed response. *)
Definition unsigned (l : lib) (o : op) : Prop :=
  match o with Login _ _ _ _ _ => True | Post _ field _ _ => exists code, signed l field = inl code end.

(** *** Claims *)

(** What an assertion says: the name of each attribute that has one, and the text of its
    first value. *)
Definition attributes (v : node) : list (str * str) :=
  flat_map (fun a => match attr (lit "Name") a with Some k => [(k, text_at a [lit "AttributeValue"])] | None => [] end)
    (find_all [lit "AttributeStatement"; lit "Attribute"] v).
(** The last value that a list has for a name. *)
Fixpoint last_value (k : str) (l : list (str * str)) : option str :=
  match l with
  | [] => None
  | (k', v) :: r => match last_value k r with Some x => Some x | None => if str_eqb k k' then Some v else None end
  end.

(** *** The name of the service *)

(** The callback is at a host, on a port or not; the service is called https://, the host
    and a slash. *)
Definition service_of (acs name : str) : Prop :=
  exists host port path, acs = lit "https://" ++ host ++ port ++ path /\ name = lit "https://" ++ host ++ lit "/" /\
    host <> [] /\ (forall c, List.In c host -> has_char c (lit ":/?#@[]") = false) /\
    (port = [] \/ exists d, port = ":"%char :: d /\ forall c, List.In c d -> has_char c (lit "0123456789") = true) /\
    (path = [] \/ exists p, path = "/"%char :: p).
