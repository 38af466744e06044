(** What the scripts of the passkey pages say to the server and what the server says to
    them: internal/passkeys/webauthn.js, auth-template.html, manage-template.html,
    webauthn.go and manager.go.

    Texts are the bytes of their UTF-8 encoding.  Simplified: all texts are valid UTF-8; the
    limits of the Go library on the depth of JSON values (10000) and on the size of a
    form (10 MB) are left out. *)
From Verif Require Import Base XfccModel OcspGetModel PasskeyModel PasskeyHttpModel.
From Verif Require JwksModel KeygenModel ProxyHdrModel PemModel TokenModel.
Open Scope list_scope.
Open Scope N_scope.

(** ** JSON *)

(** RFC 8259: the values.  A number is kept as it is written. *)
Inductive json := JNull | JBool (b : bool) | JNum (s : str) | JStr (s : str) | JArr (l : list json) | JObj (l : list (str * json)).

(** Artefact: the two characters that matter in strings. *)
Definition dquote : ascii := "034"%char.
(** Artefact: the other one. *)
Definition backslash : ascii := "092"%char.

(** encoding/json (standard library) and JSON.parse: white space. *)
Definition white (c : ascii) : bool := let n := N_of_ascii c in (n =? 32) || (n =? 9) || (n =? 10) || (n =? 13).
(** ... is skipped between tokens. *)
Fixpoint skip (s : str) : str := match s with c :: r => if white c then skip r else s | [] => [] end.

(** unicode/utf8 EncodeRune (standard library), for what \u can name. *)
Definition utf8 (n : N) : str :=
  if n <? 128 then [ascii_of_N n]
  else if n <? 2048 then [ascii_of_N (192 + n / 64); ascii_of_N (128 + n mod 64)]
  else if n <? 65536 then [ascii_of_N (224 + n / 4096); ascii_of_N (128 + (n / 64) mod 64); ascii_of_N (128 + n mod 64)]
  else [ascii_of_N (240 + n / 262144); ascii_of_N (128 + (n / 4096) mod 64); ascii_of_N (128 + (n / 64) mod 64); ascii_of_N (128 + n mod 64)].
(** encoding/json getu4 (standard library). *)
Definition hex4 (a b c d : ascii) : option N :=
  match hex_val a, hex_val b, hex_val c, hex_val d with
  | Some w, Some x, Some y, Some z => Some (((w * 16 + x) * 16 + y) * 16 + z)
  | _, _, _, _ => None
  end.
(** encoding/json unquote (standard library): the letter after a backslash. *)
Definition unescaped (c : ascii) : option ascii :=
  if has_char c [dquote; backslash; "/"%char] then Some c
  else if Ascii.eqb c "b" then Some "008"%char else if Ascii.eqb c "f" then Some "012"%char
  else if Ascii.eqb c "n" then Some "010"%char else if Ascii.eqb c "r" then Some "013"%char
  else if Ascii.eqb c "t" then Some "009"%char else None.
(** unicode/utf16 (standard library): the first half of a pair *)
Definition high (n : N) : bool := (55296 <=? n) && (n <? 56320).
(** ... and the second half *)
Definition low (n : N) : bool := (56320 <=? n) && (n <? 57344).
(** encoding/json unquote, utf16.DecodeRune (standard library): what a first half means
    with the six characters after it. *)
Definition pair (n : N) (x y a b c d : ascii) : option N :=
  if Ascii.eqb x backslash && Ascii.eqb y "u" then
    match hex4 a b c d with Some m => if low m then Some ((n - 55296) * 1024 + (m - 56320) + 65536) else None | None => None end
  else None.
(** encoding/json unquote (standard library): the rest of a string, and what follows it.
    Half a pair alone gives the replacement character.  JSON.parse would keep it, but the
    server does not send any. *)
Fixpoint read_string (s : str) : option (str * str) :=
  match s with
  | [] => None
  | c :: r =>
      if Ascii.eqb c dquote then Some ([], r)
      else if Ascii.eqb c backslash then
        match r with
        | x :: r1 =>
            if Ascii.eqb x "u" then
              match r1 with
              | a :: b :: d :: e :: r2 =>
                  match hex4 a b d e with
                  | Some n =>
                      let one k := match read_string r2 with Some (t, rest) => Some (utf8 k ++ t, rest) | None => None end in
                      if high n then
                        match r2 with
                        | x1 :: x2 :: x3 :: x4 :: x5 :: x6 :: r3 =>
                            match pair n x1 x2 x3 x4 x5 x6 with
                            | Some k => match read_string r3 with Some (t, rest) => Some (utf8 k ++ t, rest) | None => None end
                            | None => one 65533
                            end
                        | _ => one 65533
                        end
                      else one (if low n then 65533 else n)
                  | None => None
                  end
              | _ => None
              end
            else match unescaped x, read_string r1 with Some y, Some (t, rest) => Some (y :: t, rest) | _, _ => None end
        | [] => None
        end
      else if N_of_ascii c <? 32 then None
      else match read_string r with Some (t, rest) => Some (c :: t, rest) | None => None end
  end.

(** Artefact: decimal digits. *)
Definition digit (c : ascii) : bool := let n := N_of_ascii c in (48 <=? n) && (n <=? 57).
(** Artefact: without the digits at the start. *)
Fixpoint drop_digits (s : str) : str := match s with c :: r => if digit c then drop_digits r else s | [] => [] end.
(** RFC 8259, exponents. *)
Definition exponent (s : str) : bool :=
  match s with
  | [] => true
  | c :: r =>
      (Ascii.eqb c "e" || Ascii.eqb c "E") &&
      let t := match r with x :: r' => if Ascii.eqb x "+" || Ascii.eqb x "-" then r' else r | [] => [] end in
      match t with [] => false | _ => forallb digit t end
  end.
(** RFC 8259, fractions and exponents. *)
Definition fraction (s : str) : bool :=
  match s with
  | c :: r => if Ascii.eqb c "." then match r with d :: r' => digit d && exponent (drop_digits r') | [] => false end else exponent s
  | [] => true
  end.
(** RFC 8259, numbers. *)
Definition number (s : str) : bool :=
  match (match s with c :: r => if Ascii.eqb c "-" then r else s | [] => [] end) with
  | c :: r => if Ascii.eqb c "0" then fraction r else digit c && fraction (drop_digits r)
  | [] => false
  end.
(** Artefact: the characters of numbers. *)
Definition num_char (c : ascii) : bool := digit c || has_char c (lit "+-.eE").
(** Artefact: the longest number at the start. *)
Fixpoint take_number (s : str) : str * str :=
  match s with
  | c :: r => if num_char c then let '(a, b) := take_number r in (c :: a, b) else ([], s)
  | [] => ([], [])
  end.

(** encoding/json (standard library): a value, and what follows it. *)
Fixpoint read_value (fuel : nat) (s : str) : option (json * str) :=
  match fuel with
  | O => None
  | S f =>
      match skip s with
      | [] => None
      | c :: r =>
          if Ascii.eqb c dquote then match read_string r with Some (t, rest) => Some (JStr t, rest) | None => None end
          else if Ascii.eqb c "[" then
            match skip r with
            | x :: r' => if Ascii.eqb x "]" then Some (JArr [], r')
                         else match read_elements f (x :: r') with Some (l, rest) => Some (JArr l, rest) | None => None end
            | [] => None
            end
          else if Ascii.eqb c "{" then
            match skip r with
            | x :: r' => if Ascii.eqb x "}" then Some (JObj [], r')
                         else match read_members f (x :: r') with Some (l, rest) => Some (JObj l, rest) | None => None end
            | [] => None
            end
          else if has_prefix (c :: r) (lit "null") then Some (JNull, skipn 4 (c :: r))
          else if has_prefix (c :: r) (lit "true") then Some (JBool true, skipn 4 (c :: r))
          else if has_prefix (c :: r) (lit "false") then Some (JBool false, skipn 5 (c :: r))
          else let '(n, rest) := take_number (c :: r) in if number n then Some (JNum n, rest) else None
      end
  end
(** encoding/json (standard library): the elements of an array. *)
with read_elements (fuel : nat) (s : str) : option (list json * str) :=
  match fuel with
  | O => None
  | S f =>
      match read_value f s with
      | None => None
      | Some (v, rest) =>
          match skip rest with
          | c :: r => if Ascii.eqb c "]" then Some ([v], r)
                      else if Ascii.eqb c "," then match read_elements f r with Some (l, rest') => Some (v :: l, rest') | None => None end
                      else None
          | [] => None
          end
      end
  end
(** encoding/json (standard library): the members of an object. *)
with read_members (fuel : nat) (s : str) : option (list (str * json) * str) :=
  match fuel with
  | O => None
  | S f =>
      match skip s with
      | q :: r0 =>
          if negb (Ascii.eqb q dquote) then None
          else match read_string r0 with
               | None => None
               | Some (k, r1) =>
                   match skip r1 with
                   | co :: r2 =>
                       if negb (Ascii.eqb co ":") then None
                       else match read_value f r2 with
                            | None => None
                            | Some (v, rest) =>
                                match skip rest with
                                | c :: r => if Ascii.eqb c "}" then Some ([(k, v)], r)
                                            else if Ascii.eqb c "," then match read_members f r with Some (l, rest') => Some ((k, v) :: l, rest') | None => None end
                                            else None
                                | [] => None
                                end
                            end
                   | [] => None
                   end
               end
      | [] => None
      end
  end.
(** encoding/json Unmarshal (standard library), JSON.parse: a whole text. *)
Definition parse_json (s : str) : option json :=
  match read_value (S (List.length s)) s with
  | Some (v, rest) => match skip rest with [] => Some v | _ => None end
  | None => None
  end.

(** Artefact: a value as text without white space; [esc] is how the writer escapes a
    character. *)
Fixpoint print (esc : ascii -> str) (v : json) : str :=
  let quoted s := dquote :: List.concat (map esc s) ++ [dquote] in
  match v with
  | JNull => lit "null"
  | JBool true => lit "true"
  | JBool false => lit "false"
  | JNum n => n
  | JStr s => quoted s
  | JArr l => "["%char :: join "," (map (print esc) l) ++ lit "]"
  | JObj l => "{"%char :: join "," (map (fun kv => quoted (fst kv) ++ ":"%char :: print esc (snd kv)) l) ++ lit "}"
  end.
(** Artefact: \u00 and two digits. *)
Definition u00 (c : ascii) : str := backslash :: lit "u00" ++ [hex_digit false (N_of_ascii c / 16); hex_digit false (N_of_ascii c mod 16)].
(** Artefact: the escapes that both writers use. *)
Definition short (c : ascii) : option str :=
  let n := N_of_ascii c in
  if has_char c [dquote; backslash] then Some [backslash; c]
  else if n =? 8 then Some (backslash :: lit "b") else if n =? 9 then Some (backslash :: lit "t")
  else if n =? 10 then Some (backslash :: lit "n") else if n =? 12 then Some (backslash :: lit "f")
  else if n =? 13 then Some (backslash :: lit "r") else None.
(** JSON.stringify (ECMA-262, QuoteJSONString) *)
Definition js_escape (c : ascii) : str :=
  match short c with Some s => s | None => if N_of_ascii c <? 32 then u00 c else [c] end.
(** encoding/json appendString (standard library), with the escapes for HTML.  Simplified:
    U+2028 and U+2029 are not escaped; a reader reads the same. *)
Definition go_escape (c : ascii) : str :=
  match short c with Some s => s | None => if (N_of_ascii c <? 32) || has_char c (lit "<>&") then u00 c else [c] end.

(** Array.from(new Uint8Array(b)), and webauthn.go:55-60 in values *)
Definition bytes_json (b : str) : json := JArr (map (fun c => JNum (ProxyHdrModel.dec (N_of_ascii c))) b).

(** ** The requests of the scripts *)

(** Artefact: a request of a script: POST with the header x-csrf-check: 1.  The page it is
    made for stays the same, except for the query. *)
Record message := { m_query : str; m_body : str }.

(** encodeURIComponent (ECMA-262) *)
Definition component_byte (c : ascii) : str :=
  let n := N_of_ascii c in
  if ((48 <=? n) && (n <=? 57) || (65 <=? n) && (n <=? 90) || (97 <=? n) && (n <=? 122)) || has_char c (lit "-_.!~*'()") then [c]
  else ["%"%char; hex_digit true (n / 16); hex_digit true (n mod 16)].
(** ... of a text *)
Definition component (s : str) : str := List.concat (map component_byte s).

(** webauthn.js:31 and 62: the token is left out by the page that manages keys. *)
Definition with_token (q : str) (token : option str) : str :=
  match token with Some ((_ :: _) as t) => q ++ lit "&redirect=" ++ t | _ => q end.
(** webauthn.js:31-36 registerPasskey asks for options. *)
Definition ask_create (token : option str) : message := {| m_query := with_token (lit "get=AttestationOptions") token; m_body := [] |}.
(** webauthn.js:53-69 registerPasskey, the answer of the authenticator *)
Definition send_create (token : option str) (cdata att : str) (transports : list str) : message :=
  {| m_query := with_token (lit "get=AddKey") token;
     m_body := lit "args=" ++ component (print js_escape (JObj [(lit "clientDataJSON", bytes_json cdata);
       (lit "attestationObject", bytes_json att); (lit "transports", JArr (map JStr transports))])) |}.
(** webauthn.js:97-108 loginWithPasskey asks for options. *)
Definition ask_get (token login : str) : message :=
  {| m_query := lit "get=AssertionOptions&redirect=" ++ token;
     m_body := match login with [] => [] | _ => lit "loginId=" ++ component login end |}.
(** webauthn.js:122-142 loginWithPasskey, the answer of the authenticator; a handle that is
    null is an empty array. *)
Definition send_get (token id cdata adata sig handle login : str) : message :=
  {| m_query := lit "get=Check&redirect=" ++ token;
     m_body := lit "args=" ++ component (print js_escape (JObj [(lit "id", JStr id); (lit "clientDataJSON", bytes_json cdata);
       (lit "authenticatorData", bytes_json adata); (lit "signature", bytes_json sig); (lit "userHandle", bytes_json handle);
       (lit "loginId", JStr login)])) |}.
(** webauthn.js:168-179 deleteKey *)
Definition send_delete (id : str) : message := {| m_query := lit "get=DeleteKey"; m_body := lit "id=" ++ component id |}.
(** webauthn.js:199-205 switchAccount *)
Definition send_switch (token : str) : message := {| m_query := lit "get=Switch&redirect=" ++ token; m_body := [] |}.

(** ** What the server reads *)

(** net/url ParseQuery (standard library), for a caller that ignores errors. *)
Definition pairs (s : str) : list (str * str) :=
  List.concat (map (fun p => match KeygenModel.parse_pair p with Some l => l | None => [] end) (split_on "&" s)).
(** net/http Request.ParseForm (standard library): the body comes before the query. *)
Definition form_of (m : message) : list (str * str) := pairs (m_body m) ++ pairs (m_query m).

(** strconv.ParseUint (standard library) with at most eight bits *)
Definition uint8 (s : str) : option ascii :=
  match s with
  | [] => None
  | _ =>
      let n := fold_left (fun n c => n * 10 + (N_of_ascii c - 48)) s 0 in
      if forallb digit s && (n <? 256) then Some (ascii_of_N n) else None
  end.
(** encoding/json (standard library): an array as bytes. *)
Fixpoint bytes_of (l : list json) : option str :=
  match l with
  | [] => Some []
  | v :: r =>
      match (match v with JNum n => uint8 n | JNull => Some "000"%char | _ => None end), bytes_of r with
      | Some c, Some t => Some (c :: t)
      | _, _ => None
      end
  end.
(** encoding/json (standard library): a value for a field of bytes. *)
Definition as_bytes (v : json) : option str :=
  match v with
  | JNull => Some []
  | JArr l => bytes_of l
  | JStr s => PemModel.unbase64 (filter (fun c => negb (Ascii.eqb c "010") && negb (Ascii.eqb c "013")) s)
  | _ => None
  end.
(** encoding/json (standard library): a value for a string that is [old]. *)
Definition as_string (old : str) (v : json) : option str :=
  match v with JNull => Some old | JStr s => Some s | _ => None end.
(** encoding/json (standard library): a value for a list of strings. *)
Definition as_strings (v : json) : option (list str) :=
  match v with
  | JNull => Some []
  | JArr l => fold_right (fun v r => match as_string [] v, r with Some s, Some t => Some (s :: t) | _, _ => None end) (Some []) l
  | _ => None
  end.
(** encoding/json (standard library): which field a name means.  Simplified: upper and
    lower case of ASCII letters only. *)
Definition names (field k : str) : bool := str_eqb (to_lower field) (to_lower k).
(** encoding/json (standard library): an object sets fields one after the other; null sets
    nothing; a value that does not fit is an error. *)
Definition decode {A : Type} (zero : A) (set : str -> json -> A -> option A) (s : str) : option A :=
  match parse_json s with
  | Some (JObj l) => fold_left (fun a kv => match a with Some a => set (fst kv) (snd kv) a | None => None end) l (Some zero)
  | Some JNull => Some zero
  | _ => None
  end.

(** webauthn.go:271-275 parseClientData *)
Definition parse_client_data (s : str) : option client_data :=
  decode {| cd_type := []; cd_challenge := []; cd_origin := [] |}
    (fun k v a =>
       if names (lit "type") k then option_map (fun x => {| cd_type := x; cd_challenge := cd_challenge a; cd_origin := cd_origin a |}) (as_string (cd_type a) v)
       else if names (lit "challenge") k then option_map (fun x => {| cd_type := cd_type a; cd_challenge := x; cd_origin := cd_origin a |}) (as_string (cd_challenge a) v)
       else if names (lit "origin") k then option_map (fun x => {| cd_type := cd_type a; cd_challenge := cd_challenge a; cd_origin := x |}) (as_string (cd_origin a) v)
       else Some a) s.

(** manager.go:834-841 *)
Record create_args := { ca_cdata : str; ca_att : str; ca_transports : list str }.
(** manager.go:834-841 *)
Definition read_create (s : str) : option create_args :=
  decode {| ca_cdata := []; ca_att := []; ca_transports := [] |}
    (fun k v a =>
       if names (lit "clientDataJSON") k then option_map (fun x => {| ca_cdata := x; ca_att := ca_att a; ca_transports := ca_transports a |}) (as_bytes v)
       else if names (lit "attestationObject") k then option_map (fun x => {| ca_cdata := ca_cdata a; ca_att := x; ca_transports := ca_transports a |}) (as_bytes v)
       else if names (lit "transports") k then option_map (fun x => {| ca_cdata := ca_cdata a; ca_att := ca_att a; ca_transports := x |}) (as_strings v)
       else Some a) s.

(** manager.go:958-965 *)
Record get_args := { ga_id : str; ga_cdata : str; ga_adata : str; ga_sig : str; ga_handle : str; ga_login : str }.
(** manager.go:958-968 *)
Definition read_get (s : str) : option get_args :=
  decode {| ga_id := []; ga_cdata := []; ga_adata := []; ga_sig := []; ga_handle := []; ga_login := [] |}
    (fun k v a =>
       if names (lit "id") k then option_map (fun x => {| ga_id := x; ga_cdata := ga_cdata a; ga_adata := ga_adata a; ga_sig := ga_sig a; ga_handle := ga_handle a; ga_login := ga_login a |}) (as_string (ga_id a) v)
       else if names (lit "clientDataJSON") k then option_map (fun x => {| ga_id := ga_id a; ga_cdata := x; ga_adata := ga_adata a; ga_sig := ga_sig a; ga_handle := ga_handle a; ga_login := ga_login a |}) (as_bytes v)
       else if names (lit "authenticatorData") k then option_map (fun x => {| ga_id := ga_id a; ga_cdata := ga_cdata a; ga_adata := x; ga_sig := ga_sig a; ga_handle := ga_handle a; ga_login := ga_login a |}) (as_bytes v)
       else if names (lit "signature") k then option_map (fun x => {| ga_id := ga_id a; ga_cdata := ga_cdata a; ga_adata := ga_adata a; ga_sig := x; ga_handle := ga_handle a; ga_login := ga_login a |}) (as_bytes v)
       else if names (lit "userHandle") k then option_map (fun x => {| ga_id := ga_id a; ga_cdata := ga_cdata a; ga_adata := ga_adata a; ga_sig := ga_sig a; ga_handle := x; ga_login := ga_login a |}) (as_bytes v)
       else if names (lit "loginId") k then option_map (fun x => {| ga_id := ga_id a; ga_cdata := ga_cdata a; ga_adata := ga_adata a; ga_sig := ga_sig a; ga_handle := ga_handle a; ga_login := x |}) (as_string (ga_login a) v)
       else Some a) s.
(** manager.go:1001 and 1011: the encoding of the handle, and the bytes of the identifier. *)
Definition assertion_of (a : get_args) : assertion :=
  {| a_id := raw_url_decode (ga_id a); a_cdata := ga_cdata a; a_adata := ga_adata a; a_sig := ga_sig a;
     a_handle := JwksModel.b64u (ga_handle a); a_login := ga_login a |}.

(** encoding/hex DecodeString (standard library) *)
Fixpoint unhex (s : str) : option str :=
  match s with
  | [] => Some []
  | a :: b :: r => match hex_val a, hex_val b, unhex r with Some x, Some y, Some t => Some (ascii_of_N (16 * x + y) :: t) | _, _, _ => None end
  | _ => None
  end.

(** manager.go:258-494, manager.go:531-617: what the handlers take from a request of a
    script.  [base] has the rest: the cookies, the host, the time and the random values;
    [jwt] reads a token. *)
Definition read_message (jwt : str -> option TokenModel.jwt) (base : preq) (m : message) : preq :=
  let form := form_of m in
  let get := KeygenModel.value form in
  {| q_now := q_now base; q_method := lit "POST"; q_csrf := lit "1"; q_host := q_host base; q_sid := q_sid base;
     q_get := get (lit "get"); q_nonce := get (lit "nonce");
     q_redirect := match get (lit "redirect") with [] => None | t => jwt t end;
     q_email := get (lit "email");
     q_attest := option_map (fun a => (ca_cdata a, ca_att a)) (read_create (get (lit "args")));
     q_assert := option_map assertion_of (read_get (get (lit "args")));
     q_id := unhex (get (lit "id"));
     q_other := q_other base; q_session := q_session base; q_url := q_url base;
     q_uid := q_uid base; q_challenge := q_challenge base; q_fresh := q_fresh base |}.
(** manager.go:374: the name that was typed. *)
Definition typed_login (m : message) : str := KeygenModel.value (pairs (m_body m)) (lit "loginId").

(** ** The options *)

(** Artefact: a credential in the options, with its transports. *)
Definition credential (transports : ukey -> list str) (k : ukey) : json :=
  JObj ([(lit "type", JStr (lit "public-key")); (lit "id", bytes_json (k_id k))] ++
        match transports k with [] => [] | l => [(lit "transports", JArr (map JStr l))] end).
(** manager.go:803-809, 936-942, webauthn.go:98-123, 64-94: the options of a registration *)
Definition create_options (transports : ukey -> list str) (challenge rp uid email : str) (keys : list ukey) : json :=
  JObj ([(lit "challenge", bytes_json challenge);
         (lit "rp", JObj ((lit "name", JStr rp) :: match rp with [] => [] | _ => [(lit "id", JStr rp)] end));
         (lit "user", JObj [(lit "id", bytes_json uid); (lit "name", JStr email); (lit "displayName", JStr email)]);
         (lit "pubKeyCredParams", JArr [JObj [(lit "type", JStr (lit "public-key")); (lit "alg", JNum (lit "-7"))];
                                        JObj [(lit "type", JStr (lit "public-key")); (lit "alg", JNum (lit "-257"))]]);
         (lit "timeout", JNum (lit "120000"))] ++
        match keys with [] => [] | _ => [(lit "excludeCredentials", JArr (map (credential transports) keys))] end ++
        [(lit "attestation", JStr (lit "none"));
         (lit "authenticatorSelection", JObj [(lit "userVerification", JStr (lit "required")); (lit "residentKey", JStr (lit "preferred"))])]).
(** manager.go:945-952: the credential that no one has. *)
Definition no_credential : ukey := {| k_id := ["255"%char]; k_pub := []; k_rp := [] |}.
(** manager.go:934-952: the credentials that may answer a login of [email]. *)
Definition allowed_keys (st : pstate) (email : str) : list ukey :=
  match assoc email (p_subjects st) with
  | Some h => match assoc h (p_handles st) with Some u => us_keys u | None => [] end
  | None => match email with [] => [] | _ => [no_credential] end
  end.
(** webauthn.go:126-155: the options of a login *)
Definition get_options (transports : ukey -> list str) (challenge : str) (keys : list ukey) : json :=
  JObj [(lit "challenge", bytes_json challenge); (lit "timeout", JNum (lit "120000"));
        (lit "allowCredentials", JArr (map (credential transports) keys)); (lit "userVerification", JStr (lit "required"))].
(** manager.go:385, 404 (standard library, json.Encoder): the answer *)
Definition answer_text (v : json) : str := print go_escape v ++ ["010"%char].

(** ** What the script does with the options *)

(** JSON.parse: of members with the same name the last one counts. *)
Definition member (k : str) (v : json) : option json := match v with JObj l => assoc k (rev l) | _ => None end.
(** new Uint8Array(v).  Simplified: an array of numbers below 256, which is all that the
    server sends; anything else is [None]. *)
Definition u8 (v : json) : option str := match v with JArr l => bytes_of l | _ => None end.
(** webauthn.js:47 and 118: the identifier of a credential becomes bytes. *)
Definition script_credential (v : json) : option (str * json) :=
  match member (lit "id") v with Some i => option_map (fun b => (b, v)) (u8 i) | None => None end.
(** Artefact: all or nothing. *)
Fixpoint all_of {A B : Type} (f : A -> option B) (l : list A) : option (list B) :=
  match l with [] => Some [] | x :: r => match f x, all_of f r with Some y, Some t => Some (y :: t) | _, _ => None end end.
(** webauthn.js:43-52: the challenge, the credentials that are excluded and the handle of
    the user, which are turned into bytes; the rest is given to the browser as it is. *)
Definition script_create (text : str) : option (str * list (str * json) * str * json) :=
  match parse_json text with
  | None => None
  | Some o =>
      match option_map u8 (member (lit "challenge") o),
            (match member (lit "excludeCredentials") o with Some (JArr l) => all_of script_credential l | Some _ => None | None => Some [] end),
            (match member (lit "user") o with Some u => option_map u8 (member (lit "id") u) | None => None end) with
      | Some (Some c), Some l, Some (Some u) => Some (c, l, u, o)
      | _, _, _ => None
      end
  end.
(** webauthn.js:115-121: the challenge and the credentials that may be used. *)
Definition script_get (text : str) : option (str * list (str * json) * json) :=
  match parse_json text with
  | None => None
  | Some o =>
      match option_map u8 (member (lit "challenge") o),
            (match member (lit "allowCredentials") o with Some (JArr l) => all_of script_credential l | _ => None end) with
      | Some (Some c), Some l => Some (c, l, o)
      | _, _ => None
      end
  end.

(** ** The page that lists the keys *)

(** manager.go:670-697 keys, manage-template.html:47-52: the name that is shown, and the
    identifier that the button gives to deleteKey; the key of this session has none.
    The times are left out. *)
Definition key_rows (hash : str -> str) (current : str) (keys : list ukey) : list (str * option str) :=
  map (fun k => (firstn 8 (hex (k_id k)), if str_eqb (hash (k_id k)) current then None else Some (hex (k_id k)))) keys.
