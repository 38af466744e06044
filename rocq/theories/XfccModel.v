(** The X-Forwarded-Client-Cert header (proxy/xfcc.go). *)
From Verif Require Import Base.

(** Artefact: a character. *)
Definition semi : ascii := ";".
(** Artefact: a character. *)
Definition equal : ascii := "=".
(** Artefact: a character. *)
Definition quote : ascii := """".
(** Artefact: a character. *)
Definition bslash : ascii := "\".
(** Artefact: a character. *)
Definition plus : ascii := "+".
(** Artefact: a character. *)
Definition newline : ascii := "010".

(** xfcc.go:99-106 encodeXFCC.  Escaping backslashes first and then quotes is the same
    as escaping each of them once. *)
Fixpoint escape (s : str) : str :=
  match s with
  | [] => []
  | c :: r => if Ascii.eqb c bslash || Ascii.eqb c quote then bslash :: c :: escape r else c :: escape r
  end.
(** xfcc.go:102: strings.ContainsAny(s, ",;=") *)
Definition special (c : ascii) : bool := Ascii.eqb c "," || Ascii.eqb c semi || Ascii.eqb c equal.
(** xfcc.go:99-106 encodeXFCC *)
Definition encode (s : str) : str :=
  let s := escape s in
  if existsb special s then quote :: s ++ [quote] else s.

(** net/url QueryEscape *)
Definition hex_digit (upper : bool) (n : N) : ascii :=
  ascii_of_N (if (n <? 10)%N then 48 + n else (if upper then 55 else 87) + n).
(** net/url shouldEscape, mode encodeQueryComponent *)
Definition unreserved (c : ascii) : bool :=
  let n := N_of_ascii c in
  ((48 <=? n) && (n <=? 57) || (65 <=? n) && (n <=? 90) || (97 <=? n) && (n <=? 122))%N || has_char c (lit "-_.~").
(** net/url escape, one byte *)
Definition escape_byte (c : ascii) : str :=
  if unreserved c then [c]
  else if Ascii.eqb c " " then [plus]
  else let n := N_of_ascii c in ["%"%char; hex_digit true (n / 16); hex_digit true (n mod 16)].
(** net/url QueryEscape *)
Definition query_escape (s : str) : str := List.concat (map escape_byte s).

(** encoding/hex EncodeToString *)
Definition hex (s : str) : str :=
  List.concat (map (fun c => let n := N_of_ascii c in [hex_digit false (n / 16); hex_digit false (n mod 16)]) s).

(** encoding/base64 StdEncoding: six bits, most significant first *)
Definition b64_char (b5 b4 b3 b2 b1 b0 : bool) : ascii :=
  let n := N_of_ascii (Ascii b0 b1 b2 b3 b4 b5 false false) in
  ascii_of_N (if n <? 26 then 65 + n else if n <? 52 then 71 + n else if n <? 62 then n - 4 else if n =? 62 then 43 else 47)%N.
(** encoding/base64 StdEncoding.EncodeToString *)
Fixpoint base64 (s : str) : str :=
  match s with
  | [] => []
  | [Ascii a0 a1 a2 a3 a4 a5 a6 a7] =>
      [b64_char a7 a6 a5 a4 a3 a2; b64_char a1 a0 false false false false; equal; equal]
  | [Ascii a0 a1 a2 a3 a4 a5 a6 a7; Ascii b0 b1 b2 b3 b4 b5 b6 b7] =>
      [b64_char a7 a6 a5 a4 a3 a2; b64_char a1 a0 b7 b6 b5 b4; b64_char b3 b2 b1 b0 false false; equal]
  | Ascii a0 a1 a2 a3 a4 a5 a6 a7 :: Ascii b0 b1 b2 b3 b4 b5 b6 b7 :: Ascii c0 c1 c2 c3 c4 c5 c6 c7 :: r =>
      b64_char a7 a6 a5 a4 a3 a2 :: b64_char a1 a0 b7 b6 b5 b4 :: b64_char b3 b2 b1 b0 c7 c6 :: b64_char c5 c4 c3 c2 c1 c0 :: base64 r
  end.

(** encoding/pem Encode, without headers: lines of 64 characters.  [n] is the room left
    in the current line. *)
Fixpoint lines (n : nat) (s : str) : str :=
  match s with
  | [] => if (n =? 64)%nat then [] else [newline]
  | c :: r => match n with
              | 1%nat => c :: newline :: lines 64 r
              | _ => c :: lines (n - 1) r
              end
  end.
(** encoding/pem EncodeToMemory *)
Definition pem (raw : str) : str :=
  lit "-----BEGIN CERTIFICATE-----" ++ [newline] ++ lines 64 (base64 raw) ++ lit "-----END CERTIFICATE-----" ++ [newline].

(** crypto/x509/pkix RDNSequence.String.  An attribute has a known type, written with
    its escaped value, or an unknown one, written as hex. *)
Inductive attribute := Known (name value : str) | Unknown (oid der : str).
(** crypto/x509/pkix RDNSequence.String: characters that are always escaped *)
Definition always_escaped (c : ascii) : bool := has_char c (lit ",+""\<>;").
(** crypto/x509/pkix RDNSequence.String: one character *)
Definition escape_rune (first last : bool) (c : ascii) : str :=
  if always_escaped c || (Ascii.eqb c " " && (first || last)) || (Ascii.eqb c "#" && first) then [bslash; c] else [c].
(** crypto/x509/pkix RDNSequence.String: a value *)
Fixpoint escape_value (first : bool) (v : str) : str :=
  match v with
  | [] => []
  | c :: r => escape_rune first (match r with [] => true | _ => false end) c ++ escape_value false r
  end.
(** crypto/x509/pkix RDNSequence.String: one attribute *)
Definition attribute_string (a : attribute) : str :=
  match a with
  | Known n v => n ++ equal :: escape_value true v
  | Unknown oid der => oid ++ equal :: "#"%char :: hex der
  end.
(** pkix.RelativeDistinguishedNameSET *)
Definition rdn := list attribute.
(** crypto/x509/pkix RDNSequence.String: one RDN *)
Definition rdn_string (r : rdn) : str := join plus (map attribute_string r).
(** crypto/x509/pkix RDNSequence.String *)
Definition name_string (rdns : list rdn) : str := join "," (map rdn_string (rev rdns)).

(** xfcc.go:78-97 encodeXFCCSubject.  Simplified: bytes instead of runes, which is the
    same for valid UTF-8. *)
Fixpoint subject_parts (esc : bool) (cur : str) (s : str) : list str :=
  match s with
  | [] => match cur with [] => [] | _ => [rev cur] end
  | c :: r =>
      if Ascii.eqb c "," && negb esc then rev cur :: subject_parts false [] r
      else subject_parts (negb esc && Ascii.eqb c bslash) (c :: cur) r
  end.
(** xfcc.go:78-97 encodeXFCCSubject *)
Definition encode_subject (s : str) : str := encode ("/"%char :: join "/" (subject_parts false [] s)).

(** What the header is made from: the peer's certificate and the verified chains. *)
Record cert := { c_raw : str; c_subject : list rdn; c_uris : list str; c_dns : list str }.
(** tls.ConnectionState: PeerCertificates[0] and VerifiedChains *)
Record peer := { p_leaf : cert; p_chains : list (list cert) }.

(** xfcc.go:38-76 addXFCCHeader, for a connection with a client certificate *)
Section Hash.
(** crypto/sha256 Sum256; any function. *)
Variable sha256 : str -> str.
(** xfcc.go:43-74: one field of the header *)
Definition header_fields (p : peer) (which : str) : list str :=
  let f := to_lower which in
  if str_eqb f (lit "cert") then [lit "Cert=" ++ encode (query_escape (pem (c_raw (p_leaf p))))]
  else if str_eqb f (lit "chain") then
    map (fun chain => lit "Chain=" ++ encode (query_escape (List.concat (map (fun c => pem (c_raw c)) chain)))) (p_chains p)
  else if str_eqb f (lit "hash") then [lit "Hash=" ++ encode (hex (sha256 (c_raw (p_leaf p))))]
  else if str_eqb f (lit "subject") then [lit "Subject=" ++ encode_subject (name_string (c_subject (p_leaf p)))]
  else if str_eqb f (lit "uri") then map (fun u => lit "URI=" ++ encode (query_escape u)) (c_uris (p_leaf p))
  else if str_eqb f (lit "dns") then map (fun n => lit "DNS=" ++ encode (query_escape n)) (c_dns (p_leaf p))
  else [].
(** xfcc.go:38-76 addXFCCHeader *)
Definition header (which : list str) (p : peer) : str := join semi (List.concat (map (header_fields p) which)).
End Hash.
