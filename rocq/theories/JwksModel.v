(** The public keys that the proxy publishes (tokenmanager.go ServeJWKS). *)
From Verif Require Import Base XfccModel.
Open Scope list_scope.
Local Open Scope N_scope.

(** The public half of a key (tokenmanager.go:65-67, 220-327): a point of P-256, an Ed25519
    key of 32 bytes, or a modulus and an exponent. *)
Inductive pubkey := PEc (x y : N) | PEd (k : str) | PRsa (n e : N).

(** tokenmanager.go:69-75 tokenKey: 16 random bytes and the key.  The ID is their
    hexadecimal form (tokenmanager.go:234). *)
Record pkey := { pk_raw : str; pk_pub : pubkey }.

(** Library math/big: the bytes of a number, least significant first. *)
Fixpoint le_bytes (fuel : nat) (n : N) : str :=
  match fuel with
  | O => []
  | S fuel => if n =? 0 then [] else ascii_of_N (n mod 256) :: le_bytes fuel (n / 256)
  end.
(** Library math/big, Int.Bytes: big-endian, without leading zeros. *)
Definition int_bytes (n : N) : str := rev (le_bytes (N.size_nat n) n).

(** encoding/base64 URLEncoding: six bits, most significant first *)
Definition b64u_char (b5 b4 b3 b2 b1 b0 : bool) : ascii :=
  let n := N_of_ascii (Ascii b0 b1 b2 b3 b4 b5 false false) in
  ascii_of_N (if n <? 26 then 65 + n else if n <? 52 then 71 + n else if n <? 62 then n - 4 else if n =? 62 then 45 else 95).
(** encoding/base64 RawURLEncoding.EncodeToString *)
Fixpoint b64u (s : str) : str :=
  match s with
  | [] => []
  | [Ascii a0 a1 a2 a3 a4 a5 a6 a7] =>
      [b64u_char a7 a6 a5 a4 a3 a2; b64u_char a1 a0 false false false false]
  | [Ascii a0 a1 a2 a3 a4 a5 a6 a7; Ascii b0 b1 b2 b3 b4 b5 b6 b7] =>
      [b64u_char a7 a6 a5 a4 a3 a2; b64u_char a1 a0 b7 b6 b5 b4; b64u_char b3 b2 b1 b0 false false]
  | Ascii a0 a1 a2 a3 a4 a5 a6 a7 :: Ascii b0 b1 b2 b3 b4 b5 b6 b7 :: Ascii c0 c1 c2 c3 c4 c5 c6 c7 :: r =>
      b64u_char a7 a6 a5 a4 a3 a2 :: b64u_char a1 a0 b7 b6 b5 b4 :: b64u_char b3 b2 b1 b0 c7 c6 :: b64u_char c5 c4 c3 c2 c1 c0 :: b64u r
  end.

(** tokenmanager.go:438-450 jwk *)
Record jwk := {
  j_type : str; j_use : str; j_id : str; j_alg : str;
  j_curve : str; j_x : str; j_y : str; j_n : str; j_e : str
}.

(** tokenmanager.go:457-486: one key. *)
Definition jwk_of (k : pkey) : jwk :=
  match pk_pub k with
  | PEc x y =>
      {| j_type := lit "EC"; j_use := lit "sig"; j_id := hex (pk_raw k); j_alg := lit "ES256"; j_curve := lit "P-256";
         j_x := b64u (int_bytes x); j_y := b64u (int_bytes y); j_n := []; j_e := [] |}
  | PEd b =>
      {| j_type := lit "OKP"; j_use := lit "sig"; j_id := hex (pk_raw k); j_alg := lit "EdDSA"; j_curve := lit "Ed25519";
         j_x := b64u b; j_y := []; j_n := []; j_e := [] |}
  | PRsa n e =>
      {| j_type := lit "RSA"; j_use := lit "sig"; j_id := hex (pk_raw k); j_alg := lit "RS256"; j_curve := [];
         j_x := []; j_y := []; j_n := b64u (int_bytes n); j_e := b64u (int_bytes e) |}
  end.

(** tokenmanager.go:438-450: the names of the fields in JSON; the last five are left out
    when they are empty. *)
Definition jwk_fields (j : jwk) : list (str * str) :=
  [(lit "kty", j_type j); (lit "use", j_use j); (lit "kid", j_id j); (lit "alg", j_alg j)] ++
  filter (fun kv => negb (str_eqb (snd kv) []))
    [(lit "crv", j_curve j); (lit "x", j_x j); (lit "y", j_y j); (lit "n", j_n j); (lit "e", j_e j)].

(** Library encoding/json: a string.  The strings here are letters, digits, minus and
    underscore, which are written as they are. *)
Definition json_string (s : str) : str := quote :: s ++ [quote].
(** Artefact: a new line and spaces. *)
Definition nl (n : nat) : str := newline :: repeat " "%char n.
(** Library encoding/json, MarshalIndent: what is put between the members of an array or
    an object. *)
Fixpoint comma_sep (sep : str) (l : list str) : str :=
  match l with
  | [] => []
  | [x] => x
  | x :: l => x ++ lit "," ++ sep ++ comma_sep sep l
  end.
(** Library encoding/json, MarshalIndent(out, "", "  "): an object in the array. *)
Definition json_object (fs : list (str * str)) : str :=
  lit "{" ++ nl 6 ++ comma_sep (nl 6) (map (fun kv => json_string (fst kv) ++ lit ": " ++ json_string (snd kv)) fs) ++ nl 4 ++ lit "}".
(** Library encoding/json, MarshalIndent(out, "", "  "), for tokenmanager.go:434-436
    (jwks).  A slice that was never appended to is null. *)
Definition jwks_text (l : list jwk) : str :=
  lit "{" ++ nl 2 ++ json_string (lit "keys") ++ lit ": " ++
  (match l with
   | [] => lit "null"
   | _ => lit "[" ++ nl 4 ++ comma_sep (nl 4) (map (fun j => json_object (jwk_fields j)) l) ++ nl 2 ++ lit "]"
   end) ++ nl 0 ++ lit "}".

(** An answer: the status, the headers and the body. *)
Record answer := { an_status : nat; an_headers : list (str * str); an_body : str }.

(** tokenmanager.go:453-508 ServeJWKS; [sha256] is the hash function; [inm] the header
    If-None-Match (the empty string if there is none). *)
Definition serve_jwks (sha256 : str -> str) (keys : list pkey) (inm : str) : answer :=
  let content := jwks_text (map jwk_of keys) in
  let etag := quote :: hex (sha256 content) ++ [quote] in
  let hs := [(lit "Content-Type", lit "application/json"); (lit "Cache-Control", lit "public, max-age=3600"); (lit "Etag", etag)] in
  if str_eqb inm etag then {| an_status := 304; an_headers := hs; an_body := [] |}
  else {| an_status := 200; an_headers := hs; an_body := content |}.
