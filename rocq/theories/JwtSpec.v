(** Specification for tokens as text: RFC 7515 (JWS, compact form) on top of RFC 4648 and
    RFC 8259. *)
From Verif Require Import Base TokenModel ScriptModel ScriptSpec.
Open Scope list_scope.
Open Scope Z_scope.

(** RFC 4648, section 5: the letters, and the six bits of each, most significant first. *)
Definition alphabet : str := lit "ABCDEFGHIJKLMNOPQRSTUVWXYZabcdefghijklmnopqrstuvwxyz0123456789-_".
Definition bits (w : nat) (n : N) : list bool := rev (map (fun i => N.testbit n (N.of_nat i)) (seq 0 w)).
Definition letter (c : ascii) (b : list bool) : Prop := exists n, nth_error alphabet n = Some c /\ b = bits 6 (N.of_nat n).
(** The letters stand for the bytes: their bits are those of the bytes and a rest of less
    than one letter.  Ends of lines are skipped (RFC 2045). *)
Definition b64url (s bytes : str) : Prop :=
  exists s' bb rest, s' = filter (fun c => negb (Ascii.eqb c "010") && negb (Ascii.eqb c "013")) s /\
    Forall2 letter s' bb /\ List.concat bb = List.concat (map (fun c => bits 8 (N_of_ascii c)) bytes) ++ rest /\ (List.length rest < 6)%nat.

(** A part of a token: JSON in base64url, with these members.  (null is read as an object
    without members.) *)
Definition part (s : str) (l : list (str * json)) : Prop :=
  exists bytes v, b64url s bytes /\ json_text bytes v /\ (v = JObj l \/ v = JNull /\ l = []).
(** RFC 7515, 7.1: header, payload and signature; the input of the signature. *)
Definition jws (text : str) (header payload : list (str * json)) (input sig : str) : Prop :=
  exists a b d, text = a ++ "."%char :: b ++ "."%char :: d /\ ~ In "."%char (a ++ b ++ d) /\
    part a header /\ part b payload /\ b64url d sig /\ input = a ++ "."%char :: b.
(** RFC 7515, 4: the last of several members with the same name counts. *)
Definition says (l : list (str * json)) (k : str) (v : json) : Prop := exists l1 l2, l = l1 ++ (k, v) :: l2 /\ ~ In k (map fst l2).

(** RFC 7518, 3.1, and RFC 8037 *)
Definition algorithms : list (str * ktype) := [(lit "ES256", EC); (lit "RS256", RSA); (lit "EdDSA", ED)].

(** Expired and not yet valid tokens (RFC 7519, 4.1.4 and 4.1.5; 0 is no time). *)
Definition in_time (c : claims) (now : Z) : Prop :=
  (forall v, assoc (lit "exp") c = Some v -> exists n, v = VNum n /\ (n = 0 \/ now < n)) /\
  (forall v, assoc (lit "nbf") c = Some v -> exists n, v = VNum n /\ (n = 0 \/ n <= now)).

(** The same claims, in any order. *)
Definition same_claims (a b : claims) : Prop := forall k, assoc k a = assoc k b.

(** The whole numbers that a float64 holds exactly. *)
Definition exact (c : claims) : Prop := forall k n, assoc k c = Some (VNum n) -> - 2 ^ 53 <= n <= 2 ^ 53.

(** Claims that a client of OpenID can read: names in lower case, and values of the types
    that the standard gives (OpenID Connect Core, 5.1; RFC 7519, 4.1). *)
Definition texts : list str :=
  [lit "iss"; lit "sub"; lit "jti"; lit "email"; lit "nonce"; lit "name"; lit "given_name"; lit "middle_name"; lit "family_name"; lit "picture";
   lit "avatar_url"; lit "login"; lit "hd"].
Definition standard_types (c : claims) : Prop := forall k v, assoc k c = Some v ->
  to_lower k = k /\
  (In k texts -> exists s, v = VStr s) /\
  (k = lit "email_verified" -> exists b, v = VBool b) /\
  (In k [lit "exp"; lit "nbf"; lit "iat"] -> exists n, v = VNum n) /\
  (k = lit "aud" -> (exists s, v = VStr s) \/ exists l, v = VList l).
