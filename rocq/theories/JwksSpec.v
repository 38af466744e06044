(** Reading a JSON Web Key Set as a verifier of tokens does (RFC 7517, RFC 7518 section 6,
    RFC 8037 section 2). *)
From Verif Require Import Base XfccModel TokenModel TokenSpec JwksModel.
Open Scope list_scope.
Local Open Scope N_scope.

(** ** JSON *)

(** The tokens of a JSON text, as far as it occurs here: punctuation and strings without
    escapes.  White space between tokens means nothing. *)
Inductive token := Pun (c : ascii) | Txt (s : str).

Definition is_space (c : ascii) : bool := has_char c [" "; "009"; "010"; "013"]%char.
(** A byte that stands for itself in a string. *)
Definition plain (c : ascii) : bool := (32 <=? N_of_ascii c) && (N_of_ascii c <? 127) && negb (has_char c ["\"; """"]%char).

(** [cur]: the string that was begun, reversed. *)
Fixpoint tokens_from (s : str) (cur : option str) : option (list token) :=
  match s with
  | [] => match cur with None => Some [] | Some _ => None end
  | c :: r =>
      match cur with
      | Some w =>
          if Ascii.eqb c """" then option_map (cons (Txt (rev w))) (tokens_from r None)
          else if plain c then tokens_from r (Some (c :: w)) else None
      | None =>
          if is_space c then tokens_from r None
          else if Ascii.eqb c """" then tokens_from r (Some [])
          else if has_char c (lit "{}[]:,") then option_map (cons (Pun c)) (tokens_from r None)
          else None
      end
  end.
Definition tokens (s : str) : option (list token) := tokens_from s None.

Fixpoint commas (l : list (list token)) : list token :=
  match l with
  | [] => []
  | [x] => x
  | x :: l => x ++ Pun "," :: commas l
  end.
(** An object whose members are strings. *)
Definition object (fs : list (str * str)) : list token :=
  Pun "{" :: commas (map (fun kv => [Txt (fst kv); Pun ":"; Txt (snd kv)]) fs) ++ [Pun "}"].
(** A key set. *)
Definition key_set (objs : list (list (str * str))) : list token :=
  [Pun "{"; Txt (lit "keys"); Pun ":"; Pun "["] ++ commas (map object objs) ++ [Pun "]"; Pun "}"].

(** ** Base64 and numbers *)
Definition alphabet : str := lit "ABCDEFGHIJKLMNOPQRSTUVWXYZabcdefghijklmnopqrstuvwxyz0123456789-_".
Fixpoint position (c : ascii) (s : str) : option N :=
  match s with
  | [] => None
  | x :: s => if Ascii.eqb c x then Some 0 else option_map N.succ (position c s)
  end.
(** The six bits of a digit, most significant first. *)
Definition six (n : N) : list bool := map (fun i => N.testbit n i) [5; 4; 3; 2; 1; 0].
Fixpoint all_bits (s : str) : option (list bool) :=
  match s with
  | [] => Some []
  | c :: s => match position c alphabet, all_bits s with Some n, Some l => Some (six n ++ l) | _, _ => None end
  end.
(** Eight bits at a time; what is left over at the end is padding. *)
Fixpoint bytes_of (l : list bool) : str :=
  match l with
  | a :: b :: c :: d :: e :: f :: g :: h :: l => Ascii h g f e d c b a :: bytes_of l
  | _ => []
  end.
Definition unb64u (s : str) : option str := option_map bytes_of (all_bits s).
(** A big-endian number. *)
Definition number (b : str) : N := fold_left (fun n c => n * 256 + N_of_ascii c) b 0.

(** ** Keys *)
Definition field (k : string) (fs : list (str * str)) : str := match assoc (lit k) fs with Some v => v | None => [] end.
Definition read_pub (fs : list (str * str)) : option pubkey :=
  let is k v := str_eqb (field k fs) (lit v) in
  if negb (is "use"%string "sig"%string) then None
  else if is "kty"%string "EC"%string && is "crv"%string "P-256"%string && is "alg"%string "ES256"%string then
    match unb64u (field "x" fs), unb64u (field "y" fs) with
    | Some x, Some y => Some (PEc (number x) (number y)) | _, _ => None end
  else if is "kty"%string "OKP"%string && is "crv"%string "Ed25519"%string && is "alg"%string "EdDSA"%string then
    match unb64u (field "x" fs) with Some x => Some (PEd x) | None => None end
  else if is "kty"%string "RSA"%string && is "alg"%string "RS256"%string then
    match unb64u (field "n" fs), unb64u (field "e" fs) with
    | Some n, Some e => Some (PRsa (number n) (number e)) | _, _ => None end
  else None.
(** The identifier and the key. *)
Definition read_key (fs : list (str * str)) : option (str * pubkey) :=
  match read_pub fs with Some p => Some (field "kid" fs, p) | None => None end.

(** The key set that a text describes. *)
Definition describes (text : str) (keys : list (str * pubkey)) : Prop :=
  exists objs, tokens text = Some (key_set objs) /\ map read_key objs = map Some keys.

(** RFC 7518, 6.2.1.2 and 6.2.1.3: the length of the octet string of a coordinate is the
    size of a coordinate, 32 for P-256. *)
Definition full_width (text : str) : Prop :=
  forall objs fs, tokens text = Some (key_set objs) -> In fs objs -> field "kty" fs = lit "EC" ->
    option_map (@List.length ascii) (unb64u (field "x" fs)) = Some 32%nat.

(** Points of P-256. *)
Definition p256 : N := 2 ^ 256 - 2 ^ 224 + 2 ^ 192 + 2 ^ 96 - 1.
Definition p256_b : N := 41058363725152142129326129780047268409114441015993725554835256314039467401291.
Definition on_p256 (x y : N) : Prop :=
  x < p256 /\ y < p256 /\ y * y mod p256 = (x * x * x + (p256 - 3) * x + p256_b) mod p256.

(** ** The keys of the token manager *)

(** The keys of [TokenModel] with their random identifiers and public halves. *)
Definition with_pub (raw : nat -> str) (pub : key -> pubkey) (ks : list key) : list pkey :=
  map (fun k => {| pk_raw := raw (kid k); pk_pub := pub k |}) ks.
(** Identifiers and public halves. *)
Definition ids (raw : nat -> str) (pub : key -> pubkey) (ks : list key) : list (str * pubkey) :=
  map (fun k => (hex (raw (kid k)), pub k)) ks.
