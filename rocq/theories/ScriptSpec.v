(** Specification for the scripts of the passkey pages. *)
From Verif Require Import Base PasskeyModel PasskeyHttpModel ScriptModel.
From Verif Require JwksModel.
Open Scope list_scope.
Open Scope N_scope.

(** Tokens are written with the letters of base64url and full stops. *)
Definition token_char (c : ascii) : bool :=
  let n := N_of_ascii c in
  ((48 <=? n) && (n <=? 57) || (65 <=? n) && (n <=? 90) || (97 <=? n) && (n <=? 122)) || has_char c (lit "-_.").
Definition token_text (t : str) : Prop := t <> [] /\ forallb token_char t = true.

(** All numbers in a value are numbers. *)
Fixpoint valid (v : json) : bool :=
  match v with
  | JNum n => number n && forallb num_char n
  | JArr l => forallb valid l
  | JObj l => forallb (fun kv => valid (snd kv)) l
  | _ => true
  end.

(** The writers that escape characters as they do. *)
Definition writer (esc : ascii -> str) : Prop := esc = js_escape \/ esc = go_escape.

(** W3C WebAuthn, 5.8.1: what the browser lets the authenticator sign.  [more]: members that
    browsers may add. *)
Definition browser_data (type challenge origin : str) (more : list (str * json)) : str :=
  print js_escape (JObj ([(lit "type", JStr type); (lit "challenge", JStr challenge); (lit "origin", JStr origin)] ++ more)).
Definition others (more : list (str * json)) : Prop :=
  Forall (fun kv => ~ In (to_lower (fst kv)) [lit "type"; lit "challenge"; lit "origin"] /\ valid (snd kv) = true) more.

(** The algorithms that the options of a registration ask for. *)
Definition alg_of (v : json) : option str := match member (lit "alg") v with Some (JNum n) => Some n | _ => None end.
Definition asked_algorithms (options : json) : option (list str) :=
  match member (lit "pubKeyCredParams") options with Some (JArr l) => all_of alg_of l | _ => None end.
(** The relying party that they name. *)
Definition asked_party (options : json) : option json := match member (lit "rp") options with Some r => member (lit "id") r | None => None end.
(** Whether the user has to be verified. *)
Definition asked_verification (options : json) : option json :=
  match member (lit "userVerification") options with
  | Some v => Some v
  | None => match member (lit "authenticatorSelection") options with Some s => member (lit "userVerification") s | None => None end
  end.
(** The names of the user, for a menu. *)
Definition asked_names (options : json) : option (option json * option json) :=
  option_map (fun u => (member (lit "name") u, member (lit "displayName") u)) (member (lit "user") options).

(** ** RFC 8259: which texts are JSON, and what they mean *)

Definition blank (w : str) : Prop := Forall (fun c => In (N_of_ascii c) [32; 9; 10; 13]) w.
Definition digits (s : str) : Prop := Forall (fun c => 48 <= N_of_ascii c <= 57) s.

(** RFC 3629: the bytes of a character. *)
Definition utf8_text (n : N) (s : str) : Prop :=
  let more x := 128 <= x < 192 in
  match map N_of_ascii s with
  | [a] => a = n /\ n < 128
  | [a; b] => 192 <= a < 224 /\ more b /\ n = (a - 192) * 64 + (b - 128) /\ 128 <= n
  | [a; b; c] => 224 <= a < 240 /\ more b /\ more c /\ n = ((a - 224) * 64 + (b - 128)) * 64 + (c - 128) /\ 2048 <= n
  | [a; b; c; d] => 240 <= a < 248 /\ more b /\ more c /\ more d /\ n = (((a - 240) * 64 + (b - 128)) * 64 + (c - 128)) * 64 + (d - 128) /\ 65536 <= n
  | _ => False
  end.

(** Four digits that name a number. *)
Definition hex_named (c : ascii) (n : nat) : Prop :=
  nth_error (lit "0123456789abcdef") n = Some c \/ nth_error (lit "0123456789ABCDEF") n = Some c.
Definition code (s : str) (n : N) : Prop :=
  exists a b c d w x y z, s = [a; b; c; d] /\ hex_named a w /\ hex_named b x /\ hex_named c y /\ hex_named d z /\
    n = N.of_nat w * 4096 + N.of_nat x * 256 + N.of_nat y * 16 + N.of_nat z.
Definition u_escape (s : str) : str := backslash :: "u"%char :: s.
Definition first_half (n : N) : Prop := 55296 <= n < 56320.
Definition second_half (n : N) : Prop := 56320 <= n < 57344.
Definition continues (n : N) (t : str) : Prop := first_half n /\ exists s m r, t = u_escape s ++ r /\ code s m /\ second_half m.

Definition short_names : list (ascii * ascii) :=
  [(dquote, dquote); (backslash, backslash); ("/", "/"); ("b", "008"); ("f", "012"); ("n", "010"); ("r", "013"); ("t", "009")]%char.

(** What is between the quotation marks, and the bytes that it means. *)
Inductive string_text : str -> str -> Prop :=
| st_end : string_text [] []
| st_plain c t v : c <> dquote -> c <> backslash -> 32 <= N_of_ascii c -> string_text t v -> string_text (c :: t) (c :: v)
| st_short x y t v : In (x, y) short_names -> string_text t v -> string_text (backslash :: x :: t) (y :: v)
| st_code s n b t v : code s n -> ~ first_half n -> ~ second_half n -> utf8_text n b -> string_text t v -> string_text (u_escape s ++ t) (b ++ v)
| st_pair s n s' m b t v : code s n -> first_half n -> code s' m -> second_half m -> utf8_text (65536 + (n - 55296) * 1024 + (m - 56320)) b ->
    string_text t v -> string_text (u_escape s ++ u_escape s' ++ t) (b ++ v)
| st_half s n b t v : code s n -> first_half n \/ second_half n -> ~ continues n t -> utf8_text 65533 b -> string_text t v -> string_text (u_escape s ++ t) (b ++ v).

Definition number_text (s : str) : Prop :=
  exists sign whole part exp, s = sign ++ whole ++ part ++ exp /\
    (sign = [] \/ sign = lit "-") /\
    (whole = lit "0" \/ exists c r, whole = c :: r /\ 49 <= N_of_ascii c <= 57 /\ digits r) /\
    (part = [] \/ exists c r, part = "."%char :: c :: r /\ digits (c :: r)) /\
    (exp = [] \/ exists e sg c r, exp = e :: sg ++ c :: r /\ In e (lit "eE") /\ In sg [[]; lit "+"; lit "-"] /\ digits (c :: r)).

Inductive value_text : str -> json -> Prop :=
| vt_null : value_text (lit "null") JNull
| vt_true : value_text (lit "true") (JBool true)
| vt_false : value_text (lit "false") (JBool false)
| vt_num n : number_text n -> value_text n (JNum n)
| vt_str t s : string_text t s -> value_text (dquote :: t ++ [dquote]) (JStr s)
| vt_arr0 w : blank w -> value_text ("["%char :: w ++ lit "]") (JArr [])
| vt_arr t l : elements_text t l -> value_text ("["%char :: t ++ lit "]") (JArr l)
| vt_obj0 w : blank w -> value_text ("{"%char :: w ++ lit "}") (JObj [])
| vt_obj t l : members_text t l -> value_text ("{"%char :: t ++ lit "}") (JObj l)
with elements_text : str -> list json -> Prop :=
| et_one w t w' v : blank w -> value_text t v -> blank w' -> elements_text (w ++ t ++ w') [v]
| et_more w t w' v t' l : blank w -> value_text t v -> blank w' -> elements_text t' l -> elements_text (w ++ t ++ w' ++ ","%char :: t') (v :: l)
with members_text : str -> list (str * json) -> Prop :=
| mt_one k v t : member_text t k v -> members_text t [(k, v)]
| mt_more k v t t' l : member_text t k v -> members_text t' l -> members_text (t ++ ","%char :: t') ((k, v) :: l)
with member_text : str -> str -> json -> Prop :=
| mt w q k w' w2 t v w3 : blank w -> string_text q k -> blank w' -> blank w2 -> value_text t v -> blank w3 ->
    member_text (w ++ dquote :: q ++ dquote :: w' ++ ":"%char :: w2 ++ t ++ w3) k v.

(** A whole text. *)
Definition json_text (s : str) (v : json) : Prop := exists w t w', s = w ++ t ++ w' /\ blank w /\ value_text t v /\ blank w'.
