(** What is said about PEM files. *)
From Coq Require Import ZArith.
From Verif Require Import Base XfccModel PemModel.
Local Open Scope nat_scope.

(** The type of a block that can be written: one line, without a colon. *)
Definition plain_type (ty : str) : Prop := ~ In newline ty /\ ~ In ":"%char ty.

(** A file: blocks, one after the other. *)
Definition file_of (l : list (str * str)) : str := List.concat (map (fun b => pem_encode (fst b) (snd b)) l).

(** Lines of text that come before a block: there are no dashes in them. *)
Definition text (s : str) : Prop := ~ In "-"%char s /\ exists t, s = t ++ [newline].

(** A key that is written is read back. *)
Definition lib_ok (l : lib) : Prop := forall k, l_parse_key l (l_key_der l k) = Some k.

(** The root that a start would make: its certificate is for its key, can be parsed, and lasts for
    a year. *)
Definition proper (l : lib) (s : start) : Prop :=
  x_key (s_cert s) = s_key s /\ l_parse_cert l (x_raw (s_cert s)) = Some (s_cert s) /\
  x_until (s_cert s) = (s_now s + 31536000)%Z.

(** The starts are in the order of time. *)
Fixpoint in_order (ss : list start) : Prop :=
  match ss with
  | s :: (s' :: _) as ss' => (s_now s <= s_now s')%Z /\ in_order ss'
  | _ => True
  end.

(** How many blocks are complete in the first [n] bytes of a file; the end of the last line may be
    missing. *)
Fixpoint complete (n : nat) (l : list (str * str)) : nat :=
  match l with
  | [] => 0
  | b :: l' =>
      let len := List.length (pem_encode (fst b) (snd b)) in
      if S n <? len then 0 else S (complete (n - len) l')
  end.

(** Spaces, tabs and ends of lines. *)
Definition white (c : ascii) : Prop := c = " "%char \/ c = "009"%char \/ c = newline \/ c = "013"%char.

(** A text that has a block of this type and with these bytes in it, and [rest] after it: it starts
    at the start of a line, both marks have the same type, and there is nothing else on their lines. *)
Definition has_block (s ty bytes rest : str) : Prop :=
  exists pre w1 headers body sep w2,
    s = pre ++ lit "-----BEGIN " ++ ty ++ lit "-----" ++ w1 ++ headers ++ body ++ sep ++ lit "-----END " ++ ty ++ lit "-----" ++ w2 ++ rest /\
    (pre = [] \/ exists p, pre = p ++ [newline]) /\ (sep = [newline] \/ sep = [] /\ body = []) /\
    Forall white w1 /\ In newline w1 /\ Forall white w2 /\ (rest = [] \/ exists w, w2 = w ++ [newline]) /\
    ~ In newline ty /\
    unbase64 (filter no_space body) = Some bytes.

(** The first request for a name. *)
Definition first_request (qs : list (str * N * Z)) (i : nat) (name : str) (serial : N) (now : Z) : Prop :=
  nth_error qs i = Some (name, serial, now) /\
  forall j n s t, j < i -> nth_error qs j = Some (n, s, t) -> n <> name.

(** Bytes that are no private key in any of the three formats. *)
Definition no_key (pkcs8 : str -> parsed) (ec pkcs1 : str -> option nat) (b : str) : Prop :=
  pkcs8 b = Bad /\ ec b = None /\ pkcs1 b = None.
(** A private key in one of the formats; those that come first do not take it for something else. *)
Definition is_key (pkcs8 : str -> parsed) (ec pkcs1 : str -> option nat) (b : str) (k : nat) : Prop :=
  pkcs8 b = Signs k \/ pkcs8 b = Bad /\ ec b = Some k \/ pkcs8 b = Bad /\ ec b = None /\ pkcs1 b = Some k.
(** The types of private keys: "PRIVATE KEY", "RSA PRIVATE KEY", "EC PRIVATE KEY". *)
Definition key_type (ty : str) : Prop := plain_type ty /\ exists a b, ty = a ++ lit "PRIVATE KEY" ++ b.

(** RFC 4648, table 1: the characters for the numbers below 64. *)
Definition letter (n : N) : ascii :=
  nth (N.to_nat n) (lit "ABCDEFGHIJKLMNOPQRSTUVWXYZabcdefghijklmnopqrstuvwxyz0123456789+/") "="%char.
(** RFC 4648, section 4: three bytes are four characters; at the end, two bytes are three
    characters, and one byte is two, filled up with equal signs.  Bits that are left over are zero. *)
Fixpoint rfc4648 (s : str) : str :=
  match s with
  | [] => []
  | [a] => let a := N_of_ascii a in [letter (a / 4); letter (a mod 4 * 16); "="; "="]%N%char
  | [a; b] => let a := N_of_ascii a in let b := N_of_ascii b in
      [letter (a / 4); letter (a mod 4 * 16 + b / 16); letter (b mod 16 * 4); "="]%N%char
  | a :: b :: c :: r => let a := N_of_ascii a in let b := N_of_ascii b in let c := N_of_ascii c in
      [letter (a / 4); letter (a mod 4 * 16 + b / 16); letter (b mod 16 * 4 + c / 64); letter (c mod 64)]%N ++ rfc4648 r
  end.
