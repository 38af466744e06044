(** How the OCSP responder reads a GET request: internal/pki/http.go. *)
From Verif Require Import Base XfccModel.

(** net/url unescape in the modes encodePath and encodePathSegment (standard library):
    percent signs are followed by two hexadecimal digits; a plus sign stays. *)
Definition hex_val (c : ascii) : option N :=
  let n := N_of_ascii c in
  (if (48 <=? n) && (n <=? 57) then Some (n - 48) else if (97 <=? n) && (n <=? 102) then Some (n - 87)
   else if (65 <=? n) && (n <=? 70) then Some (n - 55) else None)%N.
(** net/url unescape *)
Fixpoint unescape (s : str) : option str :=
  match s with
  | [] => Some []
  | c :: r =>
      if Ascii.eqb c "%" then
        match r with
        | a :: b :: r' => match hex_val a, hex_val b, unescape r' with
                          | Some x, Some y, Some t => Some (ascii_of_N (16 * x + y) :: t)
                          | _, _, _ => None
                          end
        | _ => None
        end
      else match unescape r with Some t => Some (c :: t) | None => None end
  end.

(** strings.LastIndex(s, "/") and what follows *)
Fixpoint after_last_slash (s : str) : option str :=
  match s with
  | [] => None
  | c :: r => match after_last_slash r with
              | Some t => Some t
              | None => if Ascii.eqb c "/" then Some r else None
              end
  end.

(** strings.TrimRight(s, "=") *)
Fixpoint trim_equals (s : str) : str :=
  match s with
  | [] => []
  | c :: r => match trim_equals r with
              | [] => if Ascii.eqb c "=" then [] else [c]
              | t => c :: t
              end
  end.

(** http.go:141-144 *)
Definition std_to_url (c : ascii) : ascii :=
  if Ascii.eqb c " " then "-"%char else if Ascii.eqb c "+" then "-"%char else if Ascii.eqb c "/" then "_"%char else c.

(** encoding/base64 RawURLEncoding (standard library): six bits of a character *)
Definition url_bits (c : ascii) : option (bool * bool * bool * bool * bool * bool) :=
  let n := N_of_ascii c in
  match (if (65 <=? n) && (n <=? 90) then Some (n - 65) else if (97 <=? n) && (n <=? 122) then Some (n - 71)
         else if (48 <=? n) && (n <=? 57) then Some (n + 4) else if n =? 45 then Some 62 else if n =? 95 then Some 63 else None)%N with
  | Some v => match ascii_of_N v with Ascii b0 b1 b2 b3 b4 b5 _ _ => Some (b5, b4, b3, b2, b1, b0) end
  | None => None
  end.
(** The loop of DecodeString without the characters that it skips; bits that are left over
    are not looked at. *)
Fixpoint decode4 (s : str) : option str :=
  match s with
  | [] => Some []
  | [_] => None
  | [a; b] =>
      match url_bits a, url_bits b with
      | Some (a5, a4, a3, a2, a1, a0), Some (b5, b4, _, _, _, _) => Some [Ascii b4 b5 a0 a1 a2 a3 a4 a5]
      | _, _ => None
      end
  | [a; b; c] =>
      match url_bits a, url_bits b, url_bits c with
      | Some (a5, a4, a3, a2, a1, a0), Some (b5, b4, b3, b2, b1, b0), Some (c5, c4, c3, c2, _, _) =>
          Some [Ascii b4 b5 a0 a1 a2 a3 a4 a5; Ascii c2 c3 c4 c5 b0 b1 b2 b3]
      | _, _, _ => None
      end
  | a :: b :: c :: d :: r =>
      match url_bits a, url_bits b, url_bits c, url_bits d, decode4 r with
      | Some (a5, a4, a3, a2, a1, a0), Some (b5, b4, b3, b2, b1, b0), Some (c5, c4, c3, c2, c1, c0), Some (d5, d4, d3, d2, d1, d0), Some t =>
          Some (Ascii b4 b5 a0 a1 a2 a3 a4 a5 :: Ascii c2 c3 c4 c5 b0 b1 b2 b3 :: Ascii d0 d1 d2 d3 d4 d5 c0 c1 :: t)
      | _, _, _, _, _ => None
      end
  end.
(** ... which skips carriage returns and line feeds *)
Definition raw_url_decode (s : str) : option str :=
  decode4 (filter (fun c => negb (Ascii.eqb c "010") && negb (Ascii.eqb c "013")) s).

(** http.go:128-148, the case of GET: what is given to ocsp.ParseRequest.  [raw] is the path
    as sent, which net/http has decoded once into URL.Path. *)
Definition ocsp_get (raw : str) : option str :=
  match unescape raw with
  | None => None
  | Some path =>
      match after_last_slash path with
      | None => None
      | Some part =>
          match unescape part with
          | None => None
          | Some data => raw_url_decode (trim_equals (map std_to_url data))
          end
      end
  end.

(** http.go:150-161, the case of POST.  [body]: what can be read, None is an error. *)
Definition ocsp_post (content_type : str) (body : option str) : option str :=
  if str_eqb content_type (lit "application/ocsp-request") then
    match body with
    | Some b => if (List.length (firstn 4096 b) =? 4096)%nat then None else Some (firstn 4096 b)
    | None => None
    end
  else None.
