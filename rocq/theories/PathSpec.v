(** What it means to clean a path, element by element. *)
From Verif Require Import Base PathModel.

(** Process one path element; the elements kept so far are in reverse order. *)
Definition resolve (rooted : bool) (st : list str) (e : str) : list str :=
  if str_eqb e [] || str_eqb e (lit ".") then st
  else if str_eqb e (lit "..") then
    match st with
    | top :: rest => if str_eqb top (lit "..") then e :: st else rest
    | [] => if rooted then [] else [e]
    end
  else e :: st.

Definition elements (rooted : bool) (p : str) : list str :=
  rev (fold_left (resolve rooted) (split_on slash p) []).

(** The elements of a request path, and the cleaned path. *)
Definition clean_request_path (p : str) : str :=
  match elements true p with
  | [] => lit "/"
  | es => slash :: join slash es ++ (if has_suffix p [slash] then [slash] else [])
  end.

(** An ordinary path element. *)
Definition plain (e : str) : Prop := e <> [] /\ e <> lit "." /\ e <> lit ".." /\ ~ In slash e.

(** An element that may be part of the path of a static file. *)
Definition visible (e : str) : Prop :=
  e <> [] /\ ~ In slash e /\ ~ In backslash e /\ (forall e', e <> dot :: e').

(** Percent-decoding, as done by the receiver of a URL. *)
Definition hex_value (c : ascii) : option N :=
  let n := N_of_ascii c in
  if ((48 <=? n) && (n <=? 57))%N then Some (n - 48)%N
  else if ((65 <=? n) && (n <=? 70))%N then Some (n - 55)%N
  else if ((97 <=? n) && (n <=? 102))%N then Some (n - 87)%N
  else None.
Fixpoint percent_decode (s : str) : option str :=
  match s with
  | [] => Some []
  | c :: s1 =>
      if Ascii.eqb c "%" then
        match s1 with
        | a :: b :: s2 =>
            match hex_value a, hex_value b, percent_decode s2 with
            | Some x, Some y, Some r => Some (ascii_of_N (16 * x + y) :: r)
            | _, _, _ => None
            end
        | _ => None
        end
      else option_map (cons c) (percent_decode s1)
  end.

(** Characters that everyone may write in a URL as they are (RFC 3986, section 2.3), and
    the slash. *)
Definition readable (c : ascii) : Prop :=
  In c (lit "ABCDEFGHIJKLMNOPQRSTUVWXYZabcdefghijklmnopqrstuvwxyz0123456789-._~/").

(** The file system path with the given elements. *)
Definition is_abs (p : str) : bool := has_prefix p [slash].
Definition file_path (rooted : bool) (es : list str) : str :=
  if rooted then slash :: join slash es else match es with [] => [dot] | _ => join slash es end.
