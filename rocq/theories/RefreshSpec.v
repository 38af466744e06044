(** What browsers do with a redirect. *)
From Verif Require Import Base PathModel PathSpec HttpModel RefreshModel.

(** The URL standard: both slashes count, two of them start the name of a host, more of them
    are skipped, and the name ends with the next slash, ? or #. *)
Definition any_slash (c : ascii) : bool := Ascii.eqb c slash || Ascii.eqb c backslash.
Fixpoint skip_slashes (s : str) : str := match s with c :: r => if any_slash c then skip_slashes r else s | [] => [] end.
Fixpoint name_part (s : str) : str :=
  match s with [] => [] | c :: r => if any_slash c || Ascii.eqb c question || Ascii.eqb c "#" then [] else c :: name_part r end.
(** The host of the next request, for a Location without scheme received from [host]. *)
Definition next_host (host loc : str) : str :=
  match loc with
  | a :: b :: r => if any_slash a && any_slash b then name_part (skip_slashes r) else host
  | _ => host
  end.
(** The Fetch standard and RFC 9110, section 15.4: the method of the next request. *)
Definition next_method (status : N) (method : str) : str :=
  if ((status =? 301) || (status =? 302))%N && str_eqb method (lit "POST") then lit "GET"
  else if (status =? 303)%N && negb (str_eqb method (lit "GET") || str_eqb method (lit "HEAD")) then lit "GET"
  else method.
(** The page that a Location (or the target of a request) names: its path, decoded, and its
    query. *)
Definition page (loc : str) : option (str * str) :=
  let '(p, q, _) := cut question loc in option_map (fun d => (d, q)) (percent_decode p).

Definition ascii_only (s : str) : Prop := forall c, In c s -> (N_of_ascii c < 128)%N.
(** A path that names something on its own: no empty, "." or ".." elements. *)
Definition tidy (p : str) : Prop := clean_request_path p = p.

(** The characters that RFC 3986 allows in a path, the slash, the per cent sign and brackets. *)
Definition url_char (c : ascii) : bool :=
  has_char c (lit "abcdefghijklmnopqrstuvwxyzABCDEFGHIJKLMNOPQRSTUVWXYZ0123456789-._~!$&'()*+,;=:@/%[]").
(** Bytes above 127 written as % and two digits. *)
Definition digit_at (k : N) : ascii := nth (N.to_nat k) (lit "0123456789abcdef") "?"%char.
Definition ascii_form (s : str) : str :=
  flat_map (fun c => let n := N_of_ascii c in if (128 <=? n)%N then ["%"%char; digit_at (n / 16); digit_at (n mod 16)] else [c]) s.
