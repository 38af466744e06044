(** Request paths: cleaning, redirects, and static files (proxy/backend-http.go). *)
From Verif Require Import Base.

(** Artefact: a character. *)
Definition slash : ascii := "/"%char.
(** Artefact: a character. *)
Definition dot : ascii := "."%char.
(** Artefact: a character. *)
Definition backslash : ascii := "\"%char.
(** Artefact: a character. *)
Definition question : ascii := "?"%char.

(** Go's path.Clean (standard library), byte by byte.  [out] is the output
    buffer, reversed; [dotdot] is the length at which ".." stops going back. *)
Definition at_end (p : str) : bool :=
  match p with [] => true | c :: _ => Ascii.eqb c slash end.

(** out.w--; for out.w > dotdot && out.index(out.w) != '/' { out.w-- } *)
Fixpoint back (dotdot : nat) (out : str) : str :=
  match out with
  | [] => []
  | b :: o => if (dotdot <? List.length o) && negb (Ascii.eqb b slash) then back dotdot o else o
  end.

(** for ; r < n && path[r] != '/'; r++ { out.append(path[r]) } *)
Fixpoint copy_elem (p : str) (out : str) : str * str :=
  match p with
  | [] => ([], out)
  | c :: p' => if Ascii.eqb c slash then (p, out) else copy_elem p' (c :: out)
  end.

(** path.Clean, the main loop; the fuel is the length of the input. *)
Fixpoint clean_loop (fuel : nat) (rooted : bool) (p out : str) (dotdot : nat) : str :=
  match fuel with
  | O => out
  | S f =>
      match p with
      | [] => out
      | c :: p1 =>
          if Ascii.eqb c slash then clean_loop f rooted p1 out dotdot
          else if Ascii.eqb c dot && at_end p1 then clean_loop f rooted p1 out dotdot
          else if Ascii.eqb c dot && match p1 with c2 :: p2 => Ascii.eqb c2 dot && at_end p2 | [] => false end then
            let p2 := tl p1 in
            if dotdot <? List.length out then clean_loop f rooted p2 (back dotdot out) dotdot
            else if negb rooted then
              let out1 := if 0 <? List.length out then slash :: out else out in
              let out2 := dot :: dot :: out1 in
              clean_loop f rooted p2 out2 (List.length out2)
            else clean_loop f rooted p2 out dotdot
          else
            let out1 := if (rooted && negb (List.length out =? 1)) || (negb rooted && negb (List.length out =? 0))
                        then slash :: out else out in
            let '(p2, out2) := copy_elem p out1 in
            clean_loop f rooted p2 out2 dotdot
      end
  end.

(** path.Clean *)
Definition path_clean (p : str) : str :=
  match p with
  | [] => [dot]
  | c :: p1 =>
      let out := if Ascii.eqb c slash
                 then clean_loop (List.length p) true p1 [slash] 1
                 else clean_loop (List.length p) false p [] 0 in
      match out with [] => [dot] | _ => rev out end
  end.

(** backend-http.go:108-120 pathClean *)
Definition pathClean (p0 : str) : str :=
  let p := if has_prefix p0 [slash] then p0 else slash :: p0 in
  let pp := path_clean p in
  let pp := if str_eqb pp [dot] then [slash] else pp in
  if negb (str_eqb pp [slash]) && has_suffix p [slash] then pp ++ [slash] else pp.

(** url.URL{Path: path, RawQuery: q}.String() (standard library): the path is
    percent-encoded.  [keep] are the bytes that are not. *)
Definition keep (c : ascii) : bool :=
  let n := N_of_ascii c in
  ((48 <=? n) && (n <=? 57) || (65 <=? n) && (n <=? 90) || (97 <=? n) && (n <=? 122))%N ||
  mem [c] (map (fun x => [x]) (lit "-_.~$&+/:=@,;")).
(** net/url upperhex *)
Definition hex_digit (n : N) : ascii := ascii_of_N (if (n <? 10)%N then 48 + n else 55 + n).
(** net/url escape, one byte, mode encodePath *)
Definition escape_char (c : ascii) : str :=
  if keep c then [c] else
  let n := N_of_ascii c in ["%"%char; hex_digit (n / 16); hex_digit (n mod 16)].
(** net/url escape, mode encodePath *)
Definition escape_path (p : str) : str := List.concat (map escape_char p).

(** backend-http.go:95-106 redirectPermanently followed by http.Redirect
    (standard library): the Location header.  http.Redirect parses the URL; when
    that succeeds it cleans the path part once more ([parsed]), keeping a final
    slash; otherwise it uses the URL unchanged.  Bytes that are not ASCII cannot
    occur in the encoded path; in the query they are encoded and never matter here. *)
Definition location (parsed : bool) (path query : str) : str :=
  let u := escape_path path ++ (match query with [] => [] | _ => question :: query end) in
  if parsed then
    let '(p, q, found) := cut question u in
    let p1 := path_clean p in
    let p2 := if has_suffix p [slash] && negb (has_suffix p1 [slash]) then p1 ++ [slash] else p1 in
    p2 ++ (if found then question :: q else [])
  else u.

(** What the file system says about a path: os.Stat and os.Open with f.Stat.
    Any function is possible: files may change at any time and be of any kind. *)
Inductive kind := Dir | Regular | Special.
(** Artefact: the file system. *)
Record fs := { stat : str -> option kind; fopen : str -> option kind }.

(** filepath.Join(a, b) on Unix, for a non-empty [a]. *)
Definition path_join (a b : str) : str :=
  match b with [] => path_clean a | _ => path_clean (a ++ slash :: b) end.

(** Artefact: the answers of serveStaticFiles (backend-http.go:122-190). *)
Inductive response :=
| NotFound | MethodNotAllowed | Forbidden
| RedirectTo (path : str)
| ServeFile (file : str).

(** backend-http.go:122-190 serveStaticFiles.  Simplified: filepath.FromSlash is
    the identity (Unix); the response headers are not modelled. *)
Definition serve_static (f : fs) (docRoot prefix method path : str) : response :=
  match docRoot with
  | [] => NotFound
  | _ =>
      if negb (str_eqb method (lit "GET") || str_eqb method (lit "HEAD")) then MethodNotAllowed else
      let cp := pathClean path in
      if negb (str_eqb cp path) then RedirectTo cp else
      let p := trim_prefix (trim_prefix cp prefix) [slash] in
      if existsb (fun pp => has_prefix pp [dot] || has_char backslash pp) (split_on slash p) then NotFound else
      let p := path_join docRoot p in
      match stat f p with
      | None => NotFound
      | Some Dir =>
          if negb (has_suffix cp [slash]) then RedirectTo (cp ++ [slash]) else
          let p := path_join p (lit "index.html") in
          match stat f p with
          | None | Some Dir => Forbidden
          | Some _ => match fopen f p with
                      | None => NotFound
                      | Some Regular => ServeFile p
                      | Some _ => Forbidden
                      end
          end
      | Some _ =>
          if has_suffix cp [slash] then RedirectTo (trim_suffix cp [slash]) else
          match fopen f p with
          | None => NotFound
          | Some Regular => ServeFile p
          | Some _ => Forbidden
          end
      end
  end.

(** backend-sso.go:347-358 pathMatches *)
Definition pathMatches (prefixes : list str) (path : str) : bool :=
  match prefixes with
  | [] => true
  | _ => let cp := pathClean path in
         existsb (fun p => has_prefix path p || has_prefix cp p) prefixes
  end.
