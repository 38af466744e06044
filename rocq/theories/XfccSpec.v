(** How a recipient reads the header: key=value pairs separated by semicolons; a value
    may be enclosed in double quotes, and a backslash makes the next character a
    literal one. *)
From Verif Require Import Base XfccModel.

Inductive state :=
| InKey (key : str)                            (* reversed *)
| Start (key : str)
| Bare (key val : str) (esc : bool)            (* val reversed *)
| Quoted (key val : str) (esc : bool)
| Closed (key val : str).

Fixpoint read (st : state) (s : str) : option (list (str * str)) :=
  match s with
  | [] =>
      match st with
      | InKey [] => Some []
      | InKey _ => None
      | Start k => Some [(k, [])]
      | Bare k v false => Some [(k, rev v)]
      | Closed k v => Some [(k, rev v)]
      | _ => None
      end
  | c :: r =>
      let next k v := match r with [] => None | _ => option_map (cons (k, rev v)) (read (InKey []) r) end in
      match st with
      | InKey k => if Ascii.eqb c equal then read (Start (rev k)) r
                   else if special c || Ascii.eqb c quote || Ascii.eqb c bslash then None else read (InKey (c :: k)) r
      | Start k => if Ascii.eqb c quote then read (Quoted k [] false) r
                   else if Ascii.eqb c semi then next k []
                   else if Ascii.eqb c bslash then read (Bare k [] true) r
                   else if special c then None else read (Bare k [c] false) r
      | Bare k v true => read (Bare k (c :: v) false) r
      | Bare k v false => if Ascii.eqb c semi then next k v
                          else if Ascii.eqb c bslash then read (Bare k v true) r
                          else if special c || Ascii.eqb c quote then None else read (Bare k (c :: v) false) r
      | Quoted k v true => read (Quoted k (c :: v) false) r
      | Quoted k v false => if Ascii.eqb c quote then read (Closed k v) r
                            else if Ascii.eqb c bslash then read (Quoted k v true) r else read (Quoted k (c :: v) false) r
      | Closed k v => if Ascii.eqb c semi then next k v else None
      end
  end.
Definition read_header (s : str) : option (list (str * str)) := read (InKey []) s.

(** What the header is to say: for every configured name, in order, its fields. *)
Section Hash.
Variable sha256 : str -> str.
Definition says (p : peer) (which : str) : list (str * str) :=
  let f := to_lower which in
  if str_eqb f (lit "cert") then [(lit "Cert", query_escape (pem (c_raw (p_leaf p))))]
  else if str_eqb f (lit "chain") then map (fun ch => (lit "Chain", query_escape (List.concat (map (fun c => pem (c_raw c)) ch)))) (p_chains p)
  else if str_eqb f (lit "hash") then [(lit "Hash", hex (sha256 (c_raw (p_leaf p))))]
  else if str_eqb f (lit "subject") then [(lit "Subject", "/"%char :: join "/" (map rdn_string (rev (c_subject (p_leaf p)))))]
  else if str_eqb f (lit "uri") then map (fun u => (lit "URI", query_escape u)) (c_uris (p_leaf p))
  else if str_eqb f (lit "dns") then map (fun n => (lit "DNS", query_escape n)) (c_dns (p_leaf p))
  else [].
End Hash.

(** Undoing QueryEscape. *)
Definition hex_value (c : ascii) : N :=
  let n := N_of_ascii c in
  (if (48 <=? n) && (n <=? 57) then n - 48 else if (65 <=? n) && (n <=? 70) then n - 55 else n - 87)%N.
Fixpoint query_unescape (s : str) : str :=
  match s with
  | [] => []
  | c :: r =>
      if Ascii.eqb c "%" then
        match r with
        | h :: l :: r' => ascii_of_N (16 * hex_value h + hex_value l) :: query_unescape r'
        | _ => []
        end
      else (if Ascii.eqb c plus then " "%char else c) :: query_unescape r
  end.

(** A subject that X.509 libraries produce: no empty relative name, type names are
    words. *)
Definition word (s : str) : Prop := s <> [] /\ forall c, In c s -> unreserved c = true.
Definition attribute_ok (a : attribute) : Prop := match a with Known n _ => word n | Unknown o _ => word o end.
Definition subject_ok (rdns : list rdn) : Prop := forall r, In r rdns -> r <> [] /\ Forall attribute_ok r.

(** No slash in the values of a subject's attributes. *)
Definition slashless (a : attribute) : Prop := match a with Known _ v => ~ In "/"%char v | Unknown _ _ => True end.
