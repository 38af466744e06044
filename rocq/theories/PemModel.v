(** PEM files, and what the program keeps in them: the root of the certificate manager for
    tests (certmanager/certmanager.go) and the certificates of autocert (proxy/revoke.go). *)
From Coq Require Import ZArith.
From Verif Require Import Base XfccModel.
Local Open Scope nat_scope.

(** encoding/pem pemStart, without the newline *)
Definition begin_mark : str := lit "-----BEGIN ".
(** encoding/pem pemEnd, without the newline *)
Definition end_mark : str := lit "-----END ".
(** encoding/pem pemEndOfLine *)
Definition dashes : str := lit "-----".

(** encoding/pem Encode, for a block without headers *)
Definition pem_encode (ty bytes : str) : str :=
  begin_mark ++ ty ++ dashes ++ newline :: lines 64 (base64 bytes) ++ end_mark ++ ty ++ dashes ++ [newline].

(** encoding/pem: a space or a tab *)
Definition blank (c : ascii) : bool := Ascii.eqb c " " || Ascii.eqb c "009".
(** bytes.TrimRight with spaces and tabs *)
Fixpoint trim_right (s : str) : str :=
  match s with
  | [] => []
  | c :: r => match trim_right r with [] => if blank c then [] else [c] | t => c :: t end
  end.
(** encoding/pem getLine: a line without its end and without trailing blanks, and what
    follows. *)
Definition get_line (s : str) : str * str :=
  let '(a, b, found) := cut newline s in
  (trim_right (if found && Ascii.eqb (last a " "%char) "013" then removelast a else a), b).

(** bytes.Cut *)
Fixpoint cut_sub (p s : str) : option (str * str) :=
  if has_prefix s p then Some ([], skipn (List.length p) s)
  else match s with
       | [] => None
       | c :: r => match cut_sub p r with Some (a, b) => Some (c :: a, b) | None => None end
       end.

(** encoding/base64: the six bits of a character *)
Definition b64_value (c : ascii) : option (bool * bool * bool * bool * bool * bool) :=
  let n := N_of_ascii c in
  match (if (65 <=? n) && (n <=? 90) then Some (n - 65) else if (97 <=? n) && (n <=? 122) then Some (n - 71)
         else if (48 <=? n) && (n <=? 57) then Some (n + 4) else if n =? 43 then Some 62 else if n =? 47 then Some 63 else None)%N with
  | Some v => match ascii_of_N v with Ascii b0 b1 b2 b3 b4 b5 _ _ => Some (b5, b4, b3, b2, b1, b0) end
  | None => None
  end.
(** encoding/base64 StdEncoding.Decode, after the ends of lines are left out: groups of four
    characters, of which the last may be padded.  Bits that are left over are not looked at. *)
Fixpoint unbase64 (s : str) : option str :=
  match s with
  | [] => Some []
  | a :: b :: c :: d :: r =>
      match b64_value a, b64_value b with
      | Some (a5, a4, a3, a2, a1, a0), Some (b5, b4, b3, b2, b1, b0) =>
          let x := Ascii b4 b5 a0 a1 a2 a3 a4 a5 in
          if Ascii.eqb c equal then
            match r with [] => if Ascii.eqb d equal then Some [x] else None | _ => None end
          else
            match b64_value c with
            | Some (c5, c4, c3, c2, c1, c0) =>
                let y := Ascii c2 c3 c4 c5 b0 b1 b2 b3 in
                if Ascii.eqb d equal then match r with [] => Some [x; y] | _ => None end
                else
                  match b64_value d, unbase64 r with
                  | Some (d5, d4, d3, d2, d1, d0), Some t => Some (x :: y :: Ascii d0 d1 d2 d3 d4 d5 c0 c1 :: t)
                  | _, _ => None
                  end
            | None => None
            end
      | _, _ => None
      end
  | _ => None
  end.
(** encoding/pem removeSpacesAndTabs, and the ends of lines that encoding/base64 leaves out *)
Definition no_space (c : ascii) : bool := negb (blank c || Ascii.eqb c newline || Ascii.eqb c "013").

(** encoding/pem Decode: the lines with a colon that follow the first one; their number and
    what follows.  [None]: the text ends there. *)
Fixpoint headers (fuel n : nat) (rest : str) : option (nat * str) :=
  match rest with
  | [] => None
  | _ =>
      let '(line, next) := get_line rest in
      if has_char ":" line then match fuel with 0 => None | S f => headers f (S n) next end
      else Some (n, rest)
  end.

(** encoding/pem Decode: the loop.  The block, with its type, and what follows. *)
Fixpoint pem_scan (fuel : nat) (rest : str) : option (str * str * str) :=
  match fuel with
  | 0 => None
  | S f =>
      match (if has_prefix rest begin_mark then Some (skipn (List.length begin_mark) rest)
             else option_map snd (cut_sub (newline :: begin_mark) rest)) with
      | None => None
      | Some rest =>
          let '(type_line, rest) := get_line rest in
          if negb (has_suffix type_line dashes) then pem_scan f rest else
          let ty := firstn (List.length type_line - List.length dashes) type_line in
          match headers (List.length rest) 0 rest with
          | None => None
          | Some (n, rest) =>
              match (if (n =? 0) && has_prefix rest end_mark then Some ([], skipn (List.length end_mark) rest)
                     else cut_sub (newline :: end_mark) rest) with
              | None => pem_scan f rest
              | Some (body, trailer) =>
                  let k := List.length ty + List.length dashes in
                  if List.length trailer <? k then pem_scan f rest
                  else if negb (has_prefix (firstn k trailer) ty) || negb (has_suffix (firstn k trailer) dashes) then pem_scan f rest
                  else if negb (str_eqb (fst (get_line (skipn k trailer))) []) then pem_scan f rest
                  else match unbase64 (filter no_space body) with
                       | None => pem_scan f rest
                       | Some bytes => Some (ty, bytes, snd (get_line trailer))
                       end
              end
          end
      end
  end.
(** encoding/pem Decode *)
Definition pem_decode (data : str) : option (str * str * str) := pem_scan (S (List.length data)) data.

(** Artefact: all blocks of a text, in order: the loop around pem.Decode (certmanager.go:151-156,
    revoke.go:216-220).  Each block is longer than nothing, so the loop ends. *)
Fixpoint blocks (fuel : nat) (b : str) : list (str * str) :=
  match fuel with
  | 0 => []
  | S f => match pem_decode b with Some (ty, bytes, rest) => (ty, bytes) :: blocks f rest | None => [] end
  end.
(** Artefact: the blocks of a file. *)
Definition all_blocks (b : str) : list (str * str) := blocks (S (List.length b)) b.

(** ** The root of the certificate manager *)

(** A certificate: its bytes, the key it is for, and when it ends. *)
Record x509 := { x_raw : str; x_key : nat; x_until : Z }.
(** crypto/x509: private keys (which are numbers here) to and from bytes, certificates from bytes.
    [l_parse_key]: ParsePKCS8PrivateKey, [None] also for keys that are not RSA keys. *)
Record lib := { l_key_der : nat -> str; l_parse_key : str -> option nat; l_parse_cert : str -> option x509 }.

(** certmanager.go:183-206 saveRootKeyAndCert: what is written *)
Definition save_root (l : lib) (k : nat) (c : x509) : str :=
  pem_encode (lit "PRIVATE KEY") (l_key_der l k) ++ pem_encode (lit "CERTIFICATE") (x_raw c).

(** certmanager.go:151-173: the loop over the blocks; the last of each type counts. *)
Fixpoint read_loop (l : lib) (bs : list (str * str)) (key : option nat) (cert : option x509)
  : option (option nat * option x509) :=
  match bs with
  | [] => Some (key, cert)
  | (ty, bytes) :: bs' =>
      if str_eqb ty (lit "PRIVATE KEY") then
        match l_parse_key l bytes with Some k => read_loop l bs' (Some k) cert | None => None end
      else if str_eqb ty (lit "CERTIFICATE") then
        match l_parse_cert l bytes with Some c => read_loop l bs' key (Some c) | None => None end
      else read_loop l bs' key cert
  end.
(** certmanager.go:143-181 readRootKeyAndCert; [None]: an error *)
Definition read_root (l : lib) (b : str) : option (nat * x509) :=
  match read_loop l (all_blocks b) None None with
  | Some (Some k, Some c) => Some (k, c)
  | _ => None
  end.

(** How os.WriteFile ends: the file cannot be opened; an error after some bytes; the program
    is killed after some bytes; or all is written. *)
Inductive write := NotOpened | Failed (n : nat) | Killed (n : nat) | Written.

(** certmanager.go:74-82, 126: when a new root ends; [keep]: there is a state file *)
Definition root_until (keep : bool) (now : Z) : Z := (now + if keep then 24 * 365 * 3600 else 3600)%Z.

(** A start of the program: the time, the root that createRootKeyAndCert (certmanager.go:113-141) would
    make, and how writing it would end. *)
Record start := { s_now : Z; s_key : nat; s_cert : x509; s_write : write }.

(** certmanager.go:65-111 New with a state file: the file afterwards, and the root that is used
    ([None]: the program was killed).  Mistakes of the random source are left out. *)
Definition cm_new (l : lib) (file : option str) (s : start) : option str * option (nat * x509) :=
  match (match file with Some b => read_root l b | None => None end) with
  | Some kc => (file, Some kc)
  | None =>
      let b := save_root l (s_key s) (s_cert s) in
      match s_write s with
      | NotOpened => (file, Some (s_key s, s_cert s))
      | Failed n => (Some (firstn n b), Some (s_key s, s_cert s))
      | Killed n => (Some (firstn n b), None)
      | Written => (Some b, Some (s_key s, s_cert s))
      end
  end.

(** Artefact: one start after the other, with the root that each uses. *)
Fixpoint starts (l : lib) (file : option str) (ss : list start) : option str * list (option (nat * x509)) :=
  match ss with
  | [] => (file, [])
  | s :: ss' =>
      let '(file', r) := cm_new l file s in
      let '(file'', rs) := starts l file' ss' in
      (file'', r :: rs)
  end.

(** certmanager.go:230-272 GetCert, after the name is in ASCII: the certificates so far, and the
    one that is used, with the moment at which it ends.  [serial]: that of a new one. *)
Definition get_cert (certs : list (str * (N * Z))) (name : str) (serial : N) (now : Z) : list (str * (N * Z)) * (N * Z) :=
  match assoc name certs with
  | Some c => (certs, c)
  | None => let c := (serial, (now + 3600)%Z) in (assoc_set name c certs, c)
  end.
(** Artefact: requests for certificates: name, serial number if one is made, time. *)
Fixpoint get_certs (certs : list (str * (N * Z))) (qs : list (str * N * Z)) : list (N * Z) :=
  match qs with
  | [] => []
  | (name, serial, now) :: qs' => let '(certs', c) := get_cert certs name serial now in c :: get_certs certs' qs'
  end.

(** ** The certificates of autocert *)

(** A crypto.Signer: a key, or a nil pointer to one, which is not the nil interface. *)
Inductive signer := Key (k : nat) | NilKey.
(** What crypto/x509 ParsePKCS8PrivateKey says: an error; a key that can sign; one that cannot. *)
Inductive parsed := Bad | Signs (k : nat) | Other.
(** revoke.go:269-283 parsePrivateKey: PKCS #8, SEC 1, PKCS #1, in this order.  [ec] and [pkcs1] are
    ParseECPrivateKey and ParsePKCS1PrivateKey; with an error, they return a nil pointer whose type
    is a crypto.Signer.  [None]: an error. *)
Definition parse_private_key (pkcs8 : str -> parsed) (ec pkcs1 : str -> option nat) (b : str) : option signer :=
  match pkcs8 b with
  | Signs k => Some (Key k)
  | Other => None
  | Bad => match ec b with
           | Some k => Some (Key k)
           | None => match pkcs1 b with Some k => Some (Key k) | None => Some NilKey end
           end
  end.

(** strings.Contains *)
Definition contains (s p : str) : bool := match cut_sub p s with Some _ => true | None => false end.

(** revoke.go:216-231: the loop over the blocks of one entry; [parse]: parsePrivateKey.
    [None]: the key cannot be parsed. *)
Fixpoint entry_loop (parse : str -> option signer) (bs : list (str * str)) (key : option signer) (certs : list str)
  : option (option signer * list str) :=
  match bs with
  | [] => Some (key, certs)
  | (ty, bytes) :: bs' =>
      match (if contains ty (lit "PRIVATE KEY") then match parse bytes with Some k => Some (Some k) | None => None end else Some key) with
      | None => None
      | Some key' => entry_loop parse bs' key' (if str_eqb ty (lit "CERTIFICATE") then certs ++ [bytes] else certs)
      end
  end.
(** revoke.go:209-250: one entry of the cache; the key, the chain and the leaf, or nothing *)
Definition acme_entry (parse : str -> option signer) (parse_cert : str -> option x509) (data : str) : option (signer * list str * x509) :=
  match entry_loop parse (all_blocks data) None [] with
  | Some (Some k, c :: cs) => match parse_cert c with Some leaf => Some (k, c :: cs, leaf) | None => None end
  | _ => None
  end.
(** revoke.go:175-188 acmeAccountKey, the data in the cache *)
Definition account_key (parse : str -> option signer) (data : str) : option signer :=
  match pem_decode data with Some (_, bytes, _) => parse bytes | None => None end.

(** What comes of revoking a list of certificates. *)
Inductive revoked := Deleted | Error | Panic.
(** revoke.go:91-102, 153-163: the certificates one by one, with what the server says.  The key of a
    certificate is used to sign (acme.Client.RevokeCert), which reads a nil pointer if there is none.
    The result and how many requests the server got. *)
Fixpoint revoke_loop (now : Z) (es : list (signer * x509 * bool)) (n : nat) : revoked * nat :=
  match es with
  | [] => (Deleted, n)
  | (k, leaf, ok) :: es' =>
      if (x_until leaf <? now)%Z then revoke_loop now es' n
      else match k with
           | NilKey => (Panic, n)
           | Key _ => if ok then revoke_loop now es' (S n) else (Error, S n)
           end
  end.

(** Library autocert, Manager.cachePut: an entry *)
Definition cache_put (key_type key_der : str) (chain : list str) : str :=
  pem_encode key_type key_der ++ List.concat (map (pem_encode (lit "CERTIFICATE")) chain).
