(** The documented types of keys, how the files are read, and what happens to an
    authority. *)
From Verif Require Import Base AuthorityModel.
Open Scope Z_scope.

(** ** Types of keys *)

(** The documentation of keyType for PKI (config.go:566-568). *)
Definition documented : list (str * alg) :=
  [(lit "ecdsa-p224", EC 224); (lit "ecdsa-p256", EC 256); (lit "ecdsa-p384", EC 384); (lit "ecdsa-p521", EC 521);
   (lit "ed25519", Ed25519); (lit "rsa-2048", RSA 2048); (lit "rsa-3072", RSA 3072); (lit "rsa-4096", RSA 4096)].
(** The one for SSH authorities has the same, without ecdsa-p224 (config.go:593-595). *)
Definition documented_ssh : list (str * alg) := filter (fun x => negb (str_eqb (fst x) (lit "ecdsa-p224"))) documented.
(** There is one more that is not documented. *)
Definition known_types (doc : list (str * alg)) : list (str * alg) := doc ++ [(lit "rsa-8192", RSA 8192)].

(** The type of the configuration; it is ecdsa-p256 when nothing is said. *)
Definition wanted (o : opts) : str := match o_type o with [] => lit "ecdsa-p256" | t => t end.

(** The type is written as in the documentation, and a TPM, if there is one, can make the key;
    no TPM makes Ed25519 keys. *)
Definition as_documented (o : opts) : Prop :=
  exists a, In (wanted o, a) documented /\ match o_tpm o with None => True | Some can => a <> Ed25519 /\ can a = true end.

(** ** Histories *)

(** An authority that was started on an empty store, and what happened to it then. *)
Definition history (o : opts) (t0 : Z) (raw : str) (l : list op) (m : manager) (out : list (opts * op * bool)) : Prop :=
  exists d, new o t0 raw empty_db = Some d /\ run {| m_opts := o; m_db := d |} l = (m, out).
(** The options of all the configurations. *)
Definition options (o : opts) (l : list op) : list opts :=
  o :: flat_map (fun p => match p with Restart o _ _ => [o] | _ => [] end) l.
Definition issued (m : manager) : nat := List.length (d_issued (m_db m)).
(** The times of the requests that made the authority issue a certificate. *)
Fixpoint growth (m : manager) (l : list op) : list Z :=
  match l with
  | [] => []
  | p :: l =>
      let m' := fst (step m p) in
      (match p with Ask t _ _ => if Nat.eqb (issued m') (issued m) then [] else [t] | _ => [] end) ++ growth m' l
  end.
(** Any two of these times, one after the other, are at least this far apart. *)
Fixpoint apart (gap : Z) (l : list Z) : Prop :=
  match l with
  | [] => True
  | t :: r => match r with [] => True | u :: _ => t + gap <= u end /\ apart gap r
  end.

(** ** Files *)

(** DER (X.690): a sequence has the byte 0x30, its length, and then this number of bytes.
    The length is one byte below 128, or 128 plus the number of the bytes that have it. *)
Fixpoint number (s : str) (acc : nat) : nat :=
  match s with [] => acc | c :: r => number r (acc * 256 + nat_of_ascii c)%nat end.
Definition take (n : nat) (s : str) : option (str * str) :=
  if (List.length s <? n)%nat then None else Some (firstn n s, skipn n s).
(** The first element of a file, and the rest. *)
Definition der_element (s : str) : option (str * str) :=
  match s with
  | tag :: len :: r =>
      if negb (nat_of_ascii tag =? 48)%nat then None
      else
        let n := nat_of_ascii len in
        if (n <? 128)%nat then
          match take n r with Some (a, b) => Some (tag :: len :: a, b) | None => None end
        else
          match take (n - 128) r with
          | None => None
          | Some (l, r2) => match take (number l 0) r2 with Some (a, b) => Some (tag :: len :: l ++ a, b) | None => None end
          end
  | _ => None
  end.
(** A file with one certificate is one element and nothing else (x509.ParseCertificate,
    RFC 2585). *)
Definition one_certificate (s : str) : Prop := der_element s = Some (s, []).

(** PEM (RFC 7468): a line that begins the block, lines of base64, a line that ends it. *)
Definition alphabet : str := lit "ABCDEFGHIJKLMNOPQRSTUVWXYZabcdefghijklmnopqrstuvwxyz0123456789+/".
Fixpoint index (c : ascii) (l : str) (i : N) : option N :=
  match l with [] => None | x :: r => if Ascii.eqb c x then Some i else index c r (i + 1)%N end.
(** Four characters are three bytes; the last ones may be = signs. *)
Fixpoint unbase64 (s : str) : option str :=
  match s with
  | [] => Some []
  | a :: b :: c :: d :: r =>
      match index a alphabet 0, index b alphabet 0 with
      | Some x, Some y =>
          let b1 := ascii_of_N (x * 4 + y / 16) in
          if Ascii.eqb c "=" then
            if Ascii.eqb d "=" then match r with [] => Some [b1] | _ => None end else None
          else match index c alphabet 0 with
               | None => None
               | Some z =>
                   let b2 := ascii_of_N ((y mod 16) * 16 + z / 4) in
                   if Ascii.eqb d "=" then match r with [] => Some [b1; b2] | _ => None end
                   else match index d alphabet 0 with
                        | None => None
                        | Some w =>
                            let b3 := ascii_of_N ((z mod 4) * 64 + w) in
                            option_map (fun t => b1 :: b2 :: b3 :: t) (unbase64 r)
                        end
               end
      | _, _ => None
      end
  | _ => None
  end.
(** The blocks of a file, given as lines.  [cur]: the text of the block so far, inside one. *)
Fixpoint blocks (cur : option str) (l : list str) : option (list str) :=
  match l with
  | [] => match cur with None => Some [] | Some _ => None end
  | x :: l =>
      match cur with
      | None =>
          if str_eqb x [] then blocks None l
          else if str_eqb x (lit "-----BEGIN CERTIFICATE-----") then blocks (Some []) l else None
      | Some s =>
          if str_eqb x (lit "-----END CERTIFICATE-----") then
            match unbase64 s, blocks None l with Some b, Some r => Some (b :: r) | _, _ => None end
          else blocks (Some (s ++ x)) l
      end
  end.
Definition read_pem (s : str) : option (list str) := blocks None (split_on "010" s).
(** What x509.CreateCertificate returned in a history was always one certificate. *)
Definition raw_of (p : op) : str := match p with Ask _ raw _ => raw | Restart _ _ raw => raw end.
Definition proper (raw : str) (l : list op) : Prop := one_certificate raw /\ Forall (fun p => one_certificate (raw_of p)) l.
