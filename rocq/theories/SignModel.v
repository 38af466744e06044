(** Signatures of passkeys and the encoding of bytes: internal/passkeys/webauthn.go. *)
From Verif Require Import Base ProxyHdrModel PasskeyModel.
Open Scope list_scope.
Open Scope Z_scope.

(** ** Bytes in JSON *)

(** fmt.Sprintf("%d", b) *)
Definition sprintf_d (b : str) : str := lit "[" ++ join " " (map (fun c => dec (N_of_ascii c)) b) ++ lit "]".
(** strings.Fields; the only white space that can occur is the space *)
Definition fields (s : str) : list str := filter (fun p => negb (str_eqb p [])) (split_on " " s).
(** webauthn.go:55-60 Bytes.MarshalJSON; [None]: nil *)
Definition marshal_bytes (b : option str) : str :=
  match b with
  | None => lit "null"
  | Some b => join "," (fields (sprintf_d b))
  end.

(** ** Signatures *)

(** A value in a CBOR map. *)
Inductive citem := CInt (n : Z) | CBytes (s : str) | COther.

(** The library functions used: the CBOR decoder for maps with integer labels, SHA-256,
    points on P-256, ECDSA and RSA PKCS1 v1.5 signatures of a hash. *)
Record slib := {
  sl_decode : str -> option (list (Z * citem));
  sl_sha : str -> str;
  sl_on_curve : N -> N -> bool;
  sl_ecdsa : N -> N -> str -> str -> bool;
  sl_rsa : N -> Z -> str -> str -> bool
}.

(** Artefact: the value with a label. *)
Fixpoint label (k : Z) (l : list (Z * citem)) : option citem :=
  match l with
  | [] => None
  | (k', v) :: l' => if k =? k' then Some v else label k l'
  end.
(** cbor.Unmarshal into an int field: zero if there is no such label, an error if it is
    something else. *)
Definition int_field (k : Z) (l : list (Z * citem)) : option Z :=
  match label k l with None => Some 0 | Some (CInt n) => Some n | Some _ => None end.
(** cbor.Unmarshal into a []byte field. *)
Definition bytes_field (k : Z) (l : list (Z * citem)) : option str :=
  match label k l with None => Some [] | Some (CBytes s) => Some s | Some _ => None end.

(** big.Int SetBytes *)
Definition set_bytes (b : str) : N := fold_left (fun n x => (n * 256 + N_of_ascii x)%N) b 0%N.

(** webauthn.go:277-283 signedBytes *)
Definition signed_bytes (lib : slib) (adata cdata : str) : str := adata ++ sl_sha lib cdata.

(** webauthn.go:286-350 verifySignature *)
Definition verify_signature (lib : slib) (key adata cdata sig : str) : bool :=
  let hashed := sl_sha lib (signed_bytes lib adata cdata) in
  match sl_decode lib key with
  | None => false
  | Some l =>
      match int_field 1 l with
      | Some 2 =>
          match int_field 3 l, int_field (-1) l, bytes_field (-2) l, bytes_field (-3) l with
          | Some alg, Some crv, Some x, Some y =>
              if negb (alg =? -7) then false
              else if negb (crv =? 1) then false
              else if negb (sl_on_curve lib (set_bytes x) (set_bytes y)) then false
              else sl_ecdsa lib (set_bytes x) (set_bytes y) hashed sig
          | _, _, _, _ => false
          end
      | Some 3 =>
          match int_field 3 l, bytes_field (-1) l, int_field (-2) l with
          | Some alg, Some n, Some e =>
              if negb (alg =? -257) then false else sl_rsa lib (set_bytes n) e hashed sig
          | _, _, _ => false
          end
      | _ => false
      end
  end.

(** Artefact: the passkey manager with this check of signatures. *)
Definition with_signatures (lib : slib) (e : env) : env :=
  {| e_client_data := e_client_data e; e_attestation := e_attestation e; e_cbor := e_cbor e; e_verify := verify_signature lib;
     e_hash := e_hash e; e_hostname := e_hostname e; e_acl := e_acl e; e_refresh := e_refresh e |}.
