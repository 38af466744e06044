(** Specification for signatures of passkeys. *)
From Verif Require Import Base ProxyHdrModel PasskeyModel PasskeySpec SignModel.
Open Scope list_scope.
Open Scope Z_scope.

(** A JSON array of the bytes, as numbers. *)
Definition json_array (b : str) : str := lit "[" ++ join "," (map (fun c => dec (N_of_ascii c)) b) ++ lit "]".

(** The text is the COSE form of an ES256 key: a point on P-256. *)
Definition es256 (lib : slib) (key : str) (x y : N) : Prop :=
  exists l xb yb, sl_decode lib key = Some l /\ label 1 l = Some (CInt 2) /\ label 3 l = Some (CInt (-7)) /\ label (-1) l = Some (CInt 1) /\
    bytes_field (-2) l = Some xb /\ bytes_field (-3) l = Some yb /\ x = big_endian xb /\ y = big_endian yb /\ sl_on_curve lib x y = true.
(** The text is the COSE form of an RS256 key. *)
Definition rs256 (lib : slib) (key : str) (n : N) (e : Z) : Prop :=
  exists l nb, sl_decode lib key = Some l /\ label 1 l = Some (CInt 3) /\ label 3 l = Some (CInt (-257)) /\
    bytes_field (-1) l = Some nb /\ int_field (-2) l = Some e /\ n = big_endian nb.
Definition supported (lib : slib) (key : str) : Prop := (exists x y, es256 lib key x y) \/ (exists n e, rs256 lib key n e).

(** SHA-256 without collisions among the texts that anybody ever had. *)
Definition good_hash (lib : slib) (known : str -> Prop) : Prop :=
  (forall s, List.length (sl_sha lib s) = 32%nat) /\ forall s t, known s -> known t -> sl_sha lib s = sl_sha lib t -> s = t.
(** Nobody but the holder makes signatures: a signature that verifies is of something
    that the holder of the key was asked to sign, authenticator data and client data. *)
Definition unforgeable (lib : slib) (known : str -> Prop) (signs : str -> str -> str -> Prop) : Prop :=
  (forall key adata cdata, signs key adata cdata -> known cdata /\ known (adata ++ sl_sha lib cdata)) /\
  (forall key x y h sig, es256 lib key x y -> sl_ecdsa lib x y h sig = true ->
     exists adata cdata, signs key adata cdata /\ h = sl_sha lib (adata ++ sl_sha lib cdata)) /\
  (forall key n e h sig, rs256 lib key n e -> sl_rsa lib n e h sig = true ->
     exists adata cdata, signs key adata cdata /\ h = sl_sha lib (adata ++ sl_sha lib cdata)).
