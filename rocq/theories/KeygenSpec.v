(** What a user sees of the keys that are made in the browser. *)
From Verif Require Import Base AuthorityModel KeygenModel.
From Verif Require PkiModel PkiWebModel.
Open Scope nat_scope.

(** The formats and the types of keys that the page offers (proxy/internal/pki/certs.html:90-103). *)
Definition page_formats : list str := [lit "gpg"; lit "p12"].
Definition page_types : list (str * alg) :=
  [(lit "ecdsa-p224", EC 224); (lit "ecdsa-p256", EC 256); (lit "ecdsa-p384", EC 384); (lit "ecdsa-p521", EC 521);
   (lit "ed25519", Ed25519); (lit "rsa-2048", RSA 2048); (lit "rsa-3072", RSA 3072); (lit "rsa-4096", RSA 4096)].

(** Names are separated by commas and white space. *)
Definition separator (c : ascii) : Prop :=
  In c [","%char; " "%char; ascii_of_N 9; ascii_of_N 10; ascii_of_N 11; ascii_of_N 12; ascii_of_N 13].
(** [l] are the names in [s]. *)
Inductive listed : str -> list str -> Prop :=
| listed_none : forall s, Forall separator s -> listed s []
| listed_more : forall a w s l,
    Forall separator a -> w <> [] -> Forall (fun c => ~ separator c) w ->
    (s = [] \/ exists c s', s = c :: s' /\ separator c) ->
    listed s l -> listed (a ++ w ++ s) (w :: l).

(** The events of other requests; the browser does not stop the worker. *)
Definition of_others (r : nat) (e : event) : Prop :=
  match e with Post r' | Body r' _ _ | Reply r' _ => r' <> r | Killed => False end.

(** The file for a key, with its name and type. *)
Definition file_for (format : str) (k : key) (rp : reply) (c : PkiModel.xcert) (password : str) (d : download) : Prop :=
  let sn := PkiWebModel.without_colons (PkiModel.serial_hex (PkiModel.xc_serial c)) in
  dl_password d = password /\
  ((format = lit "gpg" /\ dl_content d = Gpg k (rp_text rp) /\ dl_type d = lit "application/octet-stream" /\ dl_name d = sn ++ lit ".pem.gpg") \/
   (format = lit "p12" /\ dl_content d = P12 k c /\ dl_type d = lit "application/x-pkcs12" /\ dl_name d = sn ++ lit ".p12")).

(** Two forms that differ in the password only. *)
Definition differ_in_password (b b' : str) : Prop :=
  exists f f', parse_query b = Some f /\ parse_query b' = Some f' /\
    value f (lit "password") <> [] /\ value f' (lit "password") <> [] /\
    forall k, k <> lit "password" -> value f k = value f' k.
(** Two histories that differ in passwords only. *)
Definition same_but_passwords : list event -> list event -> Prop :=
  Forall2 (fun e e' => e = e' \/ exists r b b' pub, e = Body r b pub /\ e' = Body r b' pub /\ differ_in_password b b').
(** What is sent to the server. *)
Definition sent (out : list note) : list (option PkiModel.csr) :=
  List.concat (map (fun x => match x with Sent c => [c] | _ => [] end) out).

(** Every answer of the server is a certificate. *)
Definition all_granted (h : list event) : Prop :=
  forall r rp, In (Reply r rp) h -> rp_ok rp = true /\ rp_cert rp <> None.
