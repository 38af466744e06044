(** Keys that are made in the browser: the form of the certificate page (certs.js), the
    service worker (sw.js) and the code that runs in it (clientwasm/main.go and
    clientwasm/impl/impl.go).  The file names are those under proxy/internal/pki.

    Private keys stand for themselves by their public half; encryption and the encoding of
    files are left out: a file is kept as what is in it and the password that opens it. *)
From Verif Require Import Base XfccModel OcspGetModel AuthorityModel.
From Verif Require PkiModel PkiWebModel.
Open Scope nat_scope.

(** *** Forms *)

(** net/url QueryUnescape (standard library). *)
Fixpoint query_unescape (s : str) : option str :=
  match s with
  | [] => Some []
  | c :: r =>
      if Ascii.eqb c "%" then
        match r with
        | a :: b :: r' => match hex_val a, hex_val b, query_unescape r' with
                          | Some x, Some y, Some t => Some (ascii_of_N (16 * x + y) :: t)
                          | _, _, _ => None
                          end
        | _ => None
        end
      else match query_unescape r with
           | Some t => Some ((if Ascii.eqb c "+" then " "%char else c) :: t)
           | None => None
           end
  end.

(** net/url parseQuery (standard library), one piece: [None] is an error. *)
Definition parse_pair (piece : str) : option (list (str * str)) :=
  if has_char ";" piece then None
  else if str_eqb piece [] then Some []
  else
    let '(k, v, _) := cut "=" piece in
    match query_unescape k, query_unescape v with
    | Some k, Some v => Some [(k, v)]
    | _, _ => None
    end.
(** Artefact: all the pieces, or the error. *)
Fixpoint parse_pairs (pieces : list str) : option (list (str * str)) :=
  match pieces with
  | [] => Some []
  | p :: r => match parse_pair p, parse_pairs r with Some a, Some b => Some (a ++ b) | _, _ => None end
  end.
(** net/url ParseQuery (standard library), for a caller that stops at an error. *)
Definition parse_query (s : str) : option (list (str * str)) := parse_pairs (split_on "&" s).
(** net/url Values.Get (standard library). *)
Definition value (f : list (str * str)) (k : str) : str := match assoc k f with Some v => v | None => [] end.

(** The browser (URL standard, application/x-www-form-urlencoded serializing), one byte. *)
Definition form_byte (c : ascii) : str :=
  let n := N_of_ascii c in
  if ((48 <=? n) && (n <=? 57) || (65 <=? n) && (n <=? 90) || (97 <=? n) && (n <=? 122))%N || has_char c (lit "*-._") then [c]
  else if Ascii.eqb c " " then lit "+"
  else ["%"%char; XfccModel.hex_digit true (n / 16); XfccModel.hex_digit true (n mod 16)].
(** The browser, a name or a value. *)
Definition form_text (s : str) : str := List.concat (map form_byte s).
(** The browser: the body of the request when the form is submitted. *)
Definition form_body (fields : list (str * str)) : str :=
  join "&" (map (fun kv => form_text (fst kv) ++ "="%char :: form_text (snd kv)) fields).

(** proxy/internal/pki/certs.js:94-148 generateKeyAndCert: the fields of the form that is submitted.
    Simplified: the length of the password is counted in bytes, and the service worker is
    there. *)
Definition page_form (pw1 pw2 format keytype label dns : str) : option (list (str * str)) :=
  if (List.length pw1 <? 6) || negb (str_eqb pw1 pw2) then None
  else Some [(lit "password", pw1); (lit "format", format); (lit "keytype", keytype); (lit "label", label); (lit "dnsname", dns)].

(** *** The code that makes keys *)

(** Artefact: a key pair. *)
Record key := { k_alg : alg; k_pub : str }.
(** proxy/internal/pki/clientwasm/impl/impl.go:48-52 keyData *)
Record data := { kd_key : key; kd_format : str; kd_password : str }.

(** Artefact: a Go map from int. *)
Fixpoint get {A : Type} (i : nat) (l : list (nat * A)) : option A :=
  match l with [] => None | (j, x) :: l => if i =? j then Some x else get i l end.
(** Artefact: delete from it. *)
Definition del {A : Type} (i : nat) (l : list (nat * A)) : list (nat * A) := filter (fun x => negb (i =? fst x)) l.
(** Artefact: store in it. *)
Definition put {A : Type} (i : nat) (x : A) (l : list (nat * A)) : list (nat * A) := (i, x) :: del i l.

(** unicode.IsSpace (standard library).  Simplified: the spaces of ASCII. *)
Definition space (c : ascii) : bool := let n := N_of_ascii c in ((9 <=? n) && (n <=? 13) || (n =? 32))%N.
(** strings.Fields (standard library); [w] is the word so far. *)
Fixpoint fields_from (w s : str) : list str :=
  match s with
  | [] => match w with [] => [] | _ => [w] end
  | c :: r => if space c then match w with [] => fields_from [] r | _ => w :: fields_from [] r end
              else fields_from (w ++ [c]) r
  end.
(** proxy/internal/pki/clientwasm/impl/impl.go:71-73: the DNS names. *)
Definition names_of (dns : str) : list str := fields_from [] (map (fun c => if Ascii.eqb c "," then " "%char else c) dns).
(** crypto/x509 isIA5String (standard library). *)
Definition ia5 (s : str) : bool := forallb (fun c => (N_of_ascii c <? 128)%N) s.

(** proxy/internal/pki/clientwasm/main.go:58-89 makeCSR and proxy/internal/pki/clientwasm/impl/impl.go:54-79 MakeCSR; [pub] is the
    public half of the key that is generated.  [None]: undefined.  Simplified: the label can
    be encoded. *)
Definition make_csr (ks : list (nat * data)) (id : nat) (body pub : str) : list (nat * data) * option PkiModel.csr :=
  match parse_query body with
  | None => (ks, None)
  | Some f =>
      let keytype := if str_eqb (value f (lit "keytype")) [] then lit "ecdsa-p256" else value f (lit "keytype") in
      let format := if str_eqb (value f (lit "format")) [] then lit "gpg" else value f (lit "format") in
      let password := value f (lit "password") in
      if str_eqb password [] then (ks, None)
      else match generate_key keytype with
           | None => (ks, None)
           | Some a =>
               let ks := put id {| kd_key := {| k_alg := a; k_pub := pub |}; kd_format := format; kd_password := password |} ks in
               let names := names_of (value f (lit "dnsname")) in
               if forallb ia5 names then
                 (ks, Some {| PkiModel.cs_pub := pub; PkiModel.cs_cn := value f (lit "label"); PkiModel.cs_emails := [];
                              PkiModel.cs_dns := names; PkiModel.cs_ips := []; PkiModel.cs_uris := [] |})
               else (ks, None)
           end
  end.

(** Artefact: what the server sends back.  [rp_ok]: status 200, JSON, and the result is ok;
    [rp_text]: the text of the certificate; [rp_cert]: the certificate in it. *)
Record reply := { rp_ok : bool; rp_text : str; rp_cert : option PkiModel.xcert }.
(** Artefact: the content of a file. *)
Inductive content :=
| Gpg (k : key) (text : str)
| P12 (k : key) (c : PkiModel.xcert).
(** Artefact: the file that is downloaded, and what opens it. *)
Record download := { dl_password : str; dl_content : content; dl_type : str; dl_name : str }.

(** proxy/internal/pki/clientwasm/impl/impl.go:81-129 MakeResponse and
    proxy/internal/pki/clientwasm/main.go:91-116 makeResponse.  Simplified: the encoders do not fail. *)
Definition make_response (ks : list (nat * data)) (id : nat) (rp : reply) : list (nat * data) * option download :=
  match rp_cert rp with
  | None => (ks, None)
  | Some c =>
      let sn := XfccModel.hex (PkiModel.big_bytes (PkiModel.xc_serial c)) in
      match get id ks with
      | None => (ks, None)
      | Some d =>
          let ks := del id ks in
          if str_eqb (kd_format d) (lit "gpg") then
            (ks, Some {| dl_password := kd_password d; dl_content := Gpg (kd_key d) (rp_text rp);
                         dl_type := lit "application/octet-stream"; dl_name := sn ++ lit ".pem.gpg" |})
          else if str_eqb (kd_format d) (lit "p12") then
            (ks, Some {| dl_password := kd_password d; dl_content := P12 (kd_key d) c;
                         dl_type := lit "application/x-pkcs12"; dl_name := sn ++ lit ".p12" |})
          else (ks, None)
      end
  end.

(** *** The service worker *)

(** proxy/internal/pki/sw.js:52-88: where a request is, with its number. *)
Inductive stage := Reading (n : nat) | Waiting (n : nat).
(** proxy/internal/pki/sw.js:51 keyCount and proxy/internal/pki/clientwasm/impl/impl.go:45 privateKeys; the requests in progress. *)
Record worker := { w_count : nat; w_keys : list (nat * data); w_reqs : list (nat * stage) }.
(** Artefact: a worker that was just started. *)
Definition start : worker := {| w_count := 0; w_keys := []; w_reqs := [] |}.

(** Artefact: what happens to a request, and the end of the worker. *)
Inductive event :=
| Post (r : nat)                          (* the form is submitted *)
| Body (r : nat) (body pub : str)         (* the body is read; the key that is made *)
| Reply (r : nat) (rp : reply)            (* the answer of the server *)
| Killed.                                 (* the browser stops the worker and starts it again *)
(** Artefact: what is seen of it. *)
Inductive note :=
| Quiet
| Sent (body : option PkiModel.csr)       (* the request to the server *)
| Got (d : option download).              (* the answer to the page; None is an error *)

(** proxy/internal/pki/sw.js:44-88, one step; [None] when it cannot happen. *)
Definition step (w : worker) (e : event) : option (worker * note) :=
  match e with
  | Post r =>
      match get r (w_reqs w) with
      | Some _ => None
      | None =>
          let n := S (w_count w) in
          Some ({| w_count := n; w_keys := w_keys w; w_reqs := put r (Reading n) (w_reqs w) |}, Quiet)
      end
  | Body r body pub =>
      match get r (w_reqs w) with
      | Some (Reading n) =>
          let '(ks, c) := make_csr (w_keys w) n body pub in
          Some ({| w_count := w_count w; w_keys := ks; w_reqs := put r (Waiting n) (w_reqs w) |}, Sent c)
      | _ => None
      end
  | Reply r rp =>
      match get r (w_reqs w) with
      | Some (Waiting n) =>
          if rp_ok rp then
            let '(ks, d) := make_response (w_keys w) n rp in
            Some ({| w_count := w_count w; w_keys := ks; w_reqs := del r (w_reqs w) |}, Got d)
          else Some ({| w_count := w_count w; w_keys := w_keys w; w_reqs := del r (w_reqs w) |}, Got None)
      | _ => None
      end
  | Killed => Some (start, Quiet)
  end.
(** Artefact: a history. *)
Fixpoint run (w : worker) (h : list event) : option (worker * list note) :=
  match h with
  | [] => Some (w, [])
  | e :: h =>
      match step w e with
      | None => None
      | Some (w, x) => match run w h with Some (w, out) => Some (w, x :: out) | None => None end
      end
  end.
