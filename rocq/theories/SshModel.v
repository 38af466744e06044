(** The SSH certificate authority: internal/sshca/sshca.go.

    Signatures and the encodings of keys and certificates are left out: what is signed is
    kept as a value.  Clock readings are nanoseconds. *)
From Verif Require Import Base.
Open Scope Z_scope.

(** time.Second *)
Definition second := 1000000000.
(** sshca.go:52 *)
Definition issued_lifetime := 600 * second.

(** net/url PathEscape (standard library): bytes that are kept *)
Definition path_keep (c : ascii) : bool :=
  let n := N_of_ascii c in
  ((48 <=? n) && (n <=? 57) || (65 <=? n) && (n <=? 90) || (97 <=? n) && (n <=? 122))%N || has_char c (lit "-_.~$&+=:@").
(** net/url upperhex *)
Definition upper_hex (n : N) : ascii := ascii_of_N (if (n <? 10)%N then 48 + n else 55 + n)%N.
(** net/url escape, one byte, mode encodePathSegment *)
Definition path_escape_byte (c : ascii) : str :=
  if path_keep c then [c] else let n := N_of_ascii c in ["%"%char; upper_hex (n / 16); upper_hex (n mod 16)].
(** net/url PathEscape *)
Definition path_escape (s : str) : str := List.concat (map path_escape_byte s).
(** sshca.go:96 *)
Definition ca_file (name : str) : str := lit "sshca-" ++ path_escape name.

(** uint64(t.Unix()) *)
Definition unix64 (t : Z) : Z := (t / second) mod 2 ^ 64.

(** ssh.Certificate.  [sc_signer]: the key that signed it. *)
Record ssh_cert := {
  sc_key : str; sc_serial : N; sc_user : bool; sc_id : str; sc_principals : list str; sc_after : Z; sc_before : Z;
  sc_extensions : list (str * str); sc_options : list (str * str); sc_signer : str
}.
(** sshca.go:316-324 *)
Definition extensions : list (str * str) :=
  map (fun s => (lit s, [])) ["permit-X11-forwarding"; "permit-agent-forwarding"; "permit-port-forwarding"; "permit-pty"; "permit-user-rc"]%string.

(** A request.  [q_claims]: ClaimsFromCtx, None is nil, and in it the e-mail claim when it
    is a string; [q_body]: what can be read of the body, None is an error; [q_rand]: eight
    random bytes, None is an error. *)
Record request := {
  q_claims : option (option str); q_method : str; q_csrf : str; q_content_type : str; q_body : option str; q_rand : option N; q_sign_ok : bool
}.

(** Artefact: the answers. *)
Inductive out :=
| ONothing
| OStatus (code : Z)                (* http.Error *)
| OKey (k : str)                    (* the public key is sent *)
| OCert (c : ssh_cert)              (* a certificate is sent *)
| OStarted
| OFailed.                          (* New returns an error *)

(** sshca.go:258-343 ServeCertificate.  [parse]: ssh.ParseAuthorizedKey; [signer]: ca.signer. *)
Definition serve_certificate (parse : str -> option str) (signer : str) (q : request) (now : Z) : out :=
  let email := match q_claims q with Some (Some e) => e | _ => [] end in
  if str_eqb email [] then OStatus 403
  else if negb (str_eqb (q_method q) (lit "POST")) then OStatus 405
  else if negb (str_eqb (q_csrf q) (lit "1")) then OStatus 400
  else if negb (str_eqb (q_content_type q) (lit "text/plain")) then OStatus 400
  else match q_body q with
       | None => OStatus 500
       | Some body =>
           match parse (firstn (Z.to_nat 102400) body) with
           | None => OStatus 500
           | Some pub =>
               match q_rand q with
               | None => OStatus 500
               | Some sn =>
                   if q_sign_ok q then
                     OCert {| sc_key := pub; sc_serial := sn; sc_user := true; sc_id := email; sc_principals := [email];
                              sc_after := unix64 (now - 300 * second); sc_before := unix64 (now + issued_lifetime);
                              sc_extensions := extensions; sc_options := []; sc_signer := signer |}
                   else OStatus 500
               end
           end
       end.

(** What happens in New: the file is opened, a key of the type is generated when there is
    none, the key is read, and the file is written when it has changed. *)
Inductive io := Works | OpenFails | GenerateFails | ParseFails | CommitFails.

(** The files by name, each with its private key (None: an empty key), and the authorities
    that are in use, by number, each with the name and the signer.  A key stands for the
    private and for the public key. *)
Record state := { s_files : list (str * option str); s_running : list (str * str) }.
(** Artefact: no file, no authority. *)
Definition start : state := {| s_files := []; s_running := [] |}.

(** Artefact: the calls. *)
Inductive op :=
| New (name key : str) (x : io)               (* sshca.go:90-110; [key]: a generated key *)
| ServeKey (i : nat)                          (* sshca.go:244-256 *)
| ServeCert (i : nat) (q : request) (now : Z).

(** sshca.go:133-175 initCA.  The signer is set before the commit, but when that fails New
    returns no authority. *)
Definition init_ca (st : state) (name key : str) (x : io) : state * out :=
  let f := ca_file name in
  let old := match assoc f (s_files st) with Some k => k | None => None end in
  match x with
  | OpenFails => (st, OFailed)
  | _ =>
      match old with
      | Some k =>
          match x with
          | ParseFails => (st, OFailed)
          | _ => ({| s_files := s_files st; s_running := s_running st ++ [(name, k)] |}, OStarted)
          end
      | None =>
          match x with
          | Works => ({| s_files := assoc_set f (Some key) (s_files st); s_running := s_running st ++ [(name, key)] |}, OStarted)
          | _ => (st, OFailed)
          end
      end
  end.

(** Artefact: one call. *)
Definition step (parse : str -> option str) (st : state) (o : op) : state * out :=
  match o with
  | New name key x => init_ca st name key x
  | ServeKey i => (st, match nth_error (s_running st) i with Some (_, k) => OKey k | None => ONothing end)
  | ServeCert i q now => (st, match nth_error (s_running st) i with Some (_, k) => serve_certificate parse k q now | None => ONothing end)
  end.

(** Artefact: a history. *)
Definition after (parse : str -> option str) (ops : list op) : state := fold_left (fun st o => fst (step parse st o)) ops start.
(** Artefact: the answer after a history. *)
Definition answer (parse : str -> option str) (before : list op) (o : op) : out := snd (step parse (after parse before) o).
(** The authority with number i has this name. *)
Definition named (parse : str -> option str) (ops : list op) (i : nat) (name : str) : Prop := exists k, nth_error (s_running (after parse ops)) i = Some (name, k).
