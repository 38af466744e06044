(** What a reader of the log relies on. *)
From Verif Require Import Base PathModel XfccModel HttpModel LogModel.

(** One line. *)
Definition one_line (s : str) : Prop := ~ In nl s.

(** Control characters, which terminals act on. *)
Definition control (c : ascii) : Prop := (N_of_ascii c <= 31)%N \/ c = "127"%char.

(** The lines of a file. *)
Definition lines_of (file : str) : list str := split_on nl file.

(** Certificates whose names have no newline. *)
Definition attribute_one_line (a : attribute) : Prop :=
  match a with Known n v => one_line n /\ one_line v | Unknown oid _ => one_line oid end.
Definition names_one_line (c : names) : Prop :=
  Forall (Forall attribute_one_line) (n_subject c) /\
  Forall one_line (n_dns c) /\ Forall one_line (n_emails c) /\ Forall one_line (n_uris c).

(** A connection: the addresses, the configuration and the identity provider give names
    without newlines, and so does the certificate, if there is one. *)
Definition ordinary (d : desc) : Prop :=
  (forall c, d_cert d = Some c -> names_one_line c) /\
  (forall u, d_user d = Some u -> one_line u) /\
  one_line (d_remote d) /\ (forall a, d_via d = Some a -> one_line a) /\
  one_line (d_name d) /\ one_line (d_mode d) /\ one_line (d_proto d) /\ one_line (d_upgrade d) /\
  (forall l r, d_internal d = Some (l, r) -> one_line l /\ one_line r).

(** What strconv.Quote writes above ASCII has no newline. *)
Definition printable (wide : str -> str) : Prop := forall s, one_line (wide s).

(** The answers for which the log shows the path as the client meant it, not as it was sent. *)
Definition decoded (callback : local_handler -> bool) (res : result) : bool :=
  match res with
  | Static NotFound => false
  | Static _ | Redirect _ => true
  | Local h => callback h
  | _ => false
  end.

(** Identities that cannot be taken for something else: not empty, without the
    characters around them, and not the sign for nobody. *)
Definition distinct_name (s : str) : Prop := s <> [] /\ s <> lit "-" /\ ~ In "|"%char s /\ ~ In "]"%char s.

(** Status codes have three digits. *)
Definition three (s : str) : Prop := List.length s = 3%nat.

(** Text in ASCII. *)
Definition in_ascii (s : str) : Prop := Forall (fun c => high c = false) s.

(** The same connection with these identities. *)
Definition known_as (d : desc) (c : option names) (user : option str) : desc :=
  {| d_cert := c; d_user := user; d_remote := d_remote d; d_via := d_via d; d_name := d_name d;
     d_mode := d_mode d; d_proto := d_proto d; d_upgrade := d_upgrade d; d_internal := d_internal d |}.

(** The answers that leave no entry. *)
Definition unrecorded (res : result) : bool :=
  match res with SetIDToken | Misdirected | LoopDetected => true | _ => false end.

(** The status codes of the answers that the proxy makes itself, but for those of the
    endpoints; for a login, [page] says that it is a page and not a redirect. *)
Definition answer_status (method : str) (page : bool) (res : result) : option str :=
  match res with
  | Static NotFound => Some (lit "404")
  | Static MethodNotAllowed => Some (lit "405")
  | Static Forbidden | AuthRequired | Denied => Some (lit "403")
  | Static (ServeFile _) => Some (lit "200")
  | Static (RedirectTo _) | Redirect _ =>
      if mem method [lit "GET"; lit "HEAD"] then Some (lit "301") else Some (lit "303")
  | Login => if page then Some (lit "403") else Some (lit "302")
  | SetIDToken | Misdirected | LoopDetected | Local _ | Forward _ => None
  end.

(** strconv.Quote: the names of the control characters, and of 127. *)
Definition control_names : list str := map lit ["\x00"; "\x01"; "\x02"; "\x03"; "\x04"; "\x05"; "\x06"; "\a"; "\b"; "\t"; "\n"; "\v"; "\f"; "\r"; "\x0e"; "\x0f"; "\x10"; "\x11"; "\x12"; "\x13"; "\x14"; "\x15"; "\x16"; "\x17"; "\x18"; "\x19"; "\x1a"; "\x1b"; "\x1c"; "\x1d"; "\x1e"; "\x1f"; "\x7f"]%string.
(** RFC 3986: the characters of a path, and those that Go leaves. *)
Definition url_characters : str := lit "abcdefghijklmnopqrstuvwxyzABCDEFGHIJKLMNOPQRSTUVWXYZ0123456789-._~!$&'()*+,;=:@[]%/".
