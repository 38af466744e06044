(** Independent description of the TLS ClientHello wire format (RFC 8446
    section 4.1.2, RFC 6066 section 3, RFC 7301 section 3.1).  It uses nothing
    from the model of the parser. *)
From Verif Require Import Base.

Definition enc8 (n : N) : str := [ascii_of_N n].
Definition enc16 (n : N) : str := [ascii_of_N (n / 256); ascii_of_N (n mod 256)].
Definition enc24 (n : N) : str :=
  [ascii_of_N (n / 65536); ascii_of_N (n / 256 mod 256); ascii_of_N (n mod 256)].

Definition len (s : str) : N := N.of_nat (List.length s).

(** opaque x<..2^8-1> and opaque x<..2^16-1> *)
Definition vec8 (s : str) : str := enc8 (len s) ++ s.
Definition vec16 (s : str) : str := enc16 (len s) ++ s.

Inductive extension :=
| ExtServerName (host : str)          (* one host_name entry *)
| ExtALPN (protos : list str)
| ExtOther (ty : N) (data : str).

Record hello := {
  h_record_version : ascii * ascii;
  h_version_random : str;             (* 2 + 32 bytes *)
  h_session_id : str;
  h_ciphers : str;
  h_compression : str;
  h_exts : list extension
}.

Definition enc_ext_body (e : extension) : N * str :=
  match e with
  | ExtServerName host => (0%N, vec16 (enc8 0 ++ vec16 host))
  | ExtALPN protos => (16%N, vec16 (flat_map vec8 protos))
  | ExtOther ty data => (ty, data)
  end.

Definition enc_ext (e : extension) : str :=
  let '(ty, body) := enc_ext_body e in enc16 ty ++ vec16 body.

Definition enc_exts (l : list extension) : str := flat_map enc_ext l.

Definition enc_body (h : hello) : str :=
  h_version_random h ++ vec8 (h_session_id h) ++ vec16 (h_ciphers h) ++
  vec8 (h_compression h) ++ vec16 (enc_exts (h_exts h)).

Definition enc_handshake (h : hello) : str :=
  enc8 1 ++ enc24 (len (enc_body h)) ++ enc_body h.

(** TLSPlaintext record *)
Definition enc_record (h : hello) : str :=
  enc8 22 ++ [fst (h_record_version h); snd (h_record_version h)] ++
  vec16 (enc_handshake h).

Definition wf_ext (e : extension) : bool :=
  match e with
  | ExtServerName host => negb (len host =? 0)%N && (len host <? 65536)%N
  | ExtALPN protos => forallb (fun p => negb (len p =? 0)%N && (len p <? 256)%N) protos
  | ExtOther ty data => negb (ty =? 0)%N && negb (ty =? 16)%N && (ty <? 65536)%N
  end && (len (snd (enc_ext_body e)) <? 65536)%N.

Definition is_sni (e : extension) := match e with ExtServerName _ => true | _ => false end.
Definition is_alpn (e : extension) := match e with ExtALPN _ => true | _ => false end.

(** Fields within the limits of the format, no extension of a kind twice
    (RFC 8446 4.2), and the message fits one record. *)
Definition wf_hello (h : hello) : bool :=
  (len (h_version_random h) =? 34)%N && (len (h_session_id h) <? 256)%N &&
  (len (h_ciphers h) <? 65536)%N && (len (h_compression h) <? 256)%N &&
  forallb wf_ext (h_exts h) &&
  (List.length (filter is_sni (h_exts h)) <=? 1) &&
  (List.length (filter is_alpn (h_exts h)) <=? 1) &&
  (len (enc_exts (h_exts h)) <? 65536)%N &&
  (len (enc_handshake h) <=? 16384)%N.

(** What the message says. *)
Definition hello_name (h : hello) : str :=
  match filter is_sni (h_exts h) with
  | ExtServerName host :: _ => host
  | _ => []
  end.

Definition hello_protos (h : hello) : list str :=
  match filter is_alpn (h_exts h) with
  | ExtALPN ps :: _ => ps
  | _ => []
  end.

(** ** The same format read the other way: any message, not only those a
    conforming client sends. *)

(** One extension as type and raw data. *)
Definition enc_raw (e : N * str) : str := enc16 (fst e) ++ vec16 (snd e).

(** A host_name entry of a server_name list. *)
Definition enc_name (h : str) : str := enc8 0 ++ vec16 h.

(** Some server_name extension carries [n] as its last host_name entry, every
    entry before it being empty. *)
Definition offers_name (exts : list (N * str)) (n : str) : Prop :=
  exists data k junk,
    In (0%N, data) exts /\
    data = vec16 (flat_map enc_name (repeat [] k ++ [n])) ++ junk.

(** The protocol lists of the ALPN extensions, in order. *)
Inductive alpn_lists : list (N * str) -> list (list str) -> Prop :=
| al_nil : alpn_lists [] []
| al_other ty data exts pss :
    ty <> 16%N -> alpn_lists exts pss -> alpn_lists ((ty, data) :: exts) pss
| al_alpn ps junk exts pss :
    alpn_lists exts pss ->
    alpn_lists ((16%N, vec16 (flat_map vec8 ps) ++ junk) :: exts) (ps :: pss).

(** A handshake message whose extension block holds [exts]; the 24-bit length
    field and anything after the extension block are arbitrary. *)
Definition is_client_hello (buf : str) (exts : list (N * str)) : Prop :=
  exists hlen vr sid cs cm post,
    buf = enc8 1 ++ hlen ++ vr ++ vec8 sid ++ vec16 cs ++ vec8 cm ++
          vec16 (flat_map enc_raw exts) ++ post /\
    List.length hlen = 3 /\ List.length vr = 34.
