(** C02, C03: reading the server name and the protocol list of a connection. *)
From Verif Require Import Base ConnModel ConnSpec ConnProofs HelloModel HelloSpec HelloProofs.

(** C02.  For every well-formed ClientHello and whatever follows it on the
    wire, once the network has delivered the record the proxy learns exactly
    the host name and the protocol list the client sent, and the bytes are all
    still there for whoever reads the connection next. *)
Theorem C02_hello_roundtrip : forall h rest got1 got2,
  wf_hello h = true ->
  5 <= got1 -> List.length (enc_handshake h) <= got2 ->
  exists c', peek_client_hello (fresh_conn (enc_record h ++ rest)) got1 got2 =
    (c', Ok (mkHello (hello_name h) (hello_protos h))) /\
    unread c' = enc_record h ++ rest.
Proof. exact peek_client_hello_roundtrip. Qed.
Print Assumptions C02_hello_roundtrip.

(** C02, the other direction: whatever bytes arrive, when the proxy takes a
    name and a protocol list from them, the stream starts with a record holding
    a client hello, the name is the host name that message offers (no other
    one is offered), and the list is the concatenation of its protocol lists
    in order. *)
Theorem C02_hello_sound : forall c got1 got2 c' r,
  peek_client_hello c got1 got2 = (c', Ok r) ->
  exists ver buf rest exts,
    unread c = enc8 22 ++ ver ++ vec16 buf ++ rest /\ List.length ver = 2 /\
    is_client_hello buf exts /\
    (serverName r <> [] -> offers_name exts (serverName r)) /\
    (forall n, n <> [] -> offers_name exts n -> serverName r = n) /\
    (exists pss, alpn_lists exts pss /\ alpnProtos r = List.concat pss).
Proof. exact peek_client_hello_sound. Qed.
Print Assumptions C02_hello_sound.

(** C02.  Looking at the hello never consumes input, whatever the outcome. *)
Theorem C02_hello_consumes_nothing : forall c got1 got2 c' r,
  peek_client_hello c got1 got2 = (c', r) -> unread c' = unread c.
Proof. exact peek_client_hello_unread. Qed.
Print Assumptions C02_hello_consumes_nothing.

(** C03.  The parser always terminates. *)
Theorem C03_hello_terminates : forall c got1 got2 c',
  peek_client_hello c got1 got2 <> (c', OutOfFuel).
Proof. exact peek_client_hello_no_fuel. Qed.
Print Assumptions C03_hello_terminates.

(** C03.  It panics for no input other than a handshake record that announces
    length zero. *)
Theorem C03_hello_panics_only_on_empty_record : forall c got1 got2 c',
  peek_client_hello c got1 got2 = (c', Panic) ->
  exists v1 v2 len rest,
    unread c = ascii_of_N 22 :: v1 :: v2 :: len ++ rest /\ len = enc16 0.
Proof. exact peek_client_hello_panics. Qed.
Print Assumptions C03_hello_panics_only_on_empty_record.

(** C03 as one would want it, "no input makes the parser panic", is false:
    the five bytes of an empty handshake record index an empty slice
    (hello.go:76).  The panic is caught by the recover of the connection's
    goroutine (proxy.go:1122-1128). *)
Theorem C03_hello_never_panics_refuted :
  exists stream c', peek_client_hello (fresh_conn stream) 5 5 = (c', Panic).
Proof.
  exists (map ascii_of_N [22; 3; 1; 0; 0]%N). eexists. vm_compute. reflexivity.
Qed.
Print Assumptions C03_hello_never_panics_refuted.

Definition example_hello : hello :=
  {| h_record_version := (ascii_of_N 3, ascii_of_N 1);
     h_version_random := repeat (ascii_of_N 7) 34;
     h_session_id := !"sid";
     h_ciphers := [ascii_of_N 19; ascii_of_N 1];
     h_compression := [ascii_of_N 0];
     h_exts := [ExtOther 10 !"groups"; ExtServerName !"www.example.com";
                ExtALPN [!"h2"; !"http/1.1"]; ExtOther 43 []] |}.

Example C02_example :
  wf_hello example_hello = true /\
  snd (peek_client_hello (fresh_conn (enc_record example_hello ++ !"more")) 5 200) =
    Ok (mkHello !"www.example.com" [!"h2"; !"http/1.1"]).
Proof. vm_compute. split; reflexivity. Qed.

(** A truncated hello is an error, not a panic. *)
Example C03_example :
  snd (peek_client_hello (fresh_conn (firstn 30 (enc_record example_hello))) 5 200) = Err.
Proof. vm_compute. reflexivity. Qed.
