(** What a client hears from the proxy before any TLS or QUIC session of a
    backend exists (proxy/hello.go, proxy/proxy.go, proxy/quic.go). *)
From Verif Require Import Base HelloModel IPModel RouteModel.

(** hello.go:226-235 sendAlert: what is written.  An error of the write is
    ignored by all callers and is not modelled. *)
Definition send_alert (level description : N) : str :=
  map ascii_of_N [21; 3; 3; 0; 2; level; description]%N.

(** hello.go:210-212 *)
Definition send_close_notify : str := send_alert 2 0.
(** hello.go:218-220 *)
Definition send_internal_error : str := send_alert 2 80.
(** hello.go:222-224 *)
Definition send_unrecognized_name : str := send_alert 2 112.

(** Artefact: what happens after the bytes that the proxy wrote itself. *)
Inductive next :=
| Closed                 (* the connection is closed *)
| AcmeTls                (* tls.Server with the certificates for challenges, proxy.go:1195-1198 *)
| TlsWith (i : nat)      (* tls.Server with the configuration of backend i, proxy.go:1204, 1211 *)
| Bridged (i : nat).     (* what follows comes from backend i, proxy.go:1389 *)

(** proxy.go:1220-1230 checkIP, as far as the client can tell: the bytes
    written, and whether the caller goes on. *)
Definition check_ip_answer (b : backend) (remote : addr) : option str :=
  if check_ip (bDeny b) (bAllow b) remote then None else Some send_unrecognized_name.

(** proxy.go:1364-1380 handleTLSPassthroughConnection.  [wait_ok]: connLimit.Wait
    returned nil; [dial_ok]: dial returned a connection. *)
Definition passthrough_answer (wait_ok dial_ok : bool) (i : nat) : str * next :=
  if negb wait_ok then (send_internal_error, Closed)
  else if negb dial_ok then (send_internal_error, Closed)
  else ([], Bridged i).

(** proxy.go:1120-1216 handleConnection up to the point where a TLS library or
    a backend takes over: the bytes the proxy wrote, and what comes next.  The
    deferred functions close the connection on every return (1123-1134) other
    than the one after handleHTTPConnection.  All modes are covered by the
    cases of the switch. *)
Definition first_answer (p : proxy) (wait_ok dial_ok : bool) (numOpen : nat) (remote : addr)
    (hello : outcome clientHello) : str * next :=
  if maxOpen p <=? numOpen then (send_close_notify, Closed)
  else
    match hello with
    | Panic | Err | OutOfFuel => ([], Closed)
    | Ok h =>
        let sn := match serverName h with [] => defName p | _ => serverName h end in
        match get_backend p sn (alpnProtos h) with
        | None => (send_unrecognized_name, Closed)
        | Some (i, b) =>
            if mode_eqb (bMode b) ModeTLSPassthrough then
              match check_ip_answer b remote with
              | Some bytes => (bytes, Closed)
              | None => passthrough_answer wait_ok dial_ok i
              end
            else if (List.length (alpnProtos h) =? 1) &&
                    str_eqb (hd [] (alpnProtos h)) acme_proto &&
                    negb (str_eqb (serverName h) []) then ([], AcmeTls)
            else
              match check_ip_answer b remote with
              | Some bytes => (bytes, Closed)
              | None => ([], TlsWith i)
              end
        end
    end.

(** Artefact: what a QUIC client learns. *)
Inductive qheard :=
| NoHandshake                            (* the handshake fails *)
| HandshakeThen (code : N) (msg : str)   (* the handshake succeeds, then CONNECTION_CLOSE *)
| Served (i : nat).

(** quic.go:117-190 with quic.go:52-53 and netw/quic.go:261-270: how each way to
    end shows to the client.  For QUnrecognized see [RouteModel.qaction]. *)
Definition quic_heard (a : qaction) : qheard :=
  match a with
  | QRefusedHandshake => NoHandshake
  | QUnrecognized => HandshakeThen 0 !"done"
  | QTooMany => HandshakeThen 0 !"done"
  | QDenied => HandshakeThen 4098 !"access denied"
  | QWaitFailed => HandshakeThen 0 !"done"
  | QServe i _ _ => Served i
  end.
