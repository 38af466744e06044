(** What a client hears: TLS alerts as RFC 8446 describes them, and which
    backends are closed to a client.  Nothing here comes from AnswerModel. *)
From Verif Require Import Base HelloModel IPModel RouteModel RouteSpec.

(** The records in a string of bytes (RFC 8446 section 5.1): a type, a legacy
    version, a length and as many bytes. *)
Record record := { rType : N; rVersion : N * N; rFragment : str }.

Inductive records : str -> list record -> Prop :=
| records_nil : records [] []
| records_cons t v w l1 l2 frag rest rs :
    List.length frag = N.to_nat (256 * N_of_ascii l1 + N_of_ascii l2) ->
    records rest rs ->
    records (t :: v :: w :: l1 :: l2 :: frag ++ rest)
      ({| rType := N_of_ascii t; rVersion := (N_of_ascii v, N_of_ascii w); rFragment := frag |} :: rs).

(** RFC 8446 section 6: the descriptions used here. *)
Definition close_notify : N := 0.
Definition internal_error : N := 80.
Definition unrecognized_name : N := 112.

(** The bytes are one alert record (type 21) with the legacy version of TLS 1.2,
    and the alert is fatal (2) and has the description [d]. *)
Definition one_fatal_alert (bytes : str) (d : N) : Prop :=
  exists r, records bytes [r] /\ rType r = 21%N /\ rVersion r = (3, 3)%N /\
    map N_of_ascii (rFragment r) = [2; d]%N.

(** The client offers the protocol of ACME challenges and nothing else, and
    names a server. *)
Definition acme_only (h : clientHello) : Prop :=
  alpnProtos h = [!"acme-tls/1"] /\ serverName h <> [].

(** Every backend that lists the name is shutting down or turns the address
    away; in particular, when there is no such backend. *)
Definition closed_to (p : proxy) (remote : addr) (sn : str) : Prop :=
  forall i b, nth_error (backs p) i = Some b -> In sn (bNames b) ->
    shut p i = true \/ check_ip (bDeny b) (bAllow b) remote = false.
