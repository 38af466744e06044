(** When the new configuration forbids an open connection. *)
From Verif Require Import Base IPModel RouteModel RouteSpec ReauthModel.

(** The protocols of a connection: the negotiated one, or none. *)
Definition protos (c : aconn) : list str :=
  match aProto c with [] => [] | pr => [pr] end.

(** The connection, by its server name and negotiated protocol, belongs to a
    backend of the new configuration which has another mode, does not allow
    the address, or whose ACL does not accept the certificate. *)
Definition forbidden (p : proxy) (c : aconn) : Prop :=
  exists sn i b,
    aName c = Some sn /\ belongs (backs p) sn (protos c) i /\ nth_error (backs p) i = Some b /\
    (aOld c <> Some (bMode b) \/
     check_ip (bDeny b) (bAllow b) (aRemote c) = false \/
     exists ca acl k, bClientAuth b = Some ca /\ caACL ca = Some acl /\ aCert c = Some k /\
       ~ acl_accepts acl k).

(** The connection is fully set up and is in a position to be checked: its name
    is still served, it has been given to a backend, and there is a certificate
    when the new backend has an ACL. *)
Definition checkable (p : proxy) (c : aconn) : Prop :=
  forall sn, aName c = Some sn ->
    aOld c <> None /\
    exists i b, belongs (backs p) sn (protos c) i /\ nth_error (backs p) i = Some b /\
      shut p i = false /\
      forall ca acl, bClientAuth b = Some ca -> caACL ca = Some acl -> aCert c <> None.
