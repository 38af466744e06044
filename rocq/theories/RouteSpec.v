(** Which backend a connection belongs to, stated on the configuration alone. *)
From Verif Require Import Base RouteModel.

(** Backend number [i] lists the server name [sn]. *)
Definition lists (bes : list backend) (i : nat) (sn : str) : Prop :=
  exists b, nth_error bes i = Some b /\ In sn (bNames b).

(** Backend number [i] claims protocol [p] for the server name [sn]. *)
Definition claims (bes : list backend) (i : nat) (sn p : str) : Prop :=
  exists b, nth_error bes i = Some b /\ In sn (bNames b) /\ In p (bALPN b).

(** The connection with server name [sn] and protocol list [protos] belongs to
    backend [i]: it claims the first protocol in the list that anyone claims,
    or nobody claims any and it is the first in the file to list the name. *)
Definition belongs (bes : list backend) (sn : str) (protos : list str) (i : nat) : Prop :=
  (exists pre p post, protos = pre ++ p :: post /\ claims bes i sn p /\
     forall q j, In q pre -> ~ claims bes j sn q)
  \/
  ((forall q j, In q protos -> ~ claims bes j sn q) /\
   lists bes i sn /\ forall j, j < i -> ~ lists bes j sn).

(** ALPN protocol names are non-empty byte strings (RFC 7301 section 3.1). *)
Definition no_empty_proto (bes : list backend) : Prop :=
  forall b, In b bes -> ~ In [] (bALPN b).

(** Who a client certificate ACL accepts. *)
Definition acl_accepts (acl : list str) (c : cert) : Prop :=
  (cSubject c <> [] /\ (In (cSubject c) acl \/ In (!"SUBJECT:" ++ cSubject c) acl)) \/
  (exists d, In d (cDNS c) /\ In (!"DNS:" ++ d) acl) \/
  (exists m, In m (cEmails c) /\ In (!"EMAIL:" ++ m) acl) \/
  (exists u, In u (cURIs c) /\ In (!"URI:" ++ u) acl).

(** The client-certificate rules of backend [b] accept the certificate. *)
Definition cert_rules (e : env) (b : backend) (c : option cert) : Prop :=
  match bClientAuth b with
  | None => True
  | Some ca =>
      exists k, c = Some k /\ hsCert e = Some k /\ verifies e (caRoots ca) k = true /\
        match caACL ca with None => True | Some acl => acl_accepts acl k end
  end.

(** Revocation information available to backend [b] does not condemn the
    certificate. *)
Definition revocation_rules (e : env) (b : backend) (c : option cert) : Prop :=
  match bClientAuth b, c with
  | Some _, Some k =>
      match assoc (cAKI k) (bPki b) with
      | Some pki => isRevoked e pki (cSerial k) = false
      | None => cOCSP k = [] \/ ocspOK e k = true
      end
  | _, _ => True
  end.

(** The connection reached backend [i]: its HTTP server, or a connection to one
    of its addresses. *)
Definition reaches (a : action) (i : nat) : Prop :=
  match a with
  | ActHTTP j _ _ | ActDial j _ _ | ActPassthrough j => j = i
  | _ => False
  end.

Definition session (a : action) : option (str * option cert) :=
  match a with
  | ActHTTP _ p c | ActDial _ p c => Some (p, c)
  | _ => None
  end.

(** The server name a client hello asks for. *)
Definition requested_name (p : proxy) (h : HelloModel.clientHello) : str :=
  match HelloModel.serverName h with [] => defName p | n => n end.
