(** What the users of the web page of the certificate authority see. *)
From Verif Require Import Base PkiModel PkiSpec PkiWebModel.
Open Scope Z_scope.

(** The answer of manager [j] after a history. *)
Definition asks (o : opts) (files : list (str * str)) (ops : list op) (j : nat) (q : query) (now : Z) (a : PkiWebModel.answer) : Prop :=
  exists m, s_managers (after o ops) j = Some m /\ manage o files q now (m_db m) = a.
(** What manager [j] knows. *)
Definition knows (o : opts) (ops : list op) (j : nat) (e : entry) : Prop :=
  exists m, s_managers (after o ops) j = Some m /\ In e (d_issued (m_db m)).

(** The state of a certificate. *)
Definition in_state (now : Z) (e : entry) (m : mark) : Prop :=
  match m with
  | MRevoked => en_rev e <> None
  | MExpired => en_rev e = None /\ xc_not_after (en_cert e) < now
  | MValid => en_rev e = None /\ now <= xc_not_after (en_cert e)
  end.
(** The filters, in any mixture of upper and lower case.  Without a filter for the status,
    valid certificates are meant; without one for the owner, those of the user. *)
Definition wants_status (f : str) (m : mark) : Prop :=
  (to_lower f = [] \/ to_lower f = lit "valid" -> m = MValid) /\
  (to_lower f = lit "revoked" -> m = MRevoked) /\
  (to_lower f = lit "expired" -> m = MExpired).
Definition wants_owner (f email : str) (c : xcert) : Prop := to_lower f = lit "all" \/ In email (xc_emails c).

(** The line about a certificate. *)
Definition describes (q : query) (now : Z) (v : line) (e : entry) : Prop :=
  v_sn v = en_serial e /\ v_cert v = en_cert e /\ v_rev v = option_map rv_time (en_rev e) /\ in_state now e (v_mark v) /\
  (v_used v = true <-> match q_peer q with Some n => serial_hex n = en_serial e | None => en_serial e = [] end).

(** A signed-in user. *)
Definition user (q : query) (email : str) : Prop := exists c, q_claims q = Some c /\ email = match c with Some e => e | None => [] end.
(** An administrator who has asked for their rights with the parameter admin. *)
Definition acting_admin (o : opts) (q : query) (email : str) : Prop :=
  In email (o_admins o) /\ exists v, assoc (lit "admin") (q_form q) = Some v /\ v <> [].

(** The same request with another action for the certificate with serial number [sn]. *)
Definition revoke_request (q : query) (sn : str) : query :=
  {| q_claims := q_claims q; q_method := lit "POST";
     q_form := (lit "get", lit "revokeCert") :: (lit "sn", sn) :: q_form q;
     q_csrf := lit "1"; q_content_type := []; q_if_none_match := []; q_peer := q_peer q; q_csr := None |}.
