(** What the HTTP properties talk about. *)
From Verif Require Import Base PathModel PathSpec TokenModel HttpModel.
Open Scope Z_scope.

(** A path protected by single sign-on: below a listed path, as sent or as cleaned.
    An empty list protects everything. *)
Definition protected (paths : list str) (path : str) : Prop :=
  paths = [] \/ exists p, In p paths /\ ((exists t, path = p ++ t) \/ (exists t, clean_request_path path = p ++ t)).

(** What follows the first @ of an e-mail address, nothing if there is none. *)
Definition domain_of (user d : str) : Prop :=
  (exists a, user = a ++ "@"%char :: d /\ ~ In "@"%char a) \/ (~ In "@"%char user /\ d = []).

(** A user accepted by an access list. *)
Definition allowed (acl : option (list str)) (user : str) : Prop :=
  match acl with
  | None => True
  | Some l => In user l \/ exists d, domain_of user d /\ In ("@"%char :: d) l
  end.

(** The request got past single sign-on to something it protects. *)
Definition reaches (res : result) : Prop :=
  match res with
  | Forward _ | Static _ => True
  | Local h => lh_bypass h = false
  | _ => False
  end.

(** A host name as it may appear in a request for the server s: the name, with or
    without brackets, and with or without a port. *)
Definition names_host (host s : str) : Prop :=
  exists h port, (h = s \/ h = "["%char :: s ++ ["]"%char]) /\
    (host = h \/ (host = h ++ colon :: port /\ forall c, In c port -> is_digit c = true)).

(** The header rules that an administrator configured for a backend do not touch
    the header n. *)
Definition rules_leave (be : backend) (n : str) : Prop :=
  (forall kv, In kv (be_headers be) -> same_name (fst kv) n = false) /\
  (forall po l kv, In po (be_overrides be) -> po_headers po = Some l -> In kv l -> same_name (fst kv) n = false).

(** The client names the header n in a Connection header, which removes it. *)
Definition connection_names (h : headers) (n : str) : Prop :=
  exists o, In o (connection_options h) /\ same_name o n = true.

(** A sorted list of local handlers. *)
Fixpoint sorted (l : list local_handler) : Prop :=
  match l with
  | [] => True
  | a :: r => Forall (fun b => handler_less b a = false) r /\ sorted r
  end.

(** Names and values of cookies. *)
Definition pairs (l : list cookie) : list (str * str) := map (fun c => (ck_name c, ck_value c)) l.

(** The user that a request authenticates as. *)
Definition identified (ev : env) (s : sso) (r : request) (c : claims) (e : str) : Prop :=
  (check_bearer ev (sso_cm s) r = Some c \/ check_session ev (sso_cm s) r = Some c) /\
  assoc (lit "email") c = Some (VStr e) /\ e <> [].

(** With unforgeable tokens. *)
Definition carries (r : request) (s : str) : Prop :=
  get_cookie auth_cookie (rq_headers r) = Some s \/ bearer_token (rq_headers r) = Some s.

Definition no_match (path : str) (po : override) : Prop :=
  forall p, In p (po_paths po) -> path ++ [slash] <> p /\ (forall t, path <> p ++ t).

Definition plain_name (s : str) : Prop := s <> [] /\ ~ In colon s /\ ~ In "["%char s /\ ~ In "]"%char s.

(** Other proxies keep our Via line and add to its end, or add other lines. *)
Definition via_kept (v v' : str) : Prop := v' = v \/ exists x, v' = v ++ comma :: x.

Definition via_ok (r : request) (cn : conn) : Prop :=
  ~ In comma (rq_proto r) /\ ~ In " "%char (rq_proto r) /\ rq_proto r <> [] /\ ~ In comma (cn_local cn).

(** h is at least as specific as h'. *)
Definition more_specific (h h' : local_handler) : Prop :=
  (lh_host h' = lh_host h /\ (List.length (lh_path h') <= List.length (lh_path h))%nat) \/
  (lh_host h <> [] /\ lh_host h' = []).
