(** What histories of logins mean, in terms of what clients and browsers see. *)
From Verif Require Import Base TokenModel LoginModel.
Open Scope Z_scope.

(** ** The OpenID server *)
Definition outputs (cfg : config) (ops : list op) : list (op * output) := snd (run cfg empty_server ops).

(** How many times [code] was exchanged for tokens; how often it was drawn. *)
Definition exchanges (code : str) (tr : list (op * output)) : nat :=
  List.length (filter (fun e => match e with (Exchange r, Tokens _ _ _) => str_eqb (tr_code r) code | _ => false end) tr).
Definition draws (code : str) (ops : list op) : nat :=
  List.length (filter (fun o => match o with Authorize _ _ c _ _ _ => str_eqb c code | _ => false end) ops).
Definition infos (access : str) (tr : list (op * output)) : nat :=
  List.length (filter (fun e => match e with (UserInfo a, Info _) => str_eqb a access | _ => false end) tr).
Definition access_draws (access : str) (ops : list op) : nat :=
  List.length (filter (fun o => match o with Authorize _ _ _ a _ _ => str_eqb a access | _ => false end) ops).

(** All codes and access tokens that were drawn at random, in order. *)
Definition codes_drawn (ops : list op) : list str := flat_map (fun o => match o with Authorize _ _ c _ _ _ => [c] | _ => [] end) ops.
Definition accesses_drawn (ops : list op) : list str := flat_map (fun o => match o with Authorize _ _ _ a _ _ => [a] | _ => [] end) ops.

(** The time of an operation, when it reads the clock. *)
Definition op_time (o : op) : option Z :=
  match o with Vacuum t => Some t | Authorize _ t _ _ _ _ => Some t | _ => None end.
(** Clock readings never decrease along the history. *)
Fixpoint clock_from (t : Z) (ops : list op) : Prop :=
  match ops with
  | [] => True
  | o :: r => match op_time o with Some u => t <= u /\ clock_from u r | None => clock_from t r end
  end.

(** What the user information leaves out of the identity token: everything that is about
    the token, and not about the user. *)
Definition about_the_token : list str :=
  [lit "iss"; lit "aud"; lit "exp"; lit "iat"; lit "nbf"; lit "nonce"; lit "scope"; lit "sid"].

(** A registered client with this identifier that may be sent to this address. *)
Definition registered (cfg : config) (id uri : str) : Prop :=
  exists c, In c (cf_clients cfg) /\ cl_id c = id /\ In uri (cl_uris c).
Definition registered_secret (cfg : config) (id secret uri : str) : Prop :=
  exists c, In c (cf_clients cfg) /\ cl_id c = id /\ cl_secret c = secret /\ In uri (cl_uris c).

(** ** Logging in *)
Definition client_outputs (domain : str) (ops : list client_op) : list (client_op * client_out) :=
  snd (client_run domain empty_client ops).
Definition saml_outputs (cfg : saml_config) (ops : list saml_op) : list (saml_op * client_out) := snd (saml_run cfg [] ops).

(** Browsers send back only cookies they were given: the nonce cookie of a callback is
    that of an earlier login request of the same browser. *)
Definition jars_ok (ops : list client_op) : Prop :=
  forall pre id b state cookie now post, ops = pre ++ Begin id b state cookie now :: post ->
  exists t url host, In (Login b cookie t url host) pre.

(** Nonces are drawn at random; no two logins have the same. *)
Definition nonces (ops : list client_op) : list str :=
  flat_map (fun o => match o with Login _ n _ _ _ => [n] | _ => [] end) ops.
Definition callbacks (ops : list client_op) : list nat :=
  flat_map (fun o => match o with Begin id _ _ _ _ => [id] | _ => [] end) ops.
Definition saml_ids (ops : list saml_op) : list str :=
  flat_map (fun o => match o with SLogin _ n _ _ _ => [n] | _ => [] end) ops.

(** Sessions created with session identifier [sid]. *)
Definition sessions (sid : str) (outs : list client_out) : nat :=
  List.length (filter (fun o => match o with CSession _ s => str_eqb (se_sid s) sid | _ => false end) outs).

(** What one more operation answers after a history. *)
Definition answer (cfg : config) (before : list op) (o : op) : output :=
  snd (step cfg (fst (run cfg empty_server before)) o).
Definition client_answer (domain : str) (before : list client_op) (o : client_op) : client_out :=
  snd (client_step domain (fst (client_run domain empty_client before)) o).
Definition saml_answer (cfg : saml_config) (before : list saml_op) (o : saml_op) : client_out :=
  snd (saml_step cfg (fst (saml_run cfg [] before)) o).
