From Verif Require Import Base OcspModel TlsClientModel.

Definition prefix (a b : list ascii) : Prop := exists c, b = a ++ c.

(** Characters that separate a host from a port. *)
Definition plain (s : str) : Prop := ~ List.In ":"%char s /\ ~ List.In "["%char s /\ ~ List.In "]"%char s.

(** A response about certificate [c] alone, signed with [key]. *)
Definition says (key : str) (c : cert) (s : OcspModel.status) (next : Z) : wire :=
  {| wi_signer := key; wi_singles := [(ct_serial c, s, next)] |}.

(** Steps of the command itself. *)
Definition by_client (e : event) : bool :=
  match e with
  | URead _ | UWrite | UEof | UReadErr | UWriteErr | DRead _ | DWrite | DEof | DReadErr => true
  | _ => false
  end.
(** It has nothing left to do until something comes in. *)
Definition at_rest (quic : bool) (s : state) : Prop := forall e, by_client e = true -> step quic s e = None.
