(** Histories of the certificate authority. *)
From Verif Require Import Base PkiModel.
Open Scope Z_scope.

Definition after (o : opts) (ops : list op) : state := fst (run o empty_state ops).
Definition answer (o : opts) (before : list op) (p : op) : out := snd (step o (after o before) p).
Definition outputs (o : opts) (ops : list op) : list (op * out) := snd (run o empty_state ops).

(** An OCSP request about a certificate of the authority with this name and key. *)
Definition about (name key : str) (sn : N) (rq : ocsp_request) : Prop :=
  rq_serial rq = sn /\
  exists h, rq_hash rq = Some h /\ rq_name_hash rq = h name /\ rq_key_hash rq = h key.

(** The manager [i] is started in these operations. *)
Definition starts (i : nat) (ops : list op) : Prop := exists key sn now x, In (Start i key sn now x) ops.

(** Random serial numbers: no two are the same. *)
Definition serials (ops : list op) : list N :=
  flat_map (fun p => match p with Start _ _ sn _ _ | Issue _ _ sn _ _ | Rotate _ _ sn _ _ => [sn] | _ => [] end) ops.

(** The clock readings of revocations and list requests; both are taken under the lock of
    the file, so that they are in the order of the history unless the clock is set back. *)
Definition readings (ops : list op) : list Z :=
  flat_map (fun p => match p with GetList _ now _ | Revoke _ _ now _ => [now] | _ => [] end) ops.
Fixpoint never_back (l : list Z) : Prop :=
  match l with
  | [] => True
  | t :: l => (forall u, In u l -> t <= u) /\ never_back l
  end.

(** The second in which a moment lies. *)
Definition second_of (t : Z) : Z := t / 1000000000.

(** All writes of the store work. *)
Definition works (p : op) : Prop :=
  match p with
  | Start _ _ _ _ x | Issue _ _ _ _ x | Rotate _ _ _ _ x | GetList _ _ x | Revoke _ _ _ x => x = Works
  | _ => True
  end.
