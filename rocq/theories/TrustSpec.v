(** What it means to trust a certificate. *)
From Verif Require Import Base TrustModel.
From Verif Require RouteModel.
Open Scope list_scope.

(** A certificate leads to one of [roots] through certificates that were sent. *)
Inductive leads (w : world) (roots sent : list x509) : x509 -> Prop :=
| leads_root c r : In r roots -> w_signs w c r = true -> leads w roots sent c
| leads_step c i : In i sent -> w_signs w c i = true -> leads w roots sent i -> leads w roots sent c.

(** It is a root or leads to one. *)
Definition trusted (w : world) (roots sent : list x509) (c : x509) : Prop :=
  In c roots \/ leads w roots sent c.

(** The certificates that an element of a list of roots stands for: that of the
    authority of this name, or those in the file or the text. *)
Definition stands_for (w : world) (n : str) (c : x509) : Prop :=
  match assoc n (w_pkis w) with
  | Some ca => ca = Some c
  | None => exists text, (match n with
                          | "/"%char :: _ => w_read w n = Some text
                          | _ => text = n
                          end) /\ In (Some c) (w_pem w text)
  end.
(** The certificates that a list stands for. *)
Definition listed (w : world) (l : list str) (c : x509) : Prop := exists n, In n l /\ stands_for w n c.

(** [c] is trusted because of the list, or, where the list is empty, because of the
    operating system. *)
Definition trusted_by (w : world) (l : list str) (sent : list x509) (c : x509) : Prop :=
  exists roots, trusted w roots sent c /\
    match l with [] => roots = w_system w | _ => forall r, In r roots <-> listed w l r end.

(** The lists of the backend. *)
Definition all_lists (b : bconf) : list str :=
  match bc_client b with None => [] | Some l => l end ++ pr_roots (bc_own b) ++ flat_map pr_roots (bc_over b).

(** The settings for the server: those of the override in use, else the backend's. *)
Definition in_use (b : bconf) (ov : option nat) : peering :=
  match ov with
  | Some i => nth i (bc_over b) (bc_own b)
  | None => bc_own b
  end.
