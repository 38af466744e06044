(** What the theorems about the OCSP cache say. *)
From Verif Require Import Base OcspModel.
Open Scope Z_scope.

(** What happened *)
Definition events (ops : list op) : list event := snd (run ops).

(** [c] is in the chain, and [issuer] is the next certificate, or [c] itself at the end. *)
Definition in_chain (c issuer : cert) (chain : list cert) : Prop :=
  exists a b, chain = a ++ c :: b /\ issuer = hd c b.

(** Call [i] is about the certificate [c] of [issuer]. *)
Definition is_about (evs : list event) (i : nat) (c issuer : cert) : Prop :=
  (exists peer chains st chain, In (EVerify i peer chains st) evs /\ In chain chains /\ in_chain c issuer chain) \/
  In (EStaple i c issuer) evs.

(** In call [i] a responder of [c] sent something that [issuer] has signed and that reads [r]. *)
Definition answered (evs : list event) (i : nat) (c issuer : cert) (r : response) : Prop :=
  exists s w, In s (ct_servers c) /\ In (EAnswer i s (Body w)) evs /\ parse_response w None (Some (ct_key issuer)) = Some r.

(** The client of call [i] has sent [r] along with its certificate [c], and [r] is about
    [c], good, and current at a reading of the clock. *)
Definition stapled (evs : list event) (i : nat) (c issuer : cert) (r : response) : Prop :=
  exists peer chain chains w now, In (EVerify i peer ((c :: issuer :: chain) :: chains) (Some w)) evs /\
    parse_response w (Some (ct_serial c)) (Some (ct_key issuer)) = Some r /\
    rs_serial r = ct_serial c /\ rs_status r = Good /\ In (EClock i now) evs /\ now < rs_next r.

(** [r] was obtained some time for a certificate with the bytes [h]. *)
Definition obtained (evs : list event) (h : str) (r : response) : Prop :=
  exists j c issuer, ct_raw c = h /\ is_about evs j c issuer /\ (answered evs j c issuer r \/ stapled evs j c issuer r).

(** Call [i] uses the answer [r] for [c]: it is new, or it is from the cache and has not
    expired. *)
Definition used (evs : list event) (i : nat) (c issuer : cert) (margin : Z) (r : response) : Prop :=
  answered evs i c issuer r \/ (exists now, In (EClock i now) evs /\ now + margin < rs_next r /\ obtained evs (ct_raw c) r).

(** No request can be made for [c]: its issuer's key cannot be read, or a responder's URL. *)
Definition excused (evs : list event) (i : nat) (c issuer : cert) : Prop :=
  ct_spki_ok issuer = false \/ exists s, In s (ct_servers c) /\ In (EAnswer i s NoRequest) evs.
(** A responder of [c] gave no usable answer. *)
Definition unanswered (evs : list event) (i : nat) (c issuer : cert) : Prop :=
  exists s x, In s (ct_servers c) /\ In (EAnswer i s x) evs /\
    (x = NoAnswer \/ exists w, x = Body w /\ parse_response w None (Some (ct_key issuer)) = None).

(** Every certificate of the chain with a responder is good, or cannot be asked about. *)
Definition chain_good (evs : list event) (i : nat) (chain : list cert) : Prop :=
  forall c issuer, in_chain c issuer chain -> ct_servers c <> [] ->
  (exists r, used evs i c issuer 0 r /\ rs_status r = Good) \/ excused evs i c issuer.
(** Some certificate of the chain is revoked or unknown, or nothing is heard about it. *)
Definition chain_bad (evs : list event) (i : nat) (chain : list cert) : Prop :=
  exists c issuer, in_chain c issuer chain /\ ct_servers c <> [] /\
  ((exists r, used evs i c issuer 0 r /\ rs_status r <> Good) \/ unanswered evs i c issuer).
(** No certificate of the chain can be asked about. *)
Definition chain_silent (evs : list event) (i : nat) (chain : list cert) : Prop :=
  forall c issuer, in_chain c issuer chain -> ct_servers c <> [] -> excused evs i c issuer.
(** A stapled good answer contradicts what is in the cache. *)
Definition contradicted (evs : list event) (i : nat) (c issuer : cert) : Prop :=
  exists r old, stapled evs i c issuer r /\ In (EGet i (ct_raw c) (Some (Some old))) evs /\ rs_status old = Revoked.
