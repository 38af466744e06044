(** The format of authenticator data, and histories of the passkey endpoints. *)
From Verif Require Import Base PasskeyModel.
Open Scope Z_scope.

(** ** Authenticator data: https://w3c.github.io/webauthn/#sctn-authenticator-data *)
Definition big_endian (b : str) : N := fold_left (fun n x => (n * 256 + N_of_ascii x)%N) b 0%N.

(** rpIdHash (32) | flags (1) | signCount (4) | attested credential data, if any | extensions *)
Definition layout (rp : str) (flags : ascii) (count : str) (creds : option (str * str * str * str)) (trailing : str) : str :=
  rp ++ [flags] ++ count ++
  match creds with
  | None => []
  | Some (aaguid, len, id, key) => aaguid ++ len ++ id ++ key
  end ++ trailing.

(** [raw] encodes [ad], and [trailing] follows.  [cbor]: how a first CBOR item is split off. *)
Definition encodes (cbor : str -> option (str * str)) (raw : str) (ad : auth_data) (trailing : str) : Prop :=
  exists flags count creds,
    raw = layout (ad_rp ad) flags count creds trailing /\
    List.length (ad_rp ad) = 32%nat /\ List.length count = 4%nat /\ big_endian count = ad_count ad /\
    ad_up ad = N.testbit (N_of_ascii flags) 0 /\ ad_uv ad = N.testbit (N_of_ascii flags) 2 /\ ad_be ad = N.testbit (N_of_ascii flags) 3 /\
    ad_bs ad = N.testbit (N_of_ascii flags) 4 /\ ad_at ad = N.testbit (N_of_ascii flags) 6 /\ ad_ed ad = N.testbit (N_of_ascii flags) 7 /\
    match creds with
    | None => ad_at ad = false /\ ad_creds ad = None
    | Some (aaguid, len, id, key) =>
        ad_at ad = true /\ ad_creds ad = Some (aaguid, id, key) /\
        List.length aaguid = 16%nat /\ List.length len = 2%nat /\ big_endian len = N.of_nat (List.length id) /\ (List.length id <= 1023)%nat /\
        cbor (key ++ trailing) = Some (key, trailing)
    end.

(** Splitting off a first item loses nothing. *)
Definition splits (cbor : str -> option (str * str)) : Prop := forall s k r, cbor s = Some (k, r) -> s = k ++ r.

(** ** Histories *)
Definition pafter (e : env) (ops : list pop) : pstate := fst (prun e empty_pstate ops).
Definition panswer (e : env) (before : list pop) (o : pop) : pout := snd (pstep e (pafter e before) o).
Definition poutputs (e : env) (ops : list pop) : list (pop * pout) := snd (prun e empty_pstate ops).

(** The keys that the user with this e-mail address has. *)
Definition keys_of (st : pstate) (email : str) : list ukey :=
  match assoc email (p_subjects st) with
  | Some h => match assoc h (p_handles st) with Some u => us_keys u | None => [] end
  | None => []
  end.

(** Random user handles: no two are the same. *)
Definition uids (ops : list pop) : list str := flat_map (fun o => match o with AttOptions _ uid _ _ => [uid] | _ => [] end) ops.

(** The e-mail address on whose behalf an operation acts. *)
Definition acts_for (o : pop) : option str :=
  match o with AddKey c _ _ _ _ => u_email c | DeleteKey c _ _ => Some (match u_email c with Some m => m | None => [] end) | _ => None end.

(** Challenges: how often one was accepted, how often it was drawn. *)
Definition challenge_of (e : env) (o : pop) : option str :=
  match o with
  | AddKey _ _ cdata _ _ => option_map cd_challenge (e_client_data e cdata)
  | Check a _ _ => option_map cd_challenge (e_client_data e (a_cdata a))
  | _ => None
  end.
Definition accepted (out : pout) : bool := match out with PAdded _ _ | PLogin _ _ | PRefresh => true | _ => false end.
Definition uses (e : env) (ch : str) (tr : list (pop * pout)) : nat :=
  List.length (filter (fun x => accepted (snd x) && opt_eqb str_eqb (challenge_of e (fst x)) (Some ch)) tr).
Definition challenges_drawn (ops : list pop) : list str :=
  flat_map (fun o => match o with AttOptions _ _ ch _ => [ch] | AssOptions ch _ => [ch] | _ => [] end) ops.

(** Clock readings never decrease along the history. *)
Definition pop_time (o : pop) : option Z :=
  match o with Vacuum t => Some t | AttOptions _ _ _ t => Some t | AssOptions _ t => Some t | Check _ _ t => None | _ => None end.
Fixpoint pclock (t : Z) (ops : list pop) : Prop :=
  match ops with
  | [] => True
  | o :: r => match pop_time o with Some u => t <= u /\ pclock u r | None => pclock t r end
  end.

(** How the keys of [m] change in one operation, given its answer. *)
Definition keys_change (e : env) (m : str) (keys : list ukey) (o : pop) (out : pout) : list ukey :=
  match o, out with
  | AddKey c _ _ _ _, PAdded _ k => if opt_eqb str_eqb (u_email c) (Some m) then keys ++ [k] else keys
  | DeleteKey c _ id, PNothing =>
      if str_eqb (match u_email c with Some x => x | None => [] end) m then filter (fun k => negb (str_eqb (k_id k) id)) keys else keys
  | _, _ => keys
  end.

(** The key [id] of [m] is deleted by this operation. *)
Definition deletes (e : env) (m id : str) (o : pop) : Prop :=
  exists c sk, o = DeleteKey c sk id /\ sk <> e_hash e id /\ match u_email c with Some x => x | None => [] end = m.
