(** C47, C48 and C63: OCSP answers about peers and about the proxy's own certificates. *)
From Verif Require Import Base OcspModel OcspSpec OcspProofs.
Open Scope Z_scope.

(** ** C47 *)

(** A peer that is accepted although its certificate has a responder has a verified chain
    in which every certificate with a responder is good, by an answer that the issuer has
    signed and that is new or was kept and is not expired; or no request could be made. *)
Theorem C47_accepted_only_if_good_partial :
  forall ops i peer chains st,
  In (EVerify i peer chains st) (events ops) -> In (EEnd i (Verdict None)) (events ops) ->
  ct_servers peer = [] \/ chains = [] \/ exists ch, In ch chains /\ chain_good (events ops) i ch.
Proof. exact accepted_only_if_good. Qed.

(** A peer that is refused has a certificate in every chain that is revoked or unknown, or
    about which its responders say nothing useful; or it sent a good answer that
    contradicts what is known; or one of its chains cannot be asked about at all. *)
Theorem C47_rejected_only_if_bad_partial :
  forall ops i peer chains st er,
  In (EVerify i peer chains st) (events ops) -> In (EEnd i (Verdict (Some er))) (events ops) ->
  (forall ch, In ch chains -> chain_bad (events ops) i ch) \/ (exists ch, In ch chains /\ chain_silent (events ops) i ch) \/
  exists c iss rest more, chains = (c :: iss :: rest) :: more /\ contradicted (events ops) i c iss.
Proof. exact rejected_only_if_bad. Qed.

(** What is in the cache about a certificate came from its responder or from a peer, signed
    by the issuer. *)
Theorem C47_cache_content :
  forall ops i h r, In (EGet i h (Some (Some r))) (events ops) -> obtained (events ops) h r.
Proof. exact cache_content. Qed.

(** Certificates and answers to try this on. *)
Definition root : cert := {| ct_raw := lit "root"; ct_serial := 1; ct_key := lit "RK"; ct_servers := []; ct_spki_ok := true |}.
Definition mid : cert := {| ct_raw := lit "mid"; ct_serial := 2; ct_key := lit "MK"; ct_servers := [lit "http://root"]; ct_spki_ok := true |}.
Definition mid2 : cert := {| ct_raw := lit "mid2"; ct_serial := 22; ct_key := lit "MK"; ct_servers := []; ct_spki_ok := true |}.
Definition leaf : cert := {| ct_raw := lit "leaf"; ct_serial := 3; ct_key := lit "LK"; ct_servers := [lit "http://mid"]; ct_spki_ok := true |}.
Definition plain : cert := {| ct_raw := lit "plain"; ct_serial := 4; ct_key := lit "PK"; ct_servers := []; ct_spki_ok := true |}.
Definition says (signer : str) (n : N) (s : status) (t : Z) : reply := Body {| wi_signer := signer; wi_singles := [(n, s, t)] |}.
(** [go i l]: call i goes on, the network says [l] *)
Definition go (i : nat) (now : Z) (l : list reply) : list op := map (Go i now) l.

Example C47_accepted_example :
  let ops := CallVerify leaf [[leaf; mid; root]] None ::
             go 0 10 [NoAnswer; says (lit "MK") 3 Good 100; NoAnswer; NoAnswer; says (lit "RK") 2 Good 100; NoAnswer; NoAnswer] in
  In (EVerify 0 leaf [[leaf; mid; root]] None) (events ops) /\ In (EEnd 0 (Verdict None)) (events ops).
Proof. vm_compute. split; repeat (try (left; reflexivity); right). Qed.
Example C47_rejected_example :
  let ops := CallVerify leaf [[leaf; mid; root]] None ::
             go 0 10 [NoAnswer; says (lit "MK") 3 Good 100; NoAnswer; NoAnswer; says (lit "RK") 2 Revoked 100; NoAnswer; NoAnswer] in
  In (EEnd 0 (Verdict (Some ErrRevoked))) (events ops).
Proof. vm_compute. repeat (try (left; reflexivity); right). Qed.
(** A peer cannot vouch for itself when its certificate is known to be revoked. *)
Example C47_contradiction_example :
  let ops := CallVerify leaf [[leaf; mid; root]] None :: go 0 10 [NoAnswer; says (lit "MK") 3 Revoked 100; NoAnswer; NoAnswer] ++
             CallVerify leaf [[leaf; mid; root]] (Some {| wi_signer := lit "MK"; wi_singles := [(3%N, Good, 100)] |}) ::
             go 1 200 [NoAnswer; NoAnswer; NoAnswer; NoAnswer] in
  In (EVerify 1 leaf [[leaf; mid; root]] (Some {| wi_signer := lit "MK"; wi_singles := [(3%N, Good, 100)] |})) (events ops) /\ ~ In (EEnd 1 (Verdict None)) (events ops).
Proof. vm_compute. split; [repeat (try (left; reflexivity); right)|]. intuition discriminate. Qed.

(** In [chain] every certificate with a responder is good. *)
Definition all_good (ops : list op) (i : nat) (chains : list (list cert)) : Prop := exists ch, In ch chains /\ chain_good (events ops) i ch.

(** A certificate without a responder is accepted whatever is known of its issuers. *)
Theorem C47_issuers_unchecked_refuted :
  ~ (forall ops i peer chains st,
     In (EVerify i peer chains st) (events ops) -> In (EEnd i (Verdict None)) (events ops) ->
     chains = [] \/ exists ch, In ch chains /\ chain_good (events ops) i ch).
Proof.
  intros H. set (ops := CallVerify plain [[plain; mid; root]] None :: go 0 10 [NoAnswer]).
  destruct (H ops 0%nat plain [[plain; mid; root]] None) as [X|(ch & [<-|[]] & G)].
  - vm_compute. repeat (try (left; reflexivity); right).
  - vm_compute. repeat (try (left; reflexivity); right).
  - discriminate.
  - assert (M : in_chain mid root [plain; mid; root]) by (exists [plain], [root]; auto).
    destruct (G mid root M) as [(r & U & _)|E]; [discriminate|..].
    + destruct U as [(s & w & _ & I & _)|(now & I & _)]; vm_compute in I; intuition discriminate.
    + destruct E as [E|(s & _ & I)]; [discriminate|]. vm_compute in I. intuition discriminate.
Qed.

(** Without verified chains (InsecureSkipVerify) a peer that is known to be revoked is
    accepted. *)
Theorem C47_no_chains_refuted :
  ~ (forall ops i peer chains st r,
     In (EVerify i peer chains st) (events ops) -> In (EEnd i (Verdict None)) (events ops) ->
     obtained (events ops) (ct_raw peer) r -> rs_status r <> Revoked).
Proof.
  intros H. set (ops := CallVerify leaf [[leaf; mid; root]] None :: go 0 10 [NoAnswer; says (lit "MK") 3 Revoked 100; NoAnswer] ++
    CallVerify leaf [] None :: go 1 10 [NoAnswer]).
  refine (H ops 1%nat leaf [] None {| rs_serial := 3; rs_status := Revoked; rs_next := 100; rs_raw := {| wi_signer := lit "MK"; wi_singles := [(3%N, Revoked, 100)] |} |} _ _ _ eq_refl).
  - vm_compute. repeat (try (left; reflexivity); right).
  - vm_compute. repeat (try (left; reflexivity); right).
  - exists 0%nat, leaf, mid. split; [reflexivity|]. split.
    + left. exists leaf, [[leaf; mid; root]], None, [leaf; mid; root]. split; [vm_compute; repeat (try (left; reflexivity); right)|]. split; [left; reflexivity|]. exists [], [mid; root]. auto.
    + left. exists (lit "http://mid"), {| wi_signer := lit "MK"; wi_singles := [(3%N, Revoked, 100)] |}. split; [left; reflexivity|]. split; [vm_compute; repeat (try (left; reflexivity); right)|reflexivity].
Qed.

(** A chain without anything bad in it is refused because of an earlier chain.  (The callers
    ask only when the leaf has a responder, so that this needs a responder whose URL cannot
    be used.) *)
Theorem C47_stale_error_refuted :
  ~ (forall ops i peer chains st er,
     In (EVerify i peer chains st) (events ops) -> In (EEnd i (Verdict (Some er))) (events ops) -> st = None ->
     forall ch, In ch chains -> chain_bad (events ops) i ch).
Proof.
  intros H. set (ops := CallVerify leaf [[leaf; mid; root]; [leaf; mid2; root]] None :: go 0 10 [NoAnswer; NoRequest; NoAnswer; says (lit "RK") 2 Revoked 100; NoAnswer; NoAnswer; NoRequest; NoAnswer]).
  destruct (H ops 0%nat leaf [[leaf; mid; root]; [leaf; mid2; root]] None ErrRevoked) with (ch := [leaf; mid2; root]) as (c & iss & I & S & B).
  - vm_compute. repeat (try (left; reflexivity); right).
  - vm_compute. repeat (try (left; reflexivity); right).
  - reflexivity.
  - right. left. reflexivity.
  - apply in_chain_cons in I as [[-> ->]|I]; [|apply in_chain_cons in I as [[-> ->]|I]; [destruct (S eq_refl)|apply in_chain_cons in I as [[-> ->]|(a & b & I & _)]; [destruct (S eq_refl)|destruct a; discriminate]]].
    assert (O : forall h r, ~ (exists w, In (EAnswer 0 (lit "http://mid") (Body w)) (events ops)) -> obtained (events ops) h r -> h <> ct_raw leaf).
    { intros h r N (j & c & iss & E & A & [(s & w & W1 & W2 & _)|(p & x & y & w & t & W & _)]) ->.
      - destruct A as [(p & chs & st & ch & A1 & A2 & (aa & bb & A3 & _))|A]; [|vm_compute in A; intuition discriminate].
        vm_compute in A1. repeat (destruct A1 as [A1|A1]; [try discriminate A1|]); [|destruct A1]. injection A1 as <- <- <- <-.
        assert (A4 : In c ch) by (rewrite A3; apply in_or_app; right; left; reflexivity). clear A3.
        assert (A5 : c = leaf \/ ct_raw c <> lit "leaf").
        { destruct A2 as [<-|[<-|[]]]; cbn in A4; repeat (destruct A4 as [<-|A4]; [first [left; reflexivity|right; discriminate]|]); destruct A4. }
        destruct A5 as [->|A5]; [|exact (A5 E)]. destruct W1 as [<-|[]]. vm_compute in W2. intuition discriminate.
      - vm_compute in W. intuition discriminate. }
    assert (N : ~ (exists w, In (EAnswer 0 (lit "http://mid") (Body w)) (events ops))) by (intros (w & I); vm_compute in I; intuition discriminate).
    destruct B as [(r & [(s & w & W1 & W2 & W3)|(t & _ & _ & W)] & R)|(s & x & W1 & W2 & W3)].
    + destruct W1 as [<-|[]]. apply N. exists w. exact W2.
    + exact (O _ _ N W eq_refl).
    + destruct W1 as [<-|[]]. destruct W3 as [->|(w & -> & _)]; [vm_compute in W2; intuition discriminate|]. apply N. exists w. exact W2.
Qed.

(** ** C48 *)

(** An answer that a peer sends is used only when it is about its certificate, good and
    current; one that was kept only while it is current (definitions [stapled], [used]).
    What is stapled to the proxy's own certificates has an hour left or is new. *)
Theorem C48_staple_good :
  forall ops i w, In (EEnd i (Staple (Some w))) (events ops) ->
  exists leaf issuer r, In (EStaple i leaf issuer) (events ops) /\ used (events ops) i leaf issuer 3600000000000 r /\ rs_status r = Good /\ rs_raw r = w.
Proof. exact stapled_good. Qed.

Example C48_staple_example :
  let ops := CallStaple leaf mid :: go 0 10 [NoAnswer; says (lit "MK") 3 Good 100; NoAnswer; NoAnswer] in
  In (EEnd 0 (Staple (Some {| wi_signer := lit "MK"; wi_singles := [(3%N, Good, 100)] |}))) (events ops).
Proof. vm_compute. repeat (try (left; reflexivity); right). Qed.

(** A peer is accepted on the basis of an answer about another certificate ... *)
Theorem C48_about_the_certificate_refuted :
  ~ (forall ops i peer c issuer,
     In (EVerify i peer [[c; issuer]] None) (events ops) -> In (EEnd i (Verdict None)) (events ops) -> ct_servers c <> [] -> ct_servers peer <> [] ->
     exists r, (used (events ops) i c issuer 0 r /\ rs_status r = Good /\ rs_serial r = ct_serial c) \/ excused (events ops) i c issuer).
Proof.
  intros H. set (ops := CallVerify leaf [[leaf; root]] None :: go 0 10 [NoAnswer; says (lit "RK") 77 Good 100; NoAnswer; NoAnswer]).
  destruct (H ops 0%nat leaf leaf root) as (r & [(U & G & S)|[E|(s & I1 & I2)]]);
    try solve [vm_compute; repeat (try (left; reflexivity); right)]; try discriminate.
  - assert (O : forall h r', obtained (events ops) h r' -> rs_serial r' = 77%N).
    { intros h r' (j & c & iss & _ & _ & [(s & w & _ & W2 & W3)|(p & x & y & w & t & W & _)]).
      - vm_compute in W2. repeat (destruct W2 as [W2|W2]; [try discriminate W2|]); [|destruct W2]. inversion W2. subst.
        unfold parse_response in W3. cbn in W3. destruct (str_eqb _ _); inversion W3. reflexivity.
      - vm_compute in W. intuition discriminate. }
    destruct U as [(s & w & _ & W2 & W3)|(t & _ & _ & W)].
    + vm_compute in W2. repeat (destruct W2 as [W2|W2]; [try discriminate W2|]); [|destruct W2]. inversion W2. subst. vm_compute in W3. inversion W3. subst. discriminate.
    + apply O in W. rewrite W in S. discriminate.
  - vm_compute in I2. intuition discriminate.
Qed.

(** ... and of an answer that has expired. *)
Theorem C48_current_refuted :
  ~ (forall ops i peer c issuer,
     In (EVerify i peer [[c; issuer]] None) (events ops) -> In (EEnd i (Verdict None)) (events ops) -> ct_servers c <> [] -> ct_servers peer <> [] ->
     forall now, (forall t x, In (Go i t x) ops -> now <= t) ->
     exists r, (used (events ops) i c issuer 0 r /\ rs_status r = Good /\ now < rs_next r) \/ excused (events ops) i c issuer).
Proof.
  intros H. set (ops := CallVerify leaf [[leaf; root]] None :: go 0 100 [NoAnswer; says (lit "RK") 3 Good 5; NoAnswer; NoAnswer]).
  destruct (H ops 0%nat leaf leaf root) with (now := 100) as (r & [(U & G & S)|[E|(s & I1 & I2)]]);
    try solve [vm_compute; repeat (try (left; reflexivity); right)]; try discriminate.
  - intros t x I. cbn in I. repeat (destruct I as [I|I]; [try discriminate I; inversion I; lia|]). destruct I.
  - destruct U as [(s & w & _ & W2 & W3)|(t & I & _)].
    + vm_compute in W2. repeat (destruct W2 as [W2|W2]; [try discriminate W2|]); [|destruct W2]. inversion W2. subst. vm_compute in W3. inversion W3. subst. cbn in S. lia.
    + vm_compute in I. intuition discriminate.
  - vm_compute in I2. intuition discriminate.
Qed.

(** ** C63 *)

(** Nothing crashes unless the proxy serves a certificate of the certificate manager that
    has no responder. *)
Theorem C63_crash_cause_partial :
  forall ops, (exists i, In (ECrash i) (events ops)) \/ In EFlushCrash (events ops) ->
  exists j leaf issuer, In (EStaple j leaf issuer) (events ops) /\ ct_servers leaf = [].
Proof. exact crash_cause. Qed.

(** Such a certificate crashes the handshake every time ... *)
Theorem C63_no_responder_crashes_refuted :
  ~ (forall ops i, ~ In (ECrash i) (events ops)).
Proof. intros H. apply (H (CallStaple plain mid :: go 0 10 [NoAnswer; NoAnswer; NoAnswer]) 0%nat). vm_compute. repeat (try (left; reflexivity); right). Qed.
Definition run_from (st : state) (ops : list op) : list event :=
  snd (fold_left (fun se o => let '(st, e) := step (fst se) o in (st, e :: snd se)) ops (st, [])).
Lemma run_from_acc ops st e : snd (fold_left (fun se o => let '(st, e) := step (fst se) o in (st, e :: snd se)) ops (st, e)) = run_from st ops ++ e.
Proof.
  unfold run_from. revert st e. induction ops as [|o ops IH]; intros st e; [reflexivity|]. cbn [fold_left fst snd].
  destruct (step st o) as [st' ev]. rewrite IH, (IH st' [ev]), <- app_assoc. reflexivity.
Qed.
Lemma run_from_cons o ops st : run_from st (o :: ops) = run_from (fst (step st o)) ops ++ [snd (step st o)].
Proof. unfold run_from at 1. cbn [fold_left fst snd]. destruct (step st o) as [st' ev]. apply run_from_acc. Qed.
Lemma nth_set_same {A : Type} i (x : A) l y : nth_error l i = Some y -> nth_error (set_nth i x l) i = Some x.
Proof. revert i. induction l as [|z l IH]; intros [|i]; cbn; auto; discriminate. Qed.

Theorem C63_every_handshake_crashes :
  forall issuer c now x st, ct_servers c = [] -> ct_spki_ok issuer = true ->
  (assoc (ct_raw c) (s_cache st) = None \/ assoc (ct_raw c) (s_cache st) = Some None) ->
  exists n, In (ECrash (List.length (s_calls st))) (run_from st (CallStaple c issuer :: go (List.length (s_calls st)) now (repeat x n))).
Proof.
  intros issuer c now x st S K A.
  assert (P : nth_error (s_calls st ++ [Some (get_staple c issuer)]) (List.length (s_calls st)) = Some (Some (get_staple c issuer))).
  { rewrite nth_error_app2 by lia. rewrite Nat.sub_diag. reflexivity. }
  assert (G : exists k, get_staple c issuer = Get (ct_raw c) k /\ k None = Add (ct_raw c) None Crash /\ k (Some None) = Crash).
  { unfold get_staple, get_response. cbn [bind]. eexists. split; [reflexivity|]. split; [|reflexivity].
    unfold fetch_and_add, fetch_ocsp. rewrite K, S. reflexivity. }
  destruct G as (k & G & G1 & G2).
  rewrite G in P.
  assert (C1 : forall st' k, nth_error (s_calls st') (List.length (s_calls st)) = Some (Some Crash) -> In (ECrash (List.length (s_calls st))) (run_from st' (go (List.length (s_calls st)) now [x]) ++ k)).
  { intros st1 l H. apply in_or_app. left. cbn [go map]. rewrite run_from_cons. cbn [step]. rewrite H. apply in_or_app. right. left. reflexivity. }
  destruct A as [A|A].
  - exists 3%nat. rewrite run_from_cons. apply in_or_app. left. cbn [repeat go map]. rewrite run_from_cons. cbn [step fst new_call s_calls]. rewrite G, P.
    cbn [fst with_call s_cache s_calls s_disk new_call]. rewrite A, G1. rewrite run_from_cons. apply in_or_app. left. cbn [step s_calls]. unfold with_call, new_call. cbn [s_calls s_cache s_disk].
    rewrite (nth_set_same _ _ _ _ P). cbn [fst]. apply C1. cbn [s_calls]. eapply nth_set_same. eapply nth_set_same. exact P.
  - exists 2%nat. rewrite run_from_cons. apply in_or_app. left. cbn [repeat go map]. rewrite run_from_cons. cbn [step fst new_call s_calls]. rewrite G, P.
    cbn [fst with_call s_cache s_calls s_disk new_call]. rewrite A, G2. apply C1. cbn [s_calls]. eapply nth_set_same. exact P.
Qed.

(** ... and, when the cache is next saved, the whole process. *)
Theorem C63_flush_crashes_refuted : ~ (forall ops, ~ In EFlushCrash (events ops)).
Proof. intros H. apply (H (CallStaple plain mid :: go 0 10 [NoAnswer; NoAnswer; NoAnswer] ++ [Flush 60])). vm_compute. repeat (try (left; reflexivity); right). Qed.

Print Assumptions C47_accepted_only_if_good_partial.
Print Assumptions C47_rejected_only_if_bad_partial.
Print Assumptions C47_cache_content.
Print Assumptions C47_stale_error_refuted.
Print Assumptions C48_staple_good.
Print Assumptions C48_about_the_certificate_refuted.
Print Assumptions C63_crash_cause_partial.
Print Assumptions C63_every_handshake_crashes.
