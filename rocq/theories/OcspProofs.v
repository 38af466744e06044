(** Proofs about the OCSP cache. *)
From Verif Require Import Base OcspModel OcspSpec.
Open Scope Z_scope.

Ltac inv H := inversion H; subst; clear H.

(** * More happens *)
Lemma is_about_mono e e' i c iss : incl e e' -> is_about e i c iss -> is_about e' i c iss.
Proof. intros I [(p & ch & st & chain & A & B & C)|A]; [left; exists p, ch, st, chain; auto|right; auto]. Qed.
Lemma answered_mono e e' i c iss r : incl e e' -> answered e i c iss r -> answered e' i c iss r.
Proof. intros I (s & w & A & B & C). exists s, w. auto. Qed.
Lemma stapled_mono e e' i c iss r : incl e e' -> stapled e i c iss r -> stapled e' i c iss r.
Proof. intros I (p & chain & chs & w & now & A & B & C & D & E & F). exists p, chain, chs, w, now. auto 10. Qed.
Lemma obtained_mono e e' h r : incl e e' -> obtained e h r -> obtained e' h r.
Proof.
  intros I (j & c & iss & A & B & C). exists j, c, iss. split; [exact A|]. split; [eapply is_about_mono; eauto|].
  destruct C; [left; eapply answered_mono|right; eapply stapled_mono]; eauto.
Qed.
Lemma used_mono e e' i c iss m r : incl e e' -> used e i c iss m r -> used e' i c iss m r.
Proof.
  intros I [A|(now & A & B & C)]; [left; eapply answered_mono; eauto|]. right. exists now. split; [auto|]. split; [exact B|]. eapply obtained_mono; eauto.
Qed.
Lemma excused_mono e e' i c iss : incl e e' -> excused e i c iss -> excused e' i c iss.
Proof. intros I [A|(s & A & B)]; [left; exact A|]. right. exists s. auto. Qed.
Lemma unanswered_mono e e' i c iss : incl e e' -> unanswered e i c iss -> unanswered e' i c iss.
Proof. intros I (s & x & A & B & C). exists s, x. auto. Qed.
Lemma good_mono e e' i ch : incl e e' -> chain_good e i ch -> chain_good e' i ch.
Proof.
  intros I H c iss A B. destruct (H c iss A B) as [(r & U & G)|E]; [left; exists r; split; [eapply used_mono; eauto|exact G]|right; eapply excused_mono; eauto].
Qed.
Lemma bad_mono e e' i ch : incl e e' -> chain_bad e i ch -> chain_bad e' i ch.
Proof.
  intros I (c & iss & A & B & C). exists c, iss. split; [exact A|]. split; [exact B|].
  destruct C as [(r & U & G)|E]; [left; exists r; split; [eapply used_mono; eauto|exact G]|right; eapply unanswered_mono; eauto].
Qed.
Lemma silent_mono e e' i ch : incl e e' -> chain_silent e i ch -> chain_silent e' i ch.
Proof. intros I H c iss A B. eapply excused_mono; eauto. Qed.
Lemma contradicted_mono e e' i c iss : incl e e' -> contradicted e i c iss -> contradicted e' i c iss.
Proof. intros I (r & old & A & B & C). exists r, old. split; [eapply stapled_mono; eauto|]. auto. Qed.

(** A certificate without a responder was to be stapled. *)
Definition nil_cause (evs : list event) : Prop := exists j leaf issuer, In (EStaple j leaf issuer) evs /\ ct_servers leaf = [].
Lemma nil_mono e e' : incl e e' -> nil_cause e -> nil_cause e'.
Proof. intros I (j & l & iss & A & B). exists j, l, iss. auto. Qed.

(** What may be in the cache. *)
Definition known (evs : list event) (h : str) (r : option response) : Prop :=
  match r with Some r => obtained evs h r | None => nil_cause evs end.
Lemma known_mono e e' h r : incl e e' -> known e h r -> known e' h r.
Proof. destruct r; [apply obtained_mono|apply nil_mono]. Qed.

(** * What a program does, whatever the others do *)
Fixpoint sat {A : Type} (i : nat) (p : prog A) (Q : A -> list event -> Prop) (evs : list event) : Prop :=
  match p with
  | Ret a => forall e, incl evs e -> Q a e
  | Crash => nil_cause evs
  | Clock k => forall t e, incl evs e -> sat i (k t) Q (EClock i t :: e)
  | Get h k => forall v e, incl evs e -> (forall r, v = Some r -> known e h r) -> sat i (k v) Q (EGet i h v :: e)
  | Add h r k => (forall e, incl evs e -> known (EAdd i h r :: e) h r) /\ (forall e, incl evs e -> sat i k Q (EAdd i h r :: e))
  | Ask s k => forall x e, incl evs e -> sat i (k x) Q (EAnswer i s x :: e)
  end.

Lemma incl_cons_self {A : Type} (x : A) l : incl l (x :: l).
Proof. intros y H. right. exact H. Qed.
Lemma incl_both {A : Type} (x : A) l l' : incl l l' -> incl (x :: l) (x :: l').
Proof. intros H y [->|K]; [left; reflexivity|right; auto]. Qed.

Lemma sat_mono {A : Type} i (p : prog A) Q e e' : incl e e' -> sat i p Q e -> sat i p Q e'.
Proof.
  intros I. destruct p; cbn [sat].
  - intros H x J. apply H. eapply incl_tran; eauto.
  - apply nil_mono. exact I.
  - intros H t x J. apply H. eapply incl_tran; eauto.
  - intros H v x J K. apply H; [eapply incl_tran; eauto|exact K].
  - intros [H1 H2]. split; intros x J; [apply H1|apply H2]; eapply incl_tran; eauto.
  - intros H y x J. apply H. eapply incl_tran; eauto.
Qed.
Lemma sat_bind {A B : Type} i (p : prog A) (f : A -> prog B) Q R e :
  sat i p R e -> (forall a e', incl e e' -> R a e' -> sat i (f a) Q e') -> sat i (bind p f) Q e.
Proof.
  revert e. induction p as [a| |k IH|h k IH|h r k IH|s k IH]; cbn [bind sat]; intros e H F.
  - apply F; [apply incl_refl|]. apply H. apply incl_refl.
  - exact H.
  - intros t e' I. apply IH; [apply H; exact I|]. intros a e2 J. apply F. eapply incl_tran; [exact I|]. eapply incl_tran; [apply incl_cons_self|exact J].
  - intros v e' I K. apply IH; [apply H; assumption|]. intros a e2 J. apply F. eapply incl_tran; [exact I|]. eapply incl_tran; [apply incl_cons_self|exact J].
  - destruct H as [H1 H2]. split; [exact H1|]. intros e' I. apply IH; [apply H2; exact I|]. intros a e2 J. apply F. eapply incl_tran; [exact I|]. eapply incl_tran; [apply incl_cons_self|exact J].
  - intros x e' I. apply IH; [apply H; exact I|]. intros a e2 J. apply F. eapply incl_tran; [exact I|]. eapply incl_tran; [apply incl_cons_self|exact J].
Qed.
Lemma sat_weaken {A : Type} i (p : prog A) (Q R : A -> list event -> Prop) e :
  (forall a e', incl e e' -> Q a e' -> R a e') -> sat i p Q e -> sat i p R e.
Proof.
  revert e. induction p as [a| |k IH|h k IH|h r k IH|s k IH]; cbn [sat]; intros e F H.
  - intros e' I. apply F; auto.
  - exact H.
  - intros t e' I. apply IH; [|apply H; exact I]. intros a e2 J. apply F. eapply incl_tran; [exact I|]. eapply incl_tran; [apply incl_cons_self|exact J].
  - intros v e' I K. apply IH; [|apply H; assumption]. intros a e2 J. apply F. eapply incl_tran; [exact I|]. eapply incl_tran; [apply incl_cons_self|exact J].
  - destruct H as [H1 H2]. split; [exact H1|]. intros e' I. apply IH; [|apply H2; exact I]. intros a e2 J. apply F. eapply incl_tran; [exact I|]. eapply incl_tran; [apply incl_cons_self|exact J].
  - intros x e' I. apply IH; [|apply H; exact I]. intros a e2 J. apply F. eapply incl_tran; [exact I|]. eapply incl_tran; [apply incl_cons_self|exact J].
Qed.

(** * Response *)
Definition fetched (i : nat) (c issuer : cert) (x : rerr) (e : list event) : Prop :=
  match x with
  | (Some r, None) => answered e i c issuer r
  | (None, None) => ct_servers c = []
  | (_, Some Internal) => excused e i c issuer
  | (_, Some Protocol) => unanswered e i c issuer
  | (_, Some _) => False
  end.
Lemma fetched_mono i c iss x e e' : incl e e' -> fetched i c iss x e -> fetched i c iss x e'.
Proof.
  intros I. destruct x as [[r|] [[]|]]; cbn; auto;
    first [apply answered_mono|apply excused_mono|apply unanswered_mono]; exact I.
Qed.

Lemma fetch_loop_sat i c iss servers last e :
  incl servers (ct_servers c) -> (last = (None, None) -> servers = [] -> ct_servers c = []) ->
  (last <> (None, None) -> fetched i c iss last e) ->
  sat i (fetch_loop iss servers last) (fetched i c iss) e.
Proof.
  revert last e. induction servers as [|s rest IH]; intros last e S Z L; cbn [fetch_loop].
  - cbn [sat]. intros e' I. destruct last as [[r|] [er|]].
    1-3: eapply fetched_mono; [exact I|]; apply L; discriminate.
    cbn. apply Z; reflexivity.
  - assert (Hs : In s (ct_servers c)) by (apply S; left; reflexivity).
    assert (Hr : incl rest (ct_servers c)) by (intros y Y; apply S; right; exact Y).
    unfold fetch_one. cbn [bind sat]. intros x e' I. destruct x as [| |w]; cbn [bind].
    + apply IH; [exact Hr|discriminate|]. intros _. cbn. right. exists s. split; [exact Hs|left; reflexivity].
    + apply IH; [exact Hr|discriminate|]. intros _. cbn. exists s, NoAnswer. split; [exact Hs|]. split; [left; reflexivity|left; reflexivity].
    + destruct (parse_response w None (Some (ct_key iss))) as [r|] eqn:P; cbn [bind].
      * assert (A : answered (EAnswer i s (Body w) :: e') i c iss r) by (exists s, w; split; [exact Hs|]; split; [left; reflexivity|exact P]).
        destruct (rs_status r) eqn:G.
        1,2: cbn [sat]; intros e2 J; cbn; eapply answered_mono; eauto.
        apply IH; [exact Hr|discriminate|]. intros _. cbn. exact A.
      * apply IH; [exact Hr|discriminate|]. intros _. cbn. exists s, (Body w). split; [exact Hs|]. split; [left; reflexivity|right; exists w; auto].
Qed.
Lemma fetch_sat i c iss e : sat i (fetch_ocsp c iss) (fetched i c iss) e.
Proof.
  unfold fetch_ocsp. destruct (ct_spki_ok iss) eqn:K.
  - apply fetch_loop_sat; [apply incl_refl|auto|]. intros H. destruct (H eq_refl).
  - cbn [sat]. intros e' I. cbn. left. exact K.
Qed.

Definition got (i : nat) (c issuer : cert) (margin : Z) (x : rerr) (e : list event) : Prop :=
  match x with
  | (Some r, None) => used e i c issuer margin r
  | (None, None) => ct_servers c = []
  | (_, Some Internal) => excused e i c issuer
  | (_, Some Protocol) => unanswered e i c issuer
  | (_, Some _) => False
  end.
Lemma fetched_got i c iss m x e : fetched i c iss x e -> got i c iss m x e.
Proof. destruct x as [[r|] [[]|]]; cbn; auto. intros H. left. exact H. Qed.
Lemma got_mono i c iss m x e e' : incl e e' -> got i c iss m x e -> got i c iss m x e'.
Proof.
  intros I. destruct x as [[r|] [[]|]]; cbn; auto;
    first [apply used_mono|apply excused_mono|apply unanswered_mono]; exact I.
Qed.

(** [c] has a responder, or is to be stapled *)
Lemma fetch_and_add_sat i c iss m e :
  is_about e i c iss -> (ct_servers c = [] -> In (EStaple i c iss) e) -> sat i (fetch_and_add c iss) (got i c iss m) e.
Proof.
  intros A B. unfold fetch_and_add. eapply sat_bind; [apply fetch_sat|]. intros x e' I F. destruct x as [r [er|]]; cbn [snd fst].
  - cbn [sat]. intros e2 J. apply fetched_got. eapply fetched_mono; eauto.
  - cbn [sat]. split.
    + intros e2 J. eapply known_mono; [apply incl_cons_self|]. destruct r as [r|]; cbn in F |- *.
      * exists i, c, iss. split; [reflexivity|]. split; [eapply is_about_mono; [|exact A]; eapply incl_tran; eauto|]. left. eapply answered_mono; eauto.
      * exists i, c, iss. split; [|exact F]. apply J, I, B, F.
    + intros e2 J e3 J'. apply fetched_got. eapply fetched_mono; [|exact F]. eapply incl_tran; [exact J|]. eapply incl_tran; [apply incl_cons_self|exact J'].
Qed.
Lemma response_sat i c iss m e :
  is_about e i c iss -> (ct_servers c = [] -> In (EStaple i c iss) e) -> sat i (get_response c iss m) (got i c iss m) e.
Proof.
  intros A B. unfold get_response. cbn [sat]. intros v e' I K.
  assert (A' : is_about (EGet i (ct_raw c) v :: e') i c iss) by (eapply is_about_mono; [|exact A]; eapply incl_tran; [exact I|apply incl_cons_self]).
  assert (B' : ct_servers c = [] -> In (EStaple i c iss) (EGet i (ct_raw c) v :: e')) by (intros Z; right; apply I, B, Z).
  destruct v as [[r|]|].
  - cbn [sat]. intros t e2 J. destruct (t + m <? rs_next r) eqn:T.
    + cbn [sat]. intros e3 J3. cbn. right. exists t. split; [apply J3; left; reflexivity|]. split; [apply Z.ltb_lt; exact T|].
      eapply obtained_mono; [|exact (K _ eq_refl)]. eapply incl_tran; [apply incl_cons_self|]. eapply incl_tran; [exact J|]. eapply incl_tran; [apply incl_cons_self|exact J3].
    + apply fetch_and_add_sat.
      * eapply is_about_mono; [|exact A']. eapply incl_tran; [exact J|apply incl_cons_self].
      * intros Z. right. apply J, B', Z.
  - cbn [sat]. specialize (K _ eq_refl). cbn in K. eapply nil_mono; [apply incl_cons_self|exact K].
  - apply fetch_and_add_sat; assumption.
Qed.

(** * One chain *)
Lemma in_chain_cons c iss x rest : in_chain c iss (x :: rest) -> (c = x /\ iss = hd x rest) \/ in_chain c iss rest.
Proof. intros (a & b & E & H). destruct a as [|y a]; cbn in E; inv E; [left; auto|right; exists a, b; auto]. Qed.
Lemma in_chain_here x rest : in_chain x (hd x rest) (x :: rest).
Proof. exists [], rest. auto. Qed.
Lemma in_chain_there c iss x rest : in_chain c iss rest -> in_chain c iss (x :: rest).
Proof. intros (a & b & -> & H). exists (x :: a), b. auto. Qed.

Definition chain_result (i : nat) (chain : list cert) (last : option err) (x : option err * bool) (e : list event) : Prop :=
  if snd x then chain_good e i chain /\ (fst x = None \/ (fst x = last /\ chain_silent e i chain)) else chain_bad e i chain /\ fst x <> None.
Lemma chain_result_mono i ch last x e e' : incl e e' -> chain_result i ch last x e -> chain_result i ch last x e'.
Proof.
  intros I. unfold chain_result. destruct (snd x).
  - intros [H1 H2]. split; [eapply good_mono; eauto|]. destruct H2 as [H2|[H2 H3]]; [left; exact H2|right; split; [exact H2|eapply silent_mono; eauto]].
  - intros [H1 H2]. split; [eapply bad_mono; eauto|exact H2].
Qed.

Lemma good_cons e i c rest : (ct_servers c <> [] -> (exists r, used e i c (hd c rest) 0 r /\ rs_status r = Good) \/ excused e i c (hd c rest)) ->
  chain_good e i rest -> chain_good e i (c :: rest).
Proof. intros H G c' iss A B. apply in_chain_cons in A as [[-> ->]|A]; [apply H; exact B|apply G; assumption]. Qed.
Lemma silent_cons e i c rest : (ct_servers c <> [] -> excused e i c (hd c rest)) -> chain_silent e i rest -> chain_silent e i (c :: rest).
Proof. intros H G c' iss A B. apply in_chain_cons in A as [[-> ->]|A]; [apply H; exact B|apply G; assumption]. Qed.
Lemma bad_cons e i c rest : chain_bad e i rest -> chain_bad e i (c :: rest).
Proof. intros (c' & iss & A & B). exists c', iss. split; [apply in_chain_there; exact A|exact B]. Qed.

Lemma check_chain_sat i chain last e :
  (forall c iss, in_chain c iss chain -> is_about e i c iss) -> sat i (check_chain chain last) (chain_result i chain last) e.
Proof.
  revert last e. induction chain as [|c rest IH]; intros last e A; cbn [check_chain].
  - cbn [sat]. intros e' I. unfold chain_result. cbn. split; [intros ? ? (a & b & E & _); destruct a; discriminate|].
    right. split; [reflexivity|]. intros ? ? (a & b & E & _). destruct a; discriminate.
  - assert (A' : forall c' iss, in_chain c' iss rest -> is_about e i c' iss) by (intros; apply A, in_chain_there; assumption).
    destruct (ct_servers c) as [|s0 ss] eqn:S.
    + eapply sat_weaken; [|apply IH; exact A']. intros [er b] e' I. unfold chain_result. cbn [snd fst]. destruct b; intros [H1 H2].
      * split; [apply good_cons; [intros X; destruct (X S)|exact H1]|]. destruct H2 as [H2|[H2 H3]]; [left; exact H2|right; split; [exact H2|]]. apply silent_cons; [intros X; destruct (X S)|exact H3].
      * split; [apply bad_cons; exact H1|exact H2].
    + assert (N : ct_servers c <> []) by (rewrite S; discriminate).
      eapply sat_bind; [apply (response_sat i c (hd c rest) 0); [apply A, in_chain_here|intros X; destruct (N X)]|].
      intros x e' I G.
      assert (Hbad : forall er, ((exists r, used e' i c (hd c rest) 0 r /\ rs_status r <> Good) \/ unanswered e' i c (hd c rest)) ->
                sat i (Ret (Some er, false)) (chain_result i (c :: rest) last) e').
      { intros er H. cbn [sat]. intros e2 J. unfold chain_result. cbn [snd fst]. split; [|discriminate]. eapply bad_mono; [exact J|].
        exists c, (hd c rest). split; [apply in_chain_here|]. split; [exact N|exact H]. }
      assert (A2 : forall c' iss, in_chain c' iss rest -> is_about e' i c' iss) by (intros; eapply is_about_mono; eauto).
      assert (Hexc : excused e' i c (hd c rest) -> sat i (check_chain rest last) (chain_result i (c :: rest) last) e').
      { intros H. eapply sat_weaken; [|apply IH; exact A2]. intros [er b] e2 J. unfold chain_result. cbn [snd fst]. destruct b; intros [H1 H2].
        - split; [apply good_cons; [intros _; right; eapply excused_mono; eauto|exact H1]|]. destruct H2 as [H2|[H2 H3]]; [left; exact H2|right; split; [exact H2|]].
          apply silent_cons; [intros _; eapply excused_mono; eauto|exact H3].
        - split; [apply bad_cons; exact H1|exact H2]. }
      destruct x as [[r|] [[]|]]; cbn [got] in G; try contradiction.
      * apply Hbad. right. exact G.
      * apply Hexc. exact G.
      * destruct (rs_status r) eqn:R.
        -- eapply sat_weaken; [|apply IH; exact A2]. intros [er b] e2 J. unfold chain_result. cbn [snd fst]. destruct b; intros [H1 H2].
           ++ split; [apply good_cons; [intros _; left; exists r; split; [eapply used_mono; eauto|exact R]|exact H1]|]. left. destruct H2 as [H2|[H2 _]]; exact H2.
           ++ split; [apply bad_cons; exact H1|exact H2].
        -- apply Hbad. left. exists r. split; [exact G|congruence].
        -- apply Hbad. left. exists r. split; [exact G|congruence].
      * apply Hbad. right. exact G.
      * apply Hexc. exact G.
Qed.

(** * All chains *)
Definition chains_result (i : nat) (chains : list (list cert)) (last x : option err) (e : list event) : Prop :=
  match x with
  | None => (chains = [] /\ last = None) \/ exists ch, In ch chains /\ chain_good e i ch
  | Some _ => (forall ch, In ch chains -> chain_bad e i ch) \/ exists ch, In ch chains /\ chain_silent e i ch
  end.
Lemma chains_result_mono i chs last x e e' : incl e e' -> chains_result i chs last x e -> chains_result i chs last x e'.
Proof.
  intros I. destruct x; cbn.
  - intros [H|(ch & H1 & H2)]; [left; intros ch K; eapply bad_mono; eauto|right; exists ch; split; [exact H1|eapply silent_mono; eauto]].
  - intros [H|(ch & H1 & H2)]; [left; exact H|right; exists ch; split; [exact H1|eapply good_mono; eauto]].
Qed.

Lemma check_chains_sat i chains last e :
  (forall ch c iss, In ch chains -> in_chain c iss ch -> is_about e i c iss) -> sat i (check_chains chains last) (chains_result i chains last) e.
Proof.
  revert last e. induction chains as [|ch rest IH]; intros last e A; cbn [check_chains].
  - cbn [sat]. intros e' I. destruct last; cbn; [left; intros ? []|left; auto].
  - eapply sat_bind; [apply (check_chain_sat i ch last); intros; eapply A; [left; reflexivity|assumption]|].
    intros [er b] e' I H. cbn [snd fst] in *. unfold chain_result in H. cbn [snd fst] in H. destruct b.
    + cbn [sat]. intros e2 J. apply (chains_result_mono i (ch :: rest) last er e'); [exact J|]. destruct H as [H1 H2].
      destruct er as [er|]; cbn.
      * right. destruct H2 as [H2|[H2 H3]]; [discriminate|]. exists ch. split; [left; reflexivity|exact H3].
      * right. exists ch. split; [left; reflexivity|exact H1].
    + destruct H as [H1 H2].
      eapply sat_weaken; [|apply IH; intros; eapply is_about_mono; [exact I|]; eapply A; [right; eassumption|assumption]].
      intros [x|] e2 J; cbn.
      * intros [K|(ch' & K1 & K2)].
        -- left. intros ch' [<-|K']; [eapply bad_mono; eauto|apply K; exact K'].
        -- right. exists ch'. split; [right; exact K1|exact K2].
      * intros [[-> K]|(ch' & K1 & K2)]; [destruct (H2 K)|]. right. exists ch'. split; [right; exact K1|exact K2].
Qed.

Definition verdict (i : nat) (chains : list (list cert)) (x : option err) (e : list event) : Prop :=
  match x with
  | None => chains = [] \/ exists ch, In ch chains /\ chain_good e i ch
  | Some _ => (forall ch, In ch chains -> chain_bad e i ch) \/ (exists ch, In ch chains /\ chain_silent e i ch) \/
              exists c iss rest more, chains = (c :: iss :: rest) :: more /\ contradicted e i c iss
  end.

Lemma verify_chains_sat i peer chains st e :
  In (EVerify i peer chains st) e -> sat i (verify_chains chains st) (verdict i chains) e.
Proof.
  intros V.
  assert (G : forall e', incl e e' -> sat i (check_chains chains None) (verdict i chains) e').
  { intros e' I. eapply sat_weaken; [|apply check_chains_sat].
    - intros [x|] e2 J; cbn; [intros [H|H]; [left; exact H|right; left; exact H]|]. intros [[H _]|H]; [left; exact H|right; exact H].
    - intros ch c iss H1 H2. left. exists peer, chains, st, ch. auto. }
  unfold verify_chains. destruct st as [w|]; [|apply G, incl_refl].
  destruct chains as [|[|c [|iss rest]] more]; try (apply G, incl_refl).
  destruct (parse_response w (Some (ct_serial c)) (Some (ct_key iss))) as [r|] eqn:P; [|apply G, incl_refl].
  assert (Sr : rs_serial r = ct_serial c).
  { unfold parse_response in P. destruct (find _ _) as [[[n s] t]|] eqn:F; [|discriminate]. destruct (str_eqb _ _); [|discriminate]. inv P. cbn.
    apply find_some in F as [_ F]. cbn in F. apply N.eqb_eq in F. exact F. }
  cbn [sat]. intros t e1 I1. destruct (t <? rs_next r) eqn:T; [|apply G; eapply incl_tran; [exact I1|apply incl_cons_self]].
  destruct (rs_status r) eqn:R; try (apply G; eapply incl_tran; [exact I1|apply incl_cons_self]).
  assert (S1 : forall e', incl (EClock i t :: e1) e' -> stapled e' i c iss r).
  { intros e' J. exists peer, rest, more, w, t. split; [apply J; right; apply I1; exact V|]. split; [exact P|]. split; [exact Sr|]. split; [exact R|].
    split; [apply J; left; reflexivity|apply Z.ltb_lt; exact T]. }
  assert (G2 : forall e', incl (EClock i t :: e1) e' -> sat i (Add (ct_raw c) (Some r) (check_chains ((c :: iss :: rest) :: more) None)) (verdict i ((c :: iss :: rest) :: more)) e').
  { intros e' J. cbn [sat]. split.
    - intros e2 J2. cbn. exists i, c, iss. split; [reflexivity|]. split.
      + left. exists peer, ((c :: iss :: rest) :: more), (Some w), (c :: iss :: rest). split; [right; apply J2, J; right; apply I1; exact V|]. split; [left; reflexivity|exists [], (iss :: rest); auto].
      + right. apply S1. eapply incl_tran; [exact J|]. eapply incl_tran; [exact J2|apply incl_cons_self].
    - intros e2 J2. apply G. eapply incl_tran; [exact I1|]. eapply incl_tran; [apply incl_cons_self|]. eapply incl_tran; [exact J|]. eapply incl_tran; [exact J2|apply incl_cons_self]. }
  cbn [sat]. intros v e2 I2 K. destruct v as [[old|]|].
  - destruct (rs_status old) eqn:O.
    1,3: apply G2; eapply incl_tran; [exact I2|apply incl_cons_self].
    cbn [sat]. intros e3 J. cbn. right. right. exists c, iss, rest, more. split; [reflexivity|]. exists r, old. split; [|split; [apply J; left; reflexivity|exact O]].
    apply S1. eapply incl_tran; [exact I2|]. eapply incl_tran; [apply incl_cons_self|exact J].
  - cbn [sat]. eapply nil_mono; [apply incl_cons_self|]. exact (K _ eq_refl).
  - apply G2. eapply incl_tran; [exact I2|apply incl_cons_self].
Qed.

Lemma verdict_mono i chs x e e' : incl e e' -> verdict i chs x e -> verdict i chs x e'.
Proof.
  intros I. destruct x; cbn.
  - intros [H|[(ch & H1 & H2)|(c & iss & rest & more & H1 & H2)]].
    + left. intros ch K. eapply bad_mono; eauto.
    + right. left. exists ch. split; [exact H1|eapply silent_mono; eauto].
    + right. right. exists c, iss, rest, more. split; [exact H1|eapply contradicted_mono; eauto].
  - intros [H|(ch & H1 & H2)]; [left; exact H|right; exists ch; split; [exact H1|eapply good_mono; eauto]].
Qed.

(** What the result of a call says *)
Definition meaning (i : nat) (r : result) (e : list event) : Prop :=
  match r with
  | Verdict x => exists peer chains st, In (EVerify i peer chains st) e /\ ((ct_servers peer = [] /\ x = None) \/ verdict i chains x e)
  | Staple x => exists leaf issuer, In (EStaple i leaf issuer) e /\ forall w, x = Some w ->
      exists r, used e i leaf issuer 3600000000000 r /\ rs_status r = Good /\ rs_raw r = w
  end.

Lemma verify_peer_sat i peer chains st e : In (EVerify i peer chains st) e -> sat i (verify_peer peer chains st) (meaning i) e.
Proof.
  intros V. unfold verify_peer. destruct (ct_servers peer) eqn:S.
  - cbn [sat]. intros e' I. exists peer, chains, st. split; [apply I, V|left; auto].
  - eapply sat_bind; [eapply verify_chains_sat; exact V|]. intros x e' I H. cbn [sat]. intros e2 J. exists peer, chains, st. split; [apply J, I, V|]. right. eapply verdict_mono; eauto.
Qed.
Lemma get_staple_sat i leaf iss e : In (EStaple i leaf iss) e -> sat i (get_staple leaf iss) (meaning i) e.
Proof.
  intros V. unfold get_staple. eapply sat_bind; [apply (response_sat i leaf iss); [right; exact V|intros _; exact V]|].
  intros x e' I H. assert (V' : forall e2, incl e' e2 -> In (EStaple i leaf iss) e2) by (intros e2 J; apply J, I, V).
  destruct x as [[r|] [er|]]; cbn [got] in H.
  - cbn [sat]. intros e2 J. exists leaf, iss. split; [apply V'; exact J|discriminate].
  - cbn [sat]. intros e2 J. exists leaf, iss. split; [apply V'; exact J|]. intros w W. exists r. split; [eapply used_mono; eauto|]. destruct (rs_status r); inv W; auto.
  - cbn [sat]. intros e2 J. exists leaf, iss. split; [apply V'; exact J|discriminate].
  - cbn [sat]. exists i, leaf, iss. split; [apply V', incl_refl|exact H].
Qed.

(** * Histories *)
Record inv (st : state) (e : list event) : Prop := {
  inv_cache : forall h r, In (h, r) (s_cache st) -> known e h r;
  inv_disk : forall h w, In (h, w) (s_disk st) -> exists r, rs_raw r = w /\ obtained e h r;
  inv_calls : forall i p, nth_error (s_calls st) i = Some (Some p) -> sat i p (meaning i) e;
  inv_end : forall i r, In (EEnd i r) e -> meaning i r e;
  inv_crash : forall i, In (ECrash i) e -> nil_cause e;
  inv_flush : In EFlushCrash e -> nil_cause e;
  inv_get : forall i h r, In (EGet i h (Some (Some r))) e -> obtained e h r
}.

Lemma nth_set_nth {A : Type} i j (x : A) l y : nth_error (set_nth i x l) j = Some y -> (j = i /\ y = x) \/ nth_error l j = Some y.
Proof.
  revert i j. induction l as [|z l IH]; intros [|i] [|j] H; cbn in *; auto.
  - inv H. auto.
  - destruct (IH _ _ H) as [[-> ->]|K]; auto.
Qed.
Lemma meaning_mono i r e e' : incl e e' -> meaning i r e -> meaning i r e'.
Proof.
  intros I. destruct r as [x|x]; cbn.
  - intros (p & chs & st & V & H). exists p, chs, st. split; [auto|]. destruct H; [left; auto|right; eapply verdict_mono; eauto].
  - intros (l & iss & V & H). exists l, iss. split; [auto|]. intros w W. destruct (H w W) as (r & U & K). exists r. split; [eapply used_mono; eauto|exact K].
Qed.

(** Parts that do not depend on the event. *)
Lemma inv_keep st e st' ev :
  inv st e ->
  (forall h r, In (h, r) (s_cache st') -> known (ev :: e) h r) ->
  (forall h w, In (h, w) (s_disk st') -> exists r, rs_raw r = w /\ obtained (ev :: e) h r) ->
  (forall i p, nth_error (s_calls st') i = Some (Some p) -> sat i p (meaning i) (ev :: e)) ->
  match ev with
  | EEnd i r => meaning i r e
  | ECrash _ | EFlushCrash => nil_cause e
  | EGet _ h (Some (Some r)) => obtained e h r
  | _ => True
  end ->
  inv st' (ev :: e).
Proof.
  intros I C D S E. pose proof (incl_cons_self ev e) as J. constructor; auto.
  - intros i r [->|H]; [eapply meaning_mono; [exact J|exact E]|eapply meaning_mono; [exact J|eapply inv_end; eauto]].
  - intros i [->|H]; [eapply nil_mono; [exact J|exact E]|eapply nil_mono; [exact J|eapply inv_crash; eauto]].
  - intros [->|H]; [eapply nil_mono; [exact J|exact E]|eapply nil_mono; [exact J|eapply inv_flush; eauto]].
  - intros i h r [->|H]; [eapply obtained_mono; [exact J|exact E]|eapply obtained_mono; [exact J|eapply inv_get; eauto]].
Qed.

Lemma to_save_in now l items h w : to_save now l = Some items -> In (h, w) items -> exists r, In (h, Some r) l /\ rs_raw r = w.
Proof.
  revert items. induction l as [|[h' r] l IH]; cbn; intros items E H; [inv E; destruct H|].
  destruct r as [r|]; [|discriminate]. destruct (to_save now l) as [its|]; [|discriminate]. destruct (rs_next r <? now); inv E.
  - destruct (IH _ eq_refl H) as (r' & A & B). exists r'. auto.
  - destruct H as [H|H]; [inv H; exists r; auto|]. destruct (IH _ eq_refl H) as (r' & A & B). exists r'. auto.
Qed.
Lemma to_save_none now l : to_save now l = None -> exists h, In (h, None) l.
Proof.
  induction l as [|[h r] l IH]; cbn; intros E; [discriminate|]. destruct r as [r|]; [|exists h; auto].
  destruct (to_save now l); [discriminate|]. destruct (IH eq_refl) as (h' & A). exists h'. auto.
Qed.
Lemma assoc_del_in {A : Type} k (l : list (str * A)) x : In x (assoc_del k l) -> In x l.
Proof. unfold assoc_del. intros H. apply filter_In in H. apply H. Qed.
Lemma load_in now l h r : In (h, r) (load now l) -> exists w r', In (h, w) l /\ r = Some r' /\ parse_response w None None = Some r' /\ now < rs_next r'.
Proof.
  revert r. induction l as [|[h' w] l IH]; cbn [load]; intros r H; [destruct H|].
  assert (G : In (h, r) (load now l) -> exists w0 r', In (h, w0) ((h', w) :: l) /\ r = Some r' /\ parse_response w0 None None = Some r' /\ now < rs_next r').
  { intros K. destruct (IH _ K) as (w' & r2 & A & B). exists w', r2. split; [right; exact A|exact B]. }
  destruct (parse_response w None None) as [r'|] eqn:P; [|auto]. destruct (now <? rs_next r') eqn:T; [|auto].
  destruct H as [H|H]; [|apply G; eapply assoc_del_in; exact H]. inv H. exists w, r'. split; [left; reflexivity|]. split; [reflexivity|]. split; [exact P|apply Z.ltb_lt; exact T].
Qed.

(** A response that is read again from its own bytes is the same. *)
Lemma reparse w s k r r' : parse_response w s k = Some r -> parse_response w None None = Some r' -> rs_raw r = w /\ r' = r.
Proof.
  unfold parse_response. intros H1 H2. destruct (wi_singles w) as [|[[n st] t] [|y l]] eqn:E; try discriminate. inv H2.
  assert (X : forall z, match s with None => Some (n, st, t) | Some m => find (fun x => (fst (fst x) =? m)%N) [(n, st, t)] end = Some z -> z = (n, st, t)).
  { intros z. destruct s as [m|]; cbn; [destruct (n =? m)%N|]; congruence. }
  destruct (match s with None => Some (n, st, t) | Some m => find (fun x => (fst (fst x) =? m)%N) [(n, st, t)] end) as [z|]; [|discriminate].
  specialize (X z eq_refl). subst z. destruct (match k with Some _ => _ | None => _ end); inv H1; auto.
Qed.
Lemma obtained_reparse e h r r' : obtained e h r -> parse_response (rs_raw r) None None = Some r' -> r' = r.
Proof.
  intros (j & c & iss & _ & _ & [(s & w & _ & _ & P)|(p & ch & chs & w & now & _ & P & _)]) R.
  all: assert (E : rs_raw r = w) by (unfold parse_response in P; repeat match type of P with context[match ?x with _ => _ end] => destruct x end; inv P; reflexivity).
  all: rewrite E in R; apply (reparse _ _ _ _ _ P R).
Qed.

Lemma nth_map_none {A : Type} (l : list (option A)) i p : nth_error (map (fun _ => None) l) i = Some (Some p : option A) -> False.
Proof. revert i. induction l as [|x l IH]; intros [|i]; cbn; try discriminate. apply IH. Qed.
Lemma nth_snoc {A : Type} (l : list A) x i y : nth_error (l ++ [x]) i = Some y -> nth_error l i = Some y \/ (i = List.length l /\ y = x).
Proof.
  intros H. destruct (Nat.lt_ge_cases i (List.length l)) as [K|K].
  - left. rewrite nth_error_app1 in H by exact K. exact H.
  - right. rewrite nth_error_app2 in H by exact K. destruct (i - List.length l)%nat as [|n] eqn:E; cbn in H; [inv H; split; [lia|reflexivity]|destruct n; discriminate].
Qed.

Ltac keep st := cbn [fst snd new_call with_call s_cache s_disk s_calls]; apply (inv_keep st); cbn [fst snd new_call with_call s_cache s_disk s_calls]; auto.
Lemma step_inv st e o : inv st e -> inv (fst (step st o)) (snd (step st o) :: e).
Proof.
  intros I. pose proof (fun ev => incl_cons_self ev e) as J.
  assert (Kc : forall ev h r, In (h, r) (s_cache st) -> known (ev :: e) h r) by (intros; eapply known_mono; [apply J|eapply inv_cache; eauto]).
  assert (Kd : forall ev h w, In (h, w) (s_disk st) -> exists r, rs_raw r = w /\ obtained (ev :: e) h r).
  { intros ev h w H. destruct (inv_disk _ _ I _ _ H) as (r & A & B). exists r. split; [exact A|eapply obtained_mono; eauto]. }
  assert (Ks : forall ev i p, nth_error (s_calls st) i = Some (Some p) -> sat i p (meaning i) (ev :: e)) by (intros; eapply sat_mono; [apply J|eapply inv_calls; eauto]).
  destruct o as [peer chains stp|leaf iss|i now x|h|now|now]; cbn [step].
  - keep st. intros i p H. cbn in H. apply nth_snoc in H as [H|[-> H]]; [apply Ks; exact H|]. inv H. apply verify_peer_sat. left. reflexivity.
  - keep st. intros i p H. cbn in H. apply nth_snoc in H as [H|[-> H]]; [apply Ks; exact H|]. inv H. apply get_staple_sat. left. reflexivity.
  - destruct (nth_error (s_calls st) i) as [[p|]|] eqn:N; [|keep st..].
    pose proof (inv_calls _ _ I _ _ N) as S.
    assert (W : forall ev q, sat i q (meaning i) (ev :: e) -> forall j p', nth_error (set_nth i (Some q) (s_calls st)) j = Some (Some p') -> sat j p' (meaning j) (ev :: e)).
    { intros ev q Q j p' H. apply nth_set_nth in H as [[-> H]|H]; [inv H; exact Q|apply Ks; exact H]. }
    assert (W0 : forall ev j p', nth_error (set_nth i None (s_calls st)) j = Some (Some p') -> sat j p' (meaning j) (ev :: e)).
    { intros ev j p' H. apply nth_set_nth in H as [[-> H]|H]; [discriminate|apply Ks; exact H]. }
    destruct p as [a| |k|h k|h r k|s k]; cbn [sat] in S; cbn [fst snd with_call].
    + keep st. apply S, incl_refl.
    + keep st.
    + keep st. apply W, S, incl_refl.
    + keep st.
      * apply W, S; [apply incl_refl|]. intros r H. eapply inv_cache; [exact I|]. apply assoc_In. exact H.
      * destruct (assoc h (s_cache st)) as [[r|]|] eqn:E; auto. apply assoc_In in E. exact (inv_cache _ _ I _ _ E).
    + destruct S as [S1 S2]. keep st.
      * intros h' r' H. cbn in H. destruct H as [H|H]; [inv H; apply S1, incl_refl|apply Kc; eapply assoc_del_in; exact H].
      * apply W, S2, incl_refl.
    + keep st. apply W, S, incl_refl.
  - keep st. intros h' r H. apply Kc. eapply assoc_del_in. exact H.
  - destruct (to_save now (s_cache st)) as [items|] eqn:E.
    + keep st. intros h w H. cbn in H. destruct (to_save_in _ _ _ _ _ E H) as (r & A & B). exists r. split; [exact B|]. exact (Kc EOther _ _ A).
    + keep st.
      * intros h r [].
      * intros i p H. destruct (nth_map_none _ _ _ H).
      * destruct (to_save_none _ _ E) as (h & A). exact (inv_cache _ _ I _ _ A).
  - keep st.
    + intros h r H. cbn in H. destruct (load_in _ _ _ _ H) as (w & r' & A & -> & P & T). destruct (Kd EOther _ _ A) as (r2 & R & O). cbn.
      subst w. rewrite (obtained_reparse _ _ _ _ O P). exact O.
    + intros i p H. destruct (nth_map_none _ _ _ H).
Qed.

Lemma run_snoc ops o : run (ops ++ [o]) = (fst (step (fst (run ops)) o), snd (step (fst (run ops)) o) :: snd (run ops)).
Proof. unfold run. rewrite fold_left_app. cbn. destruct (step _ o). reflexivity. Qed.
Lemma inv_all ops : inv (fst (run ops)) (events ops).
Proof.
  unfold events. induction ops as [|o ops IH] using rev_ind.
  - constructor; cbn; try tauto. intros i p H. destruct i; discriminate.
  - rewrite run_snoc. cbn [fst snd]. apply step_inv. exact IH.
Qed.

(** * Numbers of calls are not used twice *)
Lemma calls_fresh ops : forall i, (List.length (s_calls (fst (run ops))) <= i)%nat ->
  (forall peer chs st, ~ In (EVerify i peer chs st) (events ops)) /\ (forall l iss, ~ In (EStaple i l iss) (events ops)).
Proof.
  unfold events. induction ops as [|o ops IH] using rev_ind; [cbn; auto|]. rewrite run_snoc. cbn [fst snd]. intros i H.
  assert (SL : forall j p, List.length (set_nth j p (s_calls (fst (run ops)))) = List.length (s_calls (fst (run ops)))).
  { intros j p. generalize (s_calls (fst (run ops))). induction j; intros [|y l]; cbn; auto. }
  assert (L : (List.length (s_calls (fst (run ops))) <= i)%nat /\
    (forall peer chs st, snd (step (fst (run ops)) o) <> EVerify i peer chs st) /\ (forall l iss, snd (step (fst (run ops)) o) <> EStaple i l iss)).
  { destruct o as [peer chains stp|leaf iss|j now x|h|now|now]; cbn [step] in *.
    - cbn in H. rewrite app_length in H. cbn in H. split; [lia|]. split; [|discriminate]. intros ? ? ? X. cbn in X. inv X. lia.
    - cbn in H. rewrite app_length in H. cbn in H. split; [lia|]. split; [discriminate|]. intros ? ? X. cbn in X. inv X. lia.
    - destruct (nth_error (s_calls (fst (run ops))) j) as [[[]|]|]; cbn [fst snd with_call s_calls] in *; try rewrite SL in H; repeat split; try assumption; discriminate.
    - cbn [fst snd s_calls] in *. repeat split; try assumption; discriminate.
    - destruct (to_save now (s_cache (fst (run ops)))); cbn [fst snd s_calls] in *; try rewrite map_length in H; repeat split; try assumption; discriminate.
    - cbn [fst snd s_calls] in *. rewrite map_length in H. repeat split; try assumption; discriminate. }
  destruct L as (L & A & B). destruct (IH i L) as [C D]. split; intros; intros [X|X]; [eapply A|eapply C|eapply B|eapply D]; eauto.
Qed.
Lemma call_once ops i p1 c1 s1 p2 c2 s2 : In (EVerify i p1 c1 s1) (events ops) -> In (EVerify i p2 c2 s2) (events ops) -> p1 = p2 /\ c1 = c2 /\ s1 = s2.
Proof.
  revert i p1 c1 s1 p2 c2 s2. induction ops as [|o ops IH] using rev_ind; [cbn; tauto|]. intros i p1 c1 s1 p2 c2 s2.
  unfold events in *. rewrite run_snoc. cbn [snd].
  assert (F : forall p c s p' c' s', snd (step (fst (run ops)) o) = EVerify i p c s -> ~ In (EVerify i p' c' s') (snd (run ops))).
  { intros p c s p' c' s' E. assert (X : i = List.length (s_calls (fst (run ops)))).
    { destruct o as [peer chains stp|leaf iss|j now x|h|now|now]; cbn [step] in E.
      - cbn in E. inv E. reflexivity.
      - discriminate.
      - destruct (nth_error (s_calls (fst (run ops))) j) as [[[]|]|]; discriminate.
      - discriminate.
      - destruct (to_save now (s_cache (fst (run ops)))); discriminate.
      - discriminate. }
    apply (calls_fresh ops). lia. }
  intros [A|A] [B|B]; [rewrite A in B; inv B; auto|exfalso; eapply F; eauto|exfalso; eapply F; eauto|eapply IH; eauto].
Qed.

(** * The theorems *)
Theorem accepted_only_if_good ops i peer chains st :
  In (EVerify i peer chains st) (events ops) -> In (EEnd i (Verdict None)) (events ops) ->
  ct_servers peer = [] \/ chains = [] \/ exists ch, In ch chains /\ chain_good (events ops) i ch.
Proof.
  intros V E. destruct (inv_end _ _ (inv_all ops) _ _ E) as (p' & c' & s' & V' & H). destruct (call_once _ _ _ _ _ _ _ _ V V') as (<- & <- & <-).
  destruct H as [[H _]|H]; [left; exact H|right; exact H].
Qed.
Theorem rejected_only_if_bad ops i peer chains st er :
  In (EVerify i peer chains st) (events ops) -> In (EEnd i (Verdict (Some er))) (events ops) ->
  (forall ch, In ch chains -> chain_bad (events ops) i ch) \/ (exists ch, In ch chains /\ chain_silent (events ops) i ch) \/
  exists c iss rest more, chains = (c :: iss :: rest) :: more /\ contradicted (events ops) i c iss.
Proof.
  intros V E. destruct (inv_end _ _ (inv_all ops) _ _ E) as (p' & c' & s' & V' & H). destruct (call_once _ _ _ _ _ _ _ _ V V') as (<- & <- & <-).
  destruct H as [[_ H]|H]; [discriminate|exact H].
Qed.
Theorem cache_content ops i h r : In (EGet i h (Some (Some r))) (events ops) -> obtained (events ops) h r.
Proof. apply (inv_get _ _ (inv_all ops)). Qed.
Theorem stapled_good ops i w : In (EEnd i (Staple (Some w))) (events ops) ->
  exists leaf issuer r, In (EStaple i leaf issuer) (events ops) /\ used (events ops) i leaf issuer 3600000000000 r /\ rs_status r = Good /\ rs_raw r = w.
Proof.
  intros E. destruct (inv_end _ _ (inv_all ops) _ _ E) as (l & iss & V & H). destruct (H w eq_refl) as (r & A & B & C). exists l, iss, r. auto.
Qed.
Theorem crash_cause ops : (exists i, In (ECrash i) (events ops)) \/ In EFlushCrash (events ops) ->
  exists j leaf issuer, In (EStaple j leaf issuer) (events ops) /\ ct_servers leaf = [].
Proof. intros [[i H]|H]; [eapply inv_crash|eapply inv_flush]; eauto using inv_all. Qed.
