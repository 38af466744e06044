(** More proofs for LifeModel: what runs while nobody ends the proxy, and what is left. *)
From Coq Require Import Lia.
From Verif Require Import Base LifeModel LifeSpec LifeProofs.

Lemma nth_seq n len k : k < len -> nth_error (seq n len) k = Some (n + k).
Proof.
  revert n k. induction len as [|len IH]; intros n [|k] L; try lia; cbn.
  - f_equal. lia.
  - rewrite IH by lia. f_equal. lia.
Qed.

(** A connection that ends, for all that follows. *)
Lemma hang_up_frame p i p' : inv p -> hang_up p i = Went p' ->
  socks p' = socks p /\ ctxs p' = ctxs p /\ p_cfg p' = p_cfg p /\ p_routes p' = p_routes p /\ p_listener p' = p_listener p /\
  p_quic p' = p_quic p /\ p_ctx p' = p_ctx p /\ p_key p' = p_key p /\ stopping p' = stopping p /\ hanging_up p' = hanging_up p /\
  (forall b s, nth_error (servers p) b = Some s -> exists s', nth_error (servers p') b = Some s' /\
     s_shut s' = s_shut s /\ s_h3 s' = s_h3 s /\ (s_shut s = false -> s_chan s' = s_chan s) /\
     (0 < open_for b (conns p') -> s_chan s' = s_chan s)) /\
  (forall j b, connected p' j b -> connected p j b).
Proof.
  intro V. unfold hang_up. destruct (nth_error (conns p) i) as [n|] eqn:E; [|discriminate].
  destruct (n_open n) eqn:O.
  2: { intros [= <-]. repeat split; auto. intros b s N. exists s. auto. }
  assert (NB : exists s, nth_error (servers p) (n_be n) = Some s).
  { destruct (nth_error (servers p) (n_be n)) eqn:N; [eauto|]. apply nth_error_None in N. apply (i_conns _ V) in E. lia. }
  destruct NB as [s NB]. unfold close_one. rewrite NB.
  assert (G : sound s). { pose proof (i_sound _ V) as F. rewrite Forall_forall in F. apply F. eapply nth_error_In, NB. }
  destruct (leave_spec s G) as (s' & -> & G' & F1 & F2 & F3 & F4 & F5 & F6 & F7).
  intros [= <-]. cbn [with_conns with_servers servers conns socks ctxs p_cfg p_routes p_listener p_quic p_ctx p_key stopping hanging_up].
  repeat (split; [reflexivity|]). split.
  - intros b x N. rewrite nth_change. destruct (Nat.eqb (n_be n) b) eqn:Q.
    + apply Nat.eqb_eq in Q. rewrite Q in *. rewrite N in NB. injection NB as ->. rewrite N. cbn [option_map]. exists s'.
      split; [reflexivity|]. split; [exact F4|]. split; [exact F5|]. split; [auto|].
      pose proof (open_for_change b i (fun n => {| n_be := n_be n; n_quic := n_quic n; n_open := false; n_cut := n_cut n |}) _ _ E) as K.
      cbn [n_open n_be] in K. rewrite O, Q, Nat.eqb_refl in K. cbn [andb] in K. intro P. apply F7. left.
      rewrite (i_flight _ V _ _ N). unfold open_for in *. lia.
    + exists x. auto.
  - intros j b (m & J & Om & Bm). cbn in J. rewrite nth_change in J. destruct (Nat.eqb i j) eqn:Q.
    + apply Nat.eqb_eq in Q. subst j. rewrite E in J. cbn in J. injection J as <-. discriminate Om.
    + exists m. auto.
Qed.

(** ** While nobody ends the proxy *)

Record loaded (p : proxy) : Prop := {
  l_stopping : stopping p = [];
  l_routes : p_routes p = in_force p;
  l_cfg : forall c bs, p_cfg p = Some (c, bs) -> forall k x, nth_error (c_backends c) k = Some x ->
    exists b s, nth_error bs k = Some b /\ nth_error (servers p) b = Some s /\ s_chan s = b_http x /\
                s_h3 s = b_http x && c_quic c && b_h3 x /\ s_shut s = false
}.

Lemma loaded_fresh : loaded fresh.
Proof. constructor; cbn; auto; discriminate. Qed.

Lemma loaded_frame p p' : loaded p -> stopping p' = stopping p -> p_routes p' = p_routes p -> p_cfg p' = p_cfg p ->
  (forall b s, nth_error (servers p) b = Some s -> s_shut s = false ->
     exists s', nth_error (servers p') b = Some s' /\ s_chan s' = s_chan s /\ s_h3 s' = s_h3 s /\ s_shut s' = false) ->
  loaded p'.
Proof.
  intros [A B C] E1 E2 E3 S. constructor.
  - congruence.
  - unfold in_force. rewrite E2, E3. exact B.
  - intros c bs P k x N. rewrite E3 in P. destruct (C _ _ P _ _ N) as (b & s & N1 & N2 & H1 & H2 & H3).
    destruct (S _ _ N2 H3) as (s' & N3 & K1 & K2 & K3). exists b, s'. repeat split; congruence.
Qed.

Lemma loaded_reconfigure p c fail p' : inv p -> loaded p -> reconfigure p c fail = Went p' -> loaded p'.
Proof.
  intros V W. unfold reconfigure. destruct (match p_cfg p with Some (c0, _) => config_eqb c c0 | None => false end).
  { intros [= <-]. exact W. }
  destruct fail as [n|].
  - intros [= <-]. apply (loaded_frame p); auto. cbn. intros b s N H. exists s. repeat split; auto. apply nth_app_l, N.
  - destruct (retire_spec p V) as (l & -> & F & L & S). intros [= <-]. constructor; cbn.
    + apply (l_stopping _ W).
    + reflexivity.
    + intros c1 bs [= <- <-] k x N. exists (List.length (servers p) + k), (new_server true (c_quic c) x).
      pose proof (nth_lt _ _ _ N). split; [apply nth_seq; assumption|]. split.
      * rewrite nth_error_app2 by lia. rewrite L. replace (_ + k - _) with k by lia. rewrite nth_error_map, N. reflexivity.
      * cbn. auto.
Qed.

Lemma loaded_step p e p' : inv p -> loaded p -> ends_it e = false -> step p e = Went p' -> loaded p'.
Proof.
  intros V W N. destruct e as [c fail|a| |b|i| |x|x|b q|i]; try discriminate N; cbn [step].
  - apply loaded_reconfigure; assumption.
  - destruct (start p a) as [[q ok]|] eqn:S; [|discriminate]. intros [= <-].
    apply start_frame in S as (A1 & A2 & A3 & A4 & A5 & _). apply (loaded_frame p); auto. rewrite A1. eauto.
  - rewrite (l_stopping _ W). discriminate.
  - destruct (among i (hanging_up p)); [|discriminate].
    destruct (hang_up p i) as [q| |] eqn:H; try discriminate. intros [= <-].
    apply hang_up_frame in H as (_ & _ & A1 & A2 & _ & _ & _ & _ & A3 & _ & S & _); [|exact V].
    apply (loaded_frame p); auto. cbn. intros b s E H. destruct (S _ _ E) as (s' & E' & B1 & B2 & B3 & _). exists s'. repeat split; auto. congruence.
  - intros [= <-]. apply (loaded_frame p); auto. cbn. eauto.
  - unfold arrive. destruct (p_ctx p) as [k|]; [|discriminate]. destruct (nth_error (servers p) b) as [s|] eqn:E; [|discriminate].
    destruct (_ && _); [|discriminate]. intros [= <-]. apply (loaded_frame p); auto.
    cbn [with_conns with_servers servers]. intros c y I H. rewrite nth_change. destruct (Nat.eqb b c) eqn:Q.
    + apply Nat.eqb_eq in Q. subst c. rewrite I. cbn. eexists. split; [reflexivity|]. cbn. auto.
    + exists y. auto.
  - intro H. apply hang_up_frame in H as (_ & _ & A1 & A2 & _ & _ & _ & _ & A3 & _ & S & _); [|exact V].
    apply (loaded_frame p); auto. intros b s E H. destruct (S _ _ E) as (s' & E' & B1 & B2 & B3 & _). exists s'. repeat split; auto. congruence.
Qed.

Lemma loaded_run tr : forall p p', inv p -> loaded p -> existsb ends_it tr = false -> run p tr = Went p' -> loaded p'.
Proof.
  induction tr as [|e tr IH]; intros p p' V W N; cbn; [intros [= <-]; exact W|].
  cbn in N. apply orb_false_iff in N as [N1 N2]. destruct (step p e) as [q| |] eqn:S; try discriminate.
  apply IH; [eapply inv_step; eassumption|eapply loaded_step; eassumption|exact N2].
Qed.

(** ** The QUIC port *)

Definition udp_there (p : proxy) : Prop :=
  exists i s, p_quic p = Some i /\ nth_error (socks p) i = Some s /\ so_kind s = Udp /\ so_open s = true.

Lemma listen_spec p k a ok i p' : listen p k a ok = Some (i, p') ->
  i = List.length (socks p) /\ socks p' = socks p ++ [{| so_kind := k; so_addr := a; so_open := true |}] /\
  p_quic p' = p_quic p /\ p_listener p' = p_listener p /\ p_ctx p' = p_ctx p /\ ctxs p' = ctxs p.
Proof. unfold listen. destruct (_ && _); [|discriminate]. intros [= <- <-]. cbn. auto 8. Qed.

Lemma start_quic_spec p c a p' ok : start_quic p c a = (p', ok) ->
  (exists l, socks p' = socks p ++ l) /\ p_listener p' = p_listener p /\ p_ctx p' = p_ctx p /\ ctxs p' = ctxs p /\
  (ok = true -> socks p' = socks p ++ [{| so_kind := Udp; so_addr := c_tls c; so_open := true |}] /\ p_quic p' = Some (List.length (socks p))) /\
  (ok = false -> p_quic p' = p_quic p).
Proof.
  unfold start_quic. destruct (listen p Udp (c_tls c) (a_udp a)) as [[i p1]|] eqn:L.
  - apply listen_spec in L as (-> & S & Q & A1 & A2 & A3). destruct (a_quic a); intros [= <- <-]; cbn.
    + repeat split; try congruence; try discriminate. eauto.
    + repeat split; try congruence; try discriminate. eauto.
  - intros [= <- <-]. repeat split; try discriminate. exists []. symmetry. apply app_nil_r.
Qed.

(** What Start opens. *)
Lemma start_spec p a p' ok c bs : p_cfg p = Some (c, bs) -> start p a = Some (p', ok) ->
  exists lw lq lt,
    socks p' = socks p ++ lw ++ lq ++ lt /\
    (p_quic p' = p_quic p \/ (p_quic p' = Some (List.length (socks p ++ lw)) /\ lq = [{| so_kind := Udp; so_addr := c_tls c; so_open := true |}])) /\
    (ok = true ->
       lw = match c_web c with Some w => [{| so_kind := Web; so_addr := w; so_open := true |}] | None => [] end /\
       lq = (if c_quic c then [{| so_kind := Udp; so_addr := c_tls c; so_open := true |}] else []) /\
       lt = [{| so_kind := Tls; so_addr := c_tls c; so_open := true |}] /\
       p_quic p' = (if c_quic c then Some (List.length (socks p ++ lw)) else p_quic p) /\
       p_listener p' = Some (List.length (socks p ++ lw ++ lq)) /\
       ctxs p' = ctxs p ++ [{| x_done := false; x_web := match c_web c with Some _ => Some (List.length (socks p)) | None => None end; x_waited := false |}]).
Proof.
  intros C. unfold start. rewrite C.
  destruct (match c_web c with None => _ | Some w => _ end) as [[web p1]|] eqn:W.
  - assert (F1 : socks p1 = socks p ++ match c_web c with Some w => [{| so_kind := Web; so_addr := w; so_open := true |}] | None => [] end /\
      p_quic p1 = p_quic p /\ ctxs p1 = ctxs p /\ web = match c_web c with Some _ => Some (List.length (socks p)) | None => None end).
    { destruct (c_web c) as [w|].
      - destruct (listen p Web w (a_web a)) as [[i q]|] eqn:L; [|discriminate W]. injection W as <- <-.
        apply listen_spec in L as (-> & S & Q & _ & _ & X). auto.
      - injection W as <- <-. rewrite app_nil_r. auto. }
    destruct F1 as (S1 & Q1 & X1 & ->). clear W. set (lw := match c_web c with Some w => [{| so_kind := Web; so_addr := w; so_open := true |}] | None => [] end) in *.
    destruct (if c_quic c then start_quic p1 c a else (p1, true)) as [p2 ok2] eqn:Q.
    assert (F2 : exists lq, socks p2 = socks p ++ lw ++ lq /\ ctxs p2 = ctxs p /\
      (p_quic p2 = p_quic p \/ (p_quic p2 = Some (List.length (socks p ++ lw)) /\ lq = [{| so_kind := Udp; so_addr := c_tls c; so_open := true |}])) /\
      (ok2 = true -> lq = (if c_quic c then [{| so_kind := Udp; so_addr := c_tls c; so_open := true |}] else []) /\
         p_quic p2 = (if c_quic c then Some (List.length (socks p ++ lw)) else p_quic p))).
    { destruct (c_quic c).
      - apply start_quic_spec in Q as ([l S] & _ & _ & X & T & F). destruct ok2.
        + destruct (T eq_refl) as [S2 Q2]. eexists. rewrite S2, Q2, S1, <- app_assoc. split; [reflexivity|].
          split; [congruence|]. split; [right; auto|auto].
        + exists l. rewrite S, S1, <- app_assoc. split; [reflexivity|]. split; [congruence|]. split; [left; rewrite F; auto|discriminate].
      - injection Q as <- <-. exists []. rewrite app_nil_r. auto 8. }
    destruct F2 as (lq & S2 & X2 & Q2 & T2). destruct ok2.
    + destruct (T2 eq_refl) as [E1 E2]. destruct (listen p2 Tls (c_tls c) (a_tls a)) as [[i q]|] eqn:L.
      * apply listen_spec in L as (-> & S & Q3 & _ & _ & X). intros [= <- <-]. cbn.
        exists lw, lq, [{| so_kind := Tls; so_addr := c_tls c; so_open := true |}]. rewrite S, S2, <- !app_assoc. split; [reflexivity|].
        split; [rewrite Q3; exact Q2|]. intros _. repeat split; auto; try congruence.
      * intros [= <- <-]. exists lw, lq, []. rewrite !app_nil_r. split; [exact S2|]. split; [exact Q2|discriminate].
    + intros [= <- <-]. exists lw, lq, []. rewrite !app_nil_r. split; [exact S2|]. split; [exact Q2|discriminate].
  - intros [= <- <-]. exists [], [], []. cbn. rewrite !app_nil_r. split; [reflexivity|]. split; [auto|discriminate].
Qed.

Record quic_kept (q : bool) (p : proxy) : Prop := {
  q_cfg : forall c bs, p_cfg p = Some (c, bs) -> c_quic c = q;
  q_udp : started p -> q = true -> udp_there p
}.

Lemma reconfigure_frame p c fail p' : reconfigure p c fail = Went p' ->
  socks p' = socks p /\ ctxs p' = ctxs p /\ conns p' = conns p /\ p_listener p' = p_listener p /\ p_quic p' = p_quic p /\ p_ctx p' = p_ctx p /\
  p_key p' = p_key p /\ stopping p' = stopping p /\ hanging_up p' = hanging_up p /\
  (p_cfg p' = p_cfg p \/ exists bs, p_cfg p' = Some (c, bs)).
Proof.
  unfold reconfigure. destruct (match p_cfg p with Some (c0, _) => config_eqb c c0 | None => false end).
  { intros [= <-]. auto 12. }
  destruct fail as [n|]; [intros [= <-]; cbn; auto 12|]. destruct (retire p); [|discriminate]. intros [= <-]. cbn. eauto 14.
Qed.

Lemma arrive_frame p b q p' : arrive p b q = Went p' ->
  socks p' = socks p /\ ctxs p' = ctxs p /\ p_cfg p' = p_cfg p /\ p_routes p' = p_routes p /\ p_listener p' = p_listener p /\
  p_quic p' = p_quic p /\ p_ctx p' = p_ctx p /\ p_key p' = p_key p /\ stopping p' = stopping p /\ hanging_up p' = hanging_up p.
Proof.
  unfold arrive. destruct (p_ctx p) as [k|] eqn:C; [|discriminate]. destruct (nth_error (servers p) b) as [s|]; [|discriminate].
  destruct (_ && _); [|discriminate]. intros [= <-]. cbn. auto 12.
Qed.

Lemma udp_app p p' l : socks p' = socks p ++ l -> p_quic p' = p_quic p -> udp_there p -> udp_there p'.
Proof. intros S Q (i & s & A & B & C & D). exists i, s. rewrite S, Q. repeat split; auto. apply nth_app_l, B. Qed.

Lemma quic_frame q p p' : quic_kept q p -> p_cfg p' = p_cfg p -> socks p' = socks p -> p_quic p' = p_quic p -> p_ctx p' = p_ctx p -> quic_kept q p'.
Proof.
  intros [A B] E1 E2 E3 E4. constructor.
  - intros c bs. rewrite E1. apply A.
  - unfold started, udp_there. rewrite E2, E3, E4. exact B.
Qed.

Lemma quic_step q p e p' : inv p -> loaded p -> quic_kept q p -> ends_it e = false -> same_quic q e -> step p e = Went p' -> quic_kept q p'.
Proof.
  intros V LD W N SQ. destruct e as [c fail|a| |b|i| |x|x|b k|i]; try discriminate N; cbn [step].
  - intro R. apply reconfigure_frame in R as (A1 & A2 & _ & A4 & A5 & A6 & _ & _ & _ & A7). constructor.
    + intros c0 bs P. destruct A7 as [E|[bs' E]].
      * rewrite E in P. apply (q_cfg _ _ W _ _ P).
      * rewrite E in P. injection P as <- <-. exact SQ.
    + unfold started, udp_there. rewrite A1, A5, A6. apply (q_udp _ _ W).
  - destruct (start p a) as [[p1 ok]|] eqn:S; [|discriminate]. intros [= <-].
    pose proof (start_frame _ _ _ _ S) as (_ & _ & A3 & _ & _ & _ & _ & B0 & _).
    constructor.
    + intros c bs. rewrite A3. apply (q_cfg _ _ W).
    + intros ST ->. destruct (p_cfg p) as [[c bs]|] eqn:C; [|unfold start in S; rewrite C in S; discriminate S].
      pose proof (q_cfg _ _ W _ _ C) as CQ.
      destruct (start_spec _ _ _ _ _ _ C S) as (lw & lq & lt & SO & Q & T). destruct ok.
      * destruct (T eq_refl) as (Ew & Eq & Et & PQ & _). rewrite CQ in Eq, PQ. unfold udp_there. rewrite PQ, SO, Eq.
        eexists _, _. split; [reflexivity|]. rewrite app_assoc, nth_error_app2, Nat.sub_diag by lia. cbn. auto.
      * destruct (B0 eq_refl) as (X & _). destruct Q as [Q|[Q Eq]].
        { apply (udp_app p) with (l := lw ++ lq ++ lt); auto. apply (q_udp _ _ W); [unfold started in *; congruence|reflexivity]. }
        { unfold udp_there. rewrite Q, SO, Eq. eexists _, _. split; [reflexivity|].
          rewrite app_assoc, nth_error_app2, Nat.sub_diag by lia. cbn. auto. }
  - rewrite (l_stopping _ LD). discriminate.
  - destruct (among i (hanging_up p)); [|discriminate]. destruct (hang_up p i) as [p1| |] eqn:H; try discriminate. intros [= <-].
    apply hang_up_frame in H as (A1 & A2 & A3 & A4 & A5 & A6 & A7 & _); [|exact V]. apply (quic_frame q p); auto.
  - intros [= <-]. apply (quic_frame q p); auto.
  - intro R. apply arrive_frame in R as (A1 & A2 & A3 & A4 & A5 & A6 & A7 & _). apply (quic_frame q p); auto.
  - intro H. apply hang_up_frame in H as (A1 & A2 & A3 & A4 & A5 & A6 & A7 & _); [|exact V]. apply (quic_frame q p); auto.
Qed.

Lemma quic_run q tr : forall p p', inv p -> loaded p -> quic_kept q p -> existsb ends_it tr = false -> Forall (same_quic q) tr ->
  run p tr = Went p' -> quic_kept q p'.
Proof.
  induction tr as [|e tr IH]; intros p p' V LD W N F; cbn; [intros [= <-]; exact W|].
  cbn in N. apply orb_false_iff in N as [N1 N2]. inversion F as [|? ? F1 F2]; subst.
  destruct (step p e) as [q1| |] eqn:S; try discriminate.
  apply IH; auto; [eapply inv_step|eapply loaded_step|eapply quic_step]; eassumption.
Qed.

Lemma quic_fresh q : quic_kept q fresh.
Proof. constructor; cbn; [discriminate|]. intro H. destruct (H eq_refl). Qed.

(** ** Sockets of one Start *)

(** [n]: the calls of Start so far; [st]: Stop has been called. *)
Definition sockets_of (n : nat) (st : bool) (p : proxy) : Prop :=
  (n = 0 -> socks p = [] /\ p_ctx p = None /\ p_quic p = None) /\ (p_ctx p = None -> st = false) /\
  (n <= 1 -> started p -> exists x l, ctxs p = [x] /\ p_ctx p = Some 0 /\ p_listener p = Some l /\ (st = true -> x_done x = true) /\
     forall j s, nth_error (socks p) j = Some s -> so_open s = true ->
       (st = false /\ (j = l \/ p_quic p = Some j)) \/ (x_web x = Some j /\ x_waited x = false)).

Lemma sockets_frame n st p p' : sockets_of n st p -> socks p' = socks p -> ctxs p' = ctxs p -> p_ctx p' = p_ctx p ->
  p_listener p' = p_listener p -> p_quic p' = p_quic p -> sockets_of n st p'.
Proof. unfold sockets_of, started. intros H -> -> -> -> ->. exact H. Qed.

Lemma nth_close i l j s : nth_error (close_sock i l) j = Some s -> so_open s = true -> i <> Some j /\ nth_error l j = Some s.
Proof.
  destruct i as [i|]; cbn; [|split; [discriminate|assumption]]. rewrite nth_change. destruct (Nat.eqb_spec i j) as [E|N].
  - destruct (nth_error l j); [|discriminate]. cbn. intros [= <-]. discriminate.
  - split; [congruence|assumption].
Qed.

Lemma sockets_stop n p p' : inv p -> (exists st, sockets_of n st p) -> stop p = Went p' -> sockets_of n true p'.
Proof.
  intros V [st (Z & _ & W)]. unfold stop. destruct (p_listener p) as [i|] eqn:L; [|discriminate]. intros [= <-]. split; [|split].
  - intro E. destruct (Z E) as (_ & C & _). exfalso. apply (i_ctx _ V); [congruence|exact C].
  - cbn. intro C. exfalso. apply (i_ctx _ V); [congruence|exact C].
  - intros Ln ST. unfold started in ST. cbn [p_ctx] in ST. destruct (W Ln ST) as (x & l & A1 & A2 & A3 & A4 & A5).
    cbn [ctxs p_ctx p_listener socks p_quic]. exists {| x_done := true; x_web := x_web x; x_waited := x_waited x |}, l.
    rewrite A2, A1. cbn [cancel change]. repeat (split; [first [reflexivity|congruence]|]). intros j s N O.
    apply (nth_close (p_quic p)) in N as [N1 N]; [|exact O]. apply (nth_close (Some i)) in N as [N2 N]; [|exact O].
    destruct (A5 _ _ N O) as [(E & [Y|Y])|Y]; [congruence|congruence|right; exact Y].
Qed.

Lemma sockets_step n st p e p' : inv p -> sockets_of n st p -> step p e = Went p' ->
  sockets_of (n + (if starts e then 1 else 0)) (st || stops e) p'.
Proof.
  intros V W. destruct e as [c fail|a| |b|i| |x|x|b k|i]; cbn [step starts stops]; rewrite ?Nat.add_0_r, ?orb_false_r, ?orb_true_r.
  - intro R. apply reconfigure_frame in R as (A1 & A2 & _ & A4 & A5 & A6 & _). apply (sockets_frame n st p); auto.
  - destruct (start p a) as [[p1 ok]|] eqn:S; [|discriminate]. intros [= <-].
    pose proof (start_frame _ _ _ _ S) as (_ & _ & A3 & _ & _ & _ & _ & B0 & B1). destruct W as (Z & Y & _).
    split; [lia|]. split.
    { destruct ok; [destruct (B1 eq_refl) as (-> & _); discriminate|]. destruct (B0 eq_refl) as (-> & _). exact Y. }
    intros Ln ST. destruct (Z ltac:(lia)) as (ZS & ZC & ZQ). destruct (p_cfg p) as [[c bs]|] eqn:C; [|unfold start in S; rewrite C in S; discriminate S].
    destruct (start_spec _ _ _ _ _ _ C S) as (lw & lq & lt & SO & Q & T). destruct ok.
    + destruct (T eq_refl) as (Ew & Eq & Et & PQ & PL & PX). destruct (B1 eq_refl) as (PC & _).
      rewrite (i_ctxs _ V ZC) in PX, PC. rewrite ZS in *. cbn [app] in *. rewrite PX. eexists _, _. split; [reflexivity|]. split; [exact PC|].
      split; [exact PL|]. rewrite (Y ZC). split; [discriminate|]. cbn [x_done x_web x_waited]. intros j s N O. rewrite SO, Ew, Eq, Et in N. rewrite PQ, Ew, Eq.
      destruct (c_web c), (c_quic c); cbn in N |- *; do 4 (try destruct j as [|j]); try discriminate N; auto.
    + destruct (B0 eq_refl) as (X & _). unfold started in ST. congruence.
  - intro R. eapply sockets_stop; eauto.
  - destruct (among b (stopping p)); [|discriminate]. destruct (close_one close_hard (servers p) b) as [l|]; [|discriminate].
    intros [= <-]. apply (sockets_frame n st p); auto.
  - destruct (among i (hanging_up p)); [|discriminate]. destruct (hang_up p i) as [p1| |] eqn:H; try discriminate. intros [= <-].
    apply hang_up_frame in H as (A1 & A2 & A3 & A4 & A5 & A6 & A7 & _); [|exact V]. apply (sockets_frame n st p); auto.
  - unfold shutdown. destruct (p_listener p) as [i|] eqn:L; [|discriminate].
    destruct (close_all close_soft (servers p) _) as [l|]; [|discriminate]. intros [= <-]. destruct W as (Z & Y & W).
    split; [|split; [exact Y|]].
    + intro E. destruct (Z E) as (_ & C & _). exfalso. apply (i_ctx _ V); [congruence|exact C].
    + unfold started. cbn [with_conns with_servers with_socks p_ctx ctxs p_listener socks p_quic]. intros Ln ST.
      destruct (W Ln ST) as (x & l' & A1 & A2 & A3 & A4 & A5). exists x, l'. repeat (split; [assumption|]). intros j s N O.
      apply (nth_close (p_quic p)) in N as [N1 N]; [|exact O]. apply (nth_close (Some i)) in N as [N2 N]; [|exact O]. apply (A5 _ _ N O).
  - intros [= <-]. destruct W as (Z & Y & W). split; [exact Z|]. split; [exact Y|]. unfold started. cbn [with_ctxs p_ctx ctxs p_listener socks p_quic].
    intros Ln ST. destruct (W Ln ST) as (y & l' & A1 & A2 & A3 & A4 & A5). rewrite A1. destruct x as [|x]; cbn [cancel change].
    + eexists _, l'. split; [reflexivity|]. repeat (split; [assumption|]). split; [auto|]. exact A5.
    + exists y, l'. destruct x; auto.
  - destruct (nth_error (ctxs p) x) as [c|] eqn:X; [|discriminate]. destruct (x_done c && negb (x_waited c)); [|discriminate].
    apply sockets_stop.
    + apply (inv_frame p); try exact V; cbn; try reflexivity.
      * apply (i_conns _ V).
      * auto.
      * apply (i_ctx _ V).
      * intro C. rewrite (i_ctxs _ V C) in X. destruct x; discriminate X.
      * apply (i_none _ V).
      * apply (i_cfg _ V).
    + exists st. destruct W as (Z & Y & W). split; [|split; [exact Y|]].
      * intro E. destruct (Z E) as (_ & C & _). rewrite (i_ctxs _ V C) in X. destruct x; discriminate X.
      * unfold started. cbn [with_ctxs with_socks p_ctx ctxs p_listener socks p_quic]. intros Ln ST.
        destruct (W Ln ST) as (y & l' & A1 & A2 & A3 & A4 & A5). rewrite A1 in X |- *. destruct x as [|x]; [|destruct x; discriminate X].
        cbn in X. injection X as ->. cbn [change]. eexists _, l'. split; [reflexivity|]. repeat (split; [assumption|]). cbn [x_web x_waited].
        intros j s N O. apply nth_close in N as [N1 N]; [|exact O]. destruct (A5 _ _ N O) as [K|[K _]]; [left; exact K|contradiction].
  - intro R. apply arrive_frame in R as (A1 & A2 & A3 & A4 & A5 & A6 & A7 & _). apply (sockets_frame n st p); auto.
  - intro H. apply hang_up_frame in H as (A1 & A2 & A3 & A4 & A5 & A6 & A7 & _); [|exact V]. apply (sockets_frame n st p); auto.
Qed.

Lemma sockets_run tr : forall n st p p', inv p -> sockets_of n st p -> run p tr = Went p' ->
  sockets_of (n + List.length (filter starts tr)) (st || existsb stops tr) p'.
Proof.
  induction tr as [|e tr IH]; intros n st p p' V W; cbn [run].
  - intros [= <-]. cbn. rewrite Nat.add_0_r, orb_false_r. exact W.
  - destruct (step p e) as [q| |] eqn:S; try discriminate. intro R.
    pose proof (IH _ _ _ _ (inv_step _ _ _ V S) (sockets_step _ _ _ _ _ V W S) R) as K.
    cbn [filter existsb]. rewrite <- orb_assoc, <- Nat.add_assoc in K. destruct (starts e); exact K.
Qed.
Lemma sockets_fresh : sockets_of 0 false fresh.
Proof. split; [auto|]. split; [auto|]. intros _ H. destruct (H eq_refl). Qed.

Lemma sockets_reaches tr p : reaches tr p -> one_start tr -> started p -> existsb stops tr = true -> quiet p ->
  forall s, In s (socks p) -> so_open s = false.
Proof.
  intros R O ST SP (_ & _ & Q) s I. pose proof (sockets_run _ _ _ _ _ inv_fresh sockets_fresh R) as (_ & _ & W).
  rewrite SP in W. destruct (W O ST) as (x & l & A1 & _ & _ & A4 & A5). apply In_nth_error in I as [j N].
  destruct (so_open s) eqn:E; [|reflexivity]. destruct (A5 _ _ N E) as [[K _]|[_ K]]; [discriminate K|].
  rewrite (Q 0 x) in K; [discriminate K|rewrite A1; reflexivity|apply A4; reflexivity].
Qed.

(** ** The key *)

Lemma key_gone tr : forall p p', run p tr = Went p' -> p_key p = false \/ existsb stops tr = true -> p_key p' = false.
Proof.
  assert (SK : forall p p', stop p = Went p' -> p_key p' = false).
  { intros p p'. unfold stop. destruct (p_listener p); [|discriminate]. intros [= <-]. reflexivity. }
  assert (H : forall p i p', hang_up p i = Went p' -> p_key p' = p_key p).
  { intros p i p'. unfold hang_up. destruct (nth_error (conns p) i) as [n|]; [|discriminate]. destruct (n_open n); [|intros [= <-]; reflexivity].
    destruct (close_one leave (servers p) (n_be n)); [|discriminate]. intros [= <-]. reflexivity. }
  assert (KS : forall p e p', step p e = Went p' -> p_key p = false \/ stops e = true -> p_key p' = false).
  { intros p e p'. destruct e as [c fail|a| |b|i| |x|x|b k|i]; cbn [step stops].
    - intro R. apply reconfigure_frame in R as (_ & _ & _ & _ & _ & _ & -> & _). intros [K|K]; [exact K|discriminate K].
    - destruct (start p a) as [[p1 ok]|] eqn:S; [|discriminate]. intros [= <-]. apply start_frame in S as (_ & _ & _ & _ & _ & _ & -> & _).
      intros [K|K]; [exact K|discriminate K].
    - intros R _. eapply SK, R.
    - destruct (among b (stopping p)); [|discriminate]. destruct (close_one close_hard (servers p) b); [|discriminate].
      intros [= <-]. cbn. intros [K|K]; [exact K|discriminate K].
    - destruct (among i (hanging_up p)); [|discriminate]. destruct (hang_up p i) as [p1| |] eqn:E; try discriminate. intros [= <-].
      cbn. rewrite (H _ _ _ E). intros [K|K]; [exact K|discriminate K].
    - unfold shutdown. destruct (p_listener p); [|discriminate]. destruct (close_all _ _ _); [|discriminate]. intros [= <-].
      cbn. intros [K|K]; [exact K|discriminate K].
    - intros [= <-]. cbn. intros [K|K]; [exact K|discriminate K].
    - destruct (nth_error (ctxs p) x) as [c|]; [|discriminate]. destruct (_ && _); [|discriminate]. intros R _. eapply SK, R.
    - intro R. apply arrive_frame in R as (_ & _ & _ & _ & _ & _ & _ & -> & _). intros [K|K]; [exact K|discriminate K].
    - intro R. rewrite (H _ _ _ R). intros [K|K]; [exact K|discriminate K]. }
  induction tr as [|e tr IH]; intros p p'; cbn [run existsb].
  - intros [= <-]. intros [K|K]; [exact K|discriminate K].
  - destruct (step p e) as [q| |] eqn:S; try discriminate. intros R K. apply (IH _ _ R).
    destruct K as [K|K]; [left; apply (KS _ _ _ S); auto|]. apply orb_true_iff in K as [K|K]; [left; apply (KS _ _ _ S); auto|auto].
Qed.

(** ** Connections in flight *)

(** While nobody calls Stop, what a step does to the server of a connection that stays. *)
Lemma keeps_server p e p' i b : inv p -> stopping p = [] -> stops e = false -> step p e = Went p' ->
  connected p' i b -> i < List.length (conns p) -> runs p b -> connected p i b /\ runs p' b.
Proof.
  intros V SN N R C Li (s & E & H). destruct e as [c fail|a| |b0|j| |x|x|b0 k|j]; try discriminate N; cbn [step] in R.
  - assert (C0 : connected p i b) by (pose proof (reconfigure_frame _ _ _ _ R) as (_ & _ & X & _); unfold connected in *; rewrite X in C; exact C).
    split; [exact C0|]. unfold reconfigure in R. destruct (match p_cfg p with Some (c0, _) => config_eqb c c0 | None => false end).
    { injection R as <-. exists s. auto. }
    destruct fail as [n|].
    + injection R as <-. exists s. split; [apply nth_app_l, E|exact H].
    + destruct (retire_spec p V) as (l & RE & _ & L & S). rewrite RE in R. injection R as <-.
      assert (NE : exists s', nth_error l b = Some s').
      { destruct (nth_error l b) eqn:X; [eauto|]. apply nth_error_None in X. apply nth_lt in E. lia. }
      destruct NE as [s' NE]. destruct (S _ _ NE) as (s0 & E0 & _ & _ & _ & K). rewrite E in E0. injection E0 as <-.
      exists s'. split; [apply nth_app_l, NE|]. rewrite K; [exact H|]. rewrite (i_flight _ V _ _ E).
      destruct C0 as (n & X1 & X2 & X3). eapply open_for_pos; eauto.
  - destruct (start p a) as [[p1 ok]|] eqn:S; [|discriminate R]. injection R as <-.
    apply start_frame in S as (A1 & A2 & _). unfold connected, runs in *. rewrite A1, A2 in *. eauto.
  - rewrite SN in R. discriminate R.
  - destruct (among j (hanging_up p)); [|discriminate R]. destruct (hang_up p j) as [p1| |] eqn:Hu; try discriminate R. injection R as <-.
    apply hang_up_frame in Hu as (_ & _ & _ & _ & _ & _ & _ & _ & _ & _ & S & CC); [|exact V].
    destruct (S _ _ E) as (s' & E' & _ & _ & _ & K). assert (C1 : connected p1 i b) by exact C. split; [apply CC, C1|].
    exists s'. split; [exact E'|]. rewrite K; [exact H|]. destruct C1 as (n & X1 & X2 & X3). eapply open_for_pos; eauto.
  - unfold shutdown in R. destruct (p_listener p) as [l0|] eqn:L0; [|discriminate R].
    destruct (shutdown_spec p V) as (l & RE & _ & L & S); [congruence|]. unfold in_force in RE. rewrite RE in R. injection R as <-.
    assert (C0 : connected p i b).
    { destruct C as (n & X1 & X2 & X3). cbn [with_conns conns] in X1. apply cut_be in X1 as (m & X1 & Y2 & Y3). exists m. repeat split; congruence. }
    split; [exact C0|].
    assert (NE : exists s', nth_error l b = Some s').
    { destruct (nth_error l b) eqn:X; [eauto|]. apply nth_error_None in X. apply nth_lt in E. lia. }
    destruct NE as [s' NE]. destruct (S _ _ NE) as (s0 & E0 & _ & _ & _ & K). rewrite E in E0. injection E0 as <-.
    exists s'. split; [exact NE|]. rewrite K; [exact H|]. rewrite (i_flight _ V _ _ E).
    destruct C0 as (n & X1 & X2 & X3). eapply open_for_pos; eauto.
  - injection R as <-. split; [exact C|]. exists s. auto.
  - unfold arrive in R. destruct (p_ctx p) as [x|]; [|discriminate R]. destruct (nth_error (servers p) b0) as [s0|] eqn:E0; [|discriminate R].
    destruct (_ && _); [|discriminate R]. injection R as <-. split.
    + destruct C as (n & X1 & X2). cbn [with_conns conns] in X1. apply nth_snoc in X1 as [X1|[X1 _]]; [exists n; auto|lia].
    + unfold runs. cbn [with_conns with_servers servers]. rewrite nth_change. destruct (Nat.eqb_spec b0 b) as [Q|Q].
      * rewrite E. cbn. eexists. split; [reflexivity|]. cbn. exact H.
      * exists s. auto.
  - apply hang_up_frame in R as (_ & _ & _ & _ & _ & _ & _ & _ & _ & _ & S & CC); [|exact V].
    destruct (S _ _ E) as (s' & E' & _ & _ & _ & K). split; [apply CC, C|].
    exists s'. split; [exact E'|]. rewrite K; [exact H|]. destruct C as (n & X1 & X2 & X3). eapply open_for_pos; eauto.
Qed.

Lemma stopping_step p e p' : stops e = false -> stopping p = [] -> step p e = Went p' ->
  stopping p' = [] /\ (forall i n', nth_error (conns p') i = Some n' -> n_open n' = true -> i < List.length (conns p) ->
    exists n, nth_error (conns p) i = Some n /\ n_open n = true /\ n_be n = n_be n') /\ List.length (conns p) <= List.length (conns p').
Proof.
  intros N SN. assert (HU : forall j p', hang_up p j = Went p' -> stopping p' = [] /\ (forall i n', nth_error (conns p') i = Some n' -> n_open n' = true -> i < List.length (conns p) ->
    exists n, nth_error (conns p) i = Some n /\ n_open n = true /\ n_be n = n_be n') /\ List.length (conns p) <= List.length (conns p')).
  { intros j q. unfold hang_up. destruct (nth_error (conns p) j) as [n|] eqn:E; [|discriminate].
    destruct (n_open n) eqn:O; [|intros [= <-]; repeat split; eauto].
    destruct (close_one leave (servers p) (n_be n)); [|discriminate]. intros [= <-]. cbn [with_conns with_servers conns stopping]. rewrite change_length.
    repeat split; auto. intros i n' X Y _. rewrite nth_change in X. destruct (Nat.eqb_spec j i) as [Q|Q]; [|eauto].
    destruct (nth_error (conns p) i); [|discriminate X]. cbn in X. injection X as <-. discriminate Y. }
  destruct e as [c fail|a| |b0|j| |x|x|b0 k|j]; try discriminate N; cbn [step].
  - intro R. apply reconfigure_frame in R as (_ & _ & A & _ & _ & _ & _ & B & _). rewrite A, B. repeat split; eauto.
  - destruct (start p a) as [[p1 ok]|] eqn:S; [|discriminate]. intros [= <-].
    apply start_frame in S as (_ & A & _ & _ & B & _). rewrite A, B. repeat split; eauto.
  - rewrite SN. discriminate.
  - destruct (among j (hanging_up p)); [|discriminate]. destruct (hang_up p j) as [p1| |] eqn:H; try discriminate. intros [= <-]. cbn. apply HU in H. exact H.
  - unfold shutdown. destruct (p_listener p) as [l0|]; [|discriminate]. destruct (close_all _ _ _); [|discriminate]. intros [= <-].
    cbn [with_conns with_servers with_socks conns stopping]. rewrite cut_length. repeat split; auto. intros i n' X Y _. apply cut_be in X as (m & X1 & X2 & X3).
    exists m. repeat split; congruence.
  - intros [= <-]. cbn. repeat split; eauto.
  - unfold arrive. destruct (p_ctx p) as [x|]; [|discriminate]. destruct (nth_error (servers p) b0) as [s0|]; [|discriminate].
    destruct (_ && _); [|discriminate]. intros [= <-]. cbn [with_conns with_servers conns stopping]. rewrite app_length. split; [exact SN|]. split; [|lia].
    intros i n' X Y L. apply nth_snoc in X as [X|[X _]]; [eauto|lia].
  - apply HU.
Qed.

Lemma stopping_run tr : forall p p', existsb stops tr = false -> stopping p = [] -> run p tr = Went p' ->
  stopping p' = [] /\ (forall i b, connected p' i b -> i < List.length (conns p) -> connected p i b).
Proof.
  induction tr as [|e tr IH]; intros p p' N SN; cbn [run]; [intros [= <-]; auto|].
  cbn in N. apply orb_false_iff in N as [N1 N2]. destruct (step p e) as [q| |] eqn:S; try discriminate. intro R.
  destruct (stopping_step _ _ _ N1 SN S) as (A & B & L). destruct (IH _ _ N2 A R) as (A' & C). split; [exact A'|].
  intros i b X Li. destruct (C i b X) as (n' & Y1 & Y2 & Y3); [lia|]. destruct (B _ _ Y1 Y2 Li) as (n & Z1 & Z2 & Z3).
  exists n. repeat split; congruence.
Qed.

Lemma keeps_server_run tr : forall p p' i b, inv p -> stopping p = [] -> existsb stops tr = false -> run p tr = Went p' ->
  connected p' i b -> i < List.length (conns p) -> runs p b -> runs p' b.
Proof.
  induction tr as [|e tr IH]; intros p p' i b V SN N; cbn [run]; [intros [= <-]; auto|].
  cbn in N. apply orb_false_iff in N as [N1 N2]. destruct (step p e) as [q| |] eqn:S; try discriminate. intros R C Li RU.
  destruct (stopping_step _ _ _ N1 SN S) as (A & B & L). destruct (stopping_run _ _ _ N2 A R) as (_ & K).
  assert (Cq : connected q i b) by (apply K; [exact C|lia]).
  destruct (keeps_server _ _ _ _ _ V SN N1 S Cq Li RU) as [_ RU'].
  apply (IH q p' i b); auto; [eapply inv_step; eassumption|lia].
Qed.

(** ** Stop again *)

Lemma stop_again p : inv p -> (exists x, ctxs p = [x] /\ x_done x = true) -> p_ctx p = Some 0 ->
  (forall s, In s (socks p) -> so_open s = false) -> in_force p = [] -> p_key p = false -> stopping p = [] -> hanging_up p = [] ->
  (forall i b, ~ connected p i b) -> exists l, stop p = Went (with_conns p l) /\ forall i b, ~ connected (with_conns p l) i b.
Proof.
  intros V (x & X & XD) PC SO FO KE S1 S2 NC. unfold stop. destruct (p_listener p) as [j|] eqn:L.
  2: { exfalso. destruct (i_ctx _ V) as [A _]. apply A; [rewrite PC; discriminate|exact L]. }
  exists (cut_quic (p_quic p) (conns p)).
  assert (CS : forall i, close_sock i (socks p) = socks p).
  { intros [i|]; [|reflexivity]. apply change_id. intros s N. apply nth_error_In, SO in N. destruct s; cbn in *; congruence. }
  assert (OC : open_conns (conns p) = []).
  { apply open_conns_none. intros i n N. destruct (n_open n) eqn:O; [|reflexivity]. destruct (NC i (n_be n)). exists n. auto. }
  split.
  - rewrite !CS, OC. unfold in_force in FO. destruct p as [sv so cx cn cf ro li qu ct ke st hu]. cbn in *. subst ke st hu li. rewrite PC, X. cbn.
    assert (CX : {| x_done := true; x_web := x_web x; x_waited := x_waited x |} = x) by (destruct x; cbn in *; congruence). rewrite CX. clear CX CS.
    destruct cf as [[c bs]|]; [|subst; reflexivity]. subst bs. pose proof (i_cfg _ V c [] eq_refl) as LB. destruct c as [cw ct' cq cb cr]. cbn in LB.
    destruct cb; [|discriminate LB]. cbn. subst. reflexivity.
  - intros i b (n & N & O & E). cbn [with_conns conns] in N. apply cut_be in N as (m & N & B & O'). apply (NC i b). exists m. repeat split; congruence.
Qed.
