(** C14: what a bridged connection delivers, and when it ends. *)
From Verif Require Import Base BridgeModel BridgeSpec BridgeProofs.

(** [run cwd init tr = Some s]: s is reached by the history tr of peer actions,
    system call results and steps of the two copying goroutines, in any order. *)

(** C14.  At any moment, what either peer has received is a prefix of what the
    other one has sent: nothing is added, lost in the middle, or reordered. *)
Theorem C14_delivered_is_prefix : forall cwd tr s x, run cwd init tr = Some s ->
  prefix (got (eps s (other x))) (sent (eps s x)).
Proof. intros cwd tr s x H. exact (got_prefix s x (reach_ok cwd tr s x H)). Qed.
Print Assumptions C14_delivered_is_prefix.

(** C14.  A peer is told that the other side is done (half-close) only after the
    other side finished and everything it sent has been delivered. *)
Theorem C14_eof_after_all_data : forall cwd tr s x, run cwd init tr = Some s ->
  wclosed (eps s (other x)) = true ->
  fin (eps s x) = true /\ got (eps s (other x)) = sent (eps s x).
Proof. intros cwd tr s x H. exact (wclosed_done s x (reach_ok cwd tr s x H)). Qed.
Print Assumptions C14_eof_after_all_data.

(** C14.  A timeout ends a connection only after the other side finished and everything it
    sent has been delivered; until then a connection may be idle for as long as it likes. *)
Theorem C14_timeout_only_after_half_close : forall cwd tr s x, run cwd init tr = Some s ->
  expired (eps s x) = true ->
  fin (eps s (other x)) = true /\ got (eps s x) = sent (eps s (other x)).
Proof.
  intros cwd tr s x H E. destruct (reach_dl _ _ _ H x) as (D1 & D2 & _). specialize (D1 (D2 E)).
  destruct x; [exact (C14_eof_after_all_data cwd tr s S H D1)|exact (C14_eof_after_all_data cwd tr s C H D1)].
Qed.
Print Assumptions C14_timeout_only_after_half_close.

(** C14.  As long as no peer disappears, no half-close times out and no
    half-close fails, the proxy ends the connections only because a side finished
    whose end is configured to end the connection, and then everything that side
    sent has been delivered. *)
Theorem C14_closed_only_when_configured : forall serverClose clientClose tr s x,
  run (settings serverClose clientClose) init tr = Some s ->
  forallb (fun e => negb (fault e)) tr = true ->
  closed (eps s x) = true ->
  (serverClose <> Some false /\ fin (eps s S) = true /\ got (eps s C) = sent (eps s S)) \/
  (clientClose = Some true /\ fin (eps s C) = true /\ got (eps s S) = sent (eps s C)).
Proof.
  intros sc cc tr s x H Hf Hx. destruct (reach_calm _ _ _ H Hf) as [_ G].
  destruct (G x Hx) as (d & Hd & [D1 D2] & _). destruct d; cbn in *.
  - right. destruct cc as [[|]|]; try discriminate. auto.
  - left. destruct sc as [[|]|]; try discriminate; repeat split; auto; discriminate.
Qed.
Print Assumptions C14_closed_only_when_configured.

(** C14.  The end of bridging: when both directions have ended, either both
    connections are closed or each peer has received everything the other sent. *)
Theorem C14_end_state : forall cwd tr s bC bS, run cwd init tr = Some s ->
  thr s C = Finished bC -> thr s S = Finished bS ->
  (closed (eps s C) = true /\ closed (eps s S) = true) \/
  (got (eps s S) = sent (eps s C) /\ got (eps s C) = sent (eps s S) /\
   fin (eps s C) = true /\ fin (eps s S) = true).
Proof.
  intros cwd tr s bC bS H HC HS. destruct (both_finished _ _ _ _ _ H HC HS) as [G | [[A1 A2] [B1 B2]]].
  - left. exact G.
  - right. cbn in *. auto.
Qed.
Print Assumptions C14_end_state.

(** C14.  The proxy holds nothing back: whenever it has nothing left to do until
    a peer or a clock acts, either both connections are closed, or each peer has
    been sent everything the other one has sent so far, has been told if the other
    one is done, and neither disappeared before finishing. *)
Theorem C14_nothing_held_back : forall cwd tr s, run cwd init tr = Some s -> at_rest cwd s ->
  (closed (eps s C) = true /\ closed (eps s S) = true) \/
  (forall x, got (eps s (other x)) = sent (eps s x) /\
             (fin (eps s x) = true -> wclosed (eps s (other x)) = true) /\
             (broken (eps s x) = true -> fin (eps s x) = true)).
Proof. exact rest_delivered. Qed.
Print Assumptions C14_nothing_held_back.

(** C14.  When a peer disappears before it has finished, both connections are closed as soon
    as the proxy has done what it can. *)
Theorem C14_reset_ends : forall cwd tr s x, run cwd init tr = Some s -> at_rest cwd s ->
  In (PeerReset x) tr -> ~ In (PeerFin x) tr -> closed (eps s C) = true /\ closed (eps s S) = true.
Proof.
  intros cwd tr s x H R I N.
  assert (G : forall tr s0 s, run cwd s0 tr = Some s ->
    (broken (eps s0 x) = true \/ In (PeerReset x) tr -> broken (eps s x) = true) /\
    (fin (eps s x) = true -> fin (eps s0 x) = true \/ In (PeerFin x) tr)).
  { clear. induction tr as [|e tr IH]; intros s0 s H; cbn [run] in H.
    - injection H as <-. split; [intros [A|[]]; exact A|auto].
    - destruct (step cwd s0 e) as [s1|] eqn:E; [|discriminate]. destruct (IH s1 s H) as [A B]. clear IH H.
      assert (K : (broken (eps s0 x) = true \/ e = PeerReset x -> broken (eps s1 x) = true) /\ (fin (eps s1 x) = true -> fin (eps s0 x) = true \/ e = PeerFin x)).
      { destruct e as [y d|y|y|y|y n|y|y|y|y n|y ok|y ok]; cbn [step] in E;
        repeat match type of E with
        | context [match ?t with _ => _ end] => destruct t eqn:?; try discriminate E
        end; injection E as <-; destruct x, y; cbn; split; intros Z; try (destruct Z as [Z|Z]; [exact Z|discriminate Z]); auto. }
      destruct K as [K1 K2]. split.
      + intros [Z|[Z|Z]]; apply A; auto.
      + intros Z. destruct (B Z) as [Y|Y]; [|right; right; exact Y]. destruct (K2 Y) as [X|X]; [auto|right; left; exact X]. }
  destruct (G tr init s H) as [G1 G2]. specialize (G1 (or_intror I)).
  destruct (C14_nothing_held_back cwd tr s H R) as [D|D]; [exact D|]. exfalso. destruct (D x) as (_ & _ & D3).
  destruct (G2 (D3 G1)) as [Z|Z]; [destruct x; discriminate Z|contradiction].
Qed.
Print Assumptions C14_reset_ends.
Example C14_example_reset : exists s, run (settings None None) init [PeerSend C (lit "ab"); PeerReset C; Read C 2; Write C; ReadErr C; ReadErr S] = Some s /\
  at_rest (settings None None) s /\ got (eps s S) = lit "ab".
Proof.
  eexists. split; [reflexivity|]. split; [|reflexivity].
  intros [y d|y|y|y|y n|y|y|y|y n|y ok|y ok] B; try discriminate B; destruct y; reflexivity.
Qed.

(** C14.  And it does end: when one side has finished and the proxy has done what it can,
    either the other side has finished too, or the time limit is running on it, and when
    that passes both connections are closed. *)
Theorem C14_half_open_ends : forall cwd tr s x, run cwd init tr = Some s -> at_rest cwd s ->
  fin (eps s x) = true ->
  (closed (eps s C) = true /\ closed (eps s S) = true) \/
  (exists b, thr s (other x) = Finished b) \/
  (exists s', run cwd s [Expire (other x); ReadErr (other x)] = Some s' /\
              closed (eps s' C) = true /\ closed (eps s' S) = true).
Proof.
  intros cwd tr s x H R F. destruct (reach_aux _ _ _ H) as [A1 _]. unfold closed_same in A1.
  destruct (closed (eps s C)) eqn:EC; [left; split; congruence|].
  assert (Hc : forall y, closed (eps s y) = false) by (intros [|]; congruence).
  pose proof (Hc x) as Cx. pose proof (Hc (other x)) as Co.
  destruct (rest_finished cwd tr s x H R F Cx Co) as [b T].
  destruct (reach_end _ _ _ H x b T) as [E|E]; [destruct E; congruence|]. right.
  destruct (thr s (other x)) as [[|c buf]| | |b'] eqn:T'; [right| | | |left; eauto].
  - cbn [run]. cbn [step]. rewrite E. cbn [thr set_ep]. rewrite T'. destruct x; cbn; rewrite orb_true_r; (eexists; split; [reflexivity|]; cbn; auto).
  - specialize (R (Write (other x)) eq_refl). cbn [step] in R. rewrite T' in R.
    replace (other (other x)) with x in R by (destruct x; reflexivity). rewrite Cx in R. discriminate R.
  - specialize (R (CloseWrite (other x) true) eq_refl). cbn [step] in R. rewrite T' in R. discriminate R.
  - specialize (R (CloseRead (other x) true) eq_refl). cbn [step] in R. rewrite T' in R. discriminate R.
Qed.
Print Assumptions C14_half_open_ends.

(** C14.  It always gets there: without new peer actions the proxy can make only
    so many steps, in whatever order. *)
Theorem C14_comes_to_rest : forall cwd s tr s', run cwd s tr = Some s' -> forallb by_proxy tr = true ->
  List.length tr <= 2 * List.length (unread (eps s C)) + 2 * List.length (unread (eps s S)) + 8.
Proof. intros cwd s tr s' H B. exact (run_steps cwd s tr s' B H). Qed.
Print Assumptions C14_comes_to_rest.

(** A client that half-closes after its request still gets the whole answer, with
    the default settings. *)
Definition ex_trace : list event :=
  [PeerSend C (lit "get"); PeerFin C; Read C 2; Write C; Read C 1; Write C; ReadEOF C;
   CloseWrite C true; CloseRead C true; PeerSend S (lit "answer"); PeerFin S; Read S 6; Write S; ReadEOF S].
Example C14_example :
  option_map (fun s => (got (eps s S), wclosed (eps s S), got (eps s C), closed (eps s C), forallb (fun e => negb (fault e)) ex_trace))
    (run (settings None None) init ex_trace)
  = Some (lit "get", true, lit "answer", true, true).
Proof. vm_compute. reflexivity. Qed.
(** With serverClose off, the client can continue after the server is done. *)
Example C14_example_half_close :
  option_map (fun s => (wclosed (eps s C), closed (eps s C), got (eps s S)))
    (run (settings (Some false) None) init
      [PeerSend S (lit "hi"); PeerFin S; Read S 2; Write S; ReadEOF S; CloseWrite S true; CloseRead S true;
       PeerSend C (lit "bye"); Read C 3; Write C])
  = Some (true, false, lit "bye").
Proof. vm_compute. reflexivity. Qed.
(** The histories of the theorem exist: here the proxy waits for the client. *)
Example C14_example_rest : exists s,
  run (settings (Some false) None) init
      [PeerSend S (lit "hi"); PeerFin S; Read S 2; Write S; ReadEOF S; CloseWrite S true; CloseRead S true] = Some s /\
  at_rest (settings (Some false) None) s /\ closed (eps s C) = false.
Proof.
  eexists. split; [vm_compute; reflexivity|]. split; [|vm_compute; reflexivity].
  intros [[|] d|[|]|[|]|[|]|[|] n|[|]|[|]|[|]|[|] n|[|] ok|[|] ok] H; try discriminate H; try reflexivity.
  cbn. destruct n; reflexivity.
Qed.
