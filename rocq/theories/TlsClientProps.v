(** C103: the command tlsclient. *)
From Verif Require Import Base HttpModel HeadersModel PasskeyHttpModel OcspModel TlsClientModel TlsClientSpec TlsClientProofs.
Open Scope nat_scope.

(** ** What it connects to *)

(** C103.  The address: host:port, [address]:port, or a host or an IPv6 address alone with the port 443. *)
Theorem C103_address : forall h p, plain h -> plain p ->
  host_port (h ++ lit ":" ++ p) = (h, p) /\
  host_port h = (h, lit "443").
Proof. exact address_plain. Qed.
Print Assumptions C103_address.
Theorem C103_address_v6 : forall a b c p, plain c -> plain p -> ~ List.In "["%char (a ++ b) -> ~ List.In "]"%char (a ++ b) ->
  let h := a ++ lit ":" ++ b ++ lit ":" ++ c in
  host_port (lit "[" ++ h ++ lit "]:" ++ p) = (h, p) /\ host_port h = (h, lit "443").
Proof. exact address_v6. Qed.
Print Assumptions C103_address_v6.
(** C103.  What is not understood: an IPv6 address in brackets without a port.  The brackets become part of the name. *)
Theorem C103_address_refuted : forall h, ~ List.In "]"%char h ->
  host_port (lit "[" ++ h ++ lit "]") = (lit "[" ++ h ++ lit "]", lit "443").
Proof. exact address_brackets. Qed.
Print Assumptions C103_address_refuted.

(** C103.  The certificate of the server must be for the host that was named, whatever the resolvers say, and
    the connection goes to an address that one of them gave for that host; the second is only asked
    when the first fails. *)
Theorem C103_peer : forall addr local google target name, plan addr local google = Some (target, name) ->
  name = fst (host_port addr) /\
  exists a l, target = join_host_port a (snd (host_port addr)) /\
    (local name = Some (a :: l) \/ (local name = None /\ google name = Some (a :: l))).
Proof.
  intros addr local google target name. unfold plan. destruct (host_port addr) as [h p]. cbn [fst snd].
  destruct (local h) as [[|a l]|] eqn:L; [discriminate| |].
  - intros H. injection H as <- <-. split; [reflexivity|]. exists a, l. auto.
  - destruct (google h) as [[|a l]|] eqn:G; try discriminate. intros H. injection H as <- <-. split; [reflexivity|]. exists a, l. auto.
Qed.
Print Assumptions C103_peer.
Example C103_peer_case : plan (lit "example.com:8443") (fun _ => None) (fun _ => Some [lit "2001:db8::1"; lit "192.0.2.1"])
  = Some (lit "[2001:db8::1]:8443", lit "example.com").
Proof. reflexivity. Qed.
(** C103.  What does not hold: when the host has several addresses, only the first one is tried: the others make
    no difference. *)
Theorem C103_other_addresses_refuted : forall addr local google l l' a,
  local (fst (host_port addr)) = Some (a :: l) ->
  plan addr local google = plan addr (fun _ => Some (a :: l')) google.
Proof. intros addr local google l l' a H. unfold plan. destruct (host_port addr) as [h p]. cbn [fst] in H. now rewrite H. Qed.
Print Assumptions C103_other_addresses_refuted.

(** C103.  It runs with exactly one address, and with a key and a certificate or with neither. *)
Theorem C103_usage : forall a, a_version a = false ->
  (exists addr, a_rest a = [addr] /\ (a_key a = [] <-> a_cert a = []) /\
     begin a = Go addr (match a_key a with [] => false | _ => true end)) \/
  (((forall addr, a_rest a <> [addr]) \/ ~ (a_key a = [] <-> a_cert a = [])) /\ begin a = Usage).
Proof.
  intros [v k c r] V. cbn in V. subst v. unfold begin. cbn [a_version a_key a_cert a_rest].
  destruct r as [|addr [|x r]].
  - right. split; [left; discriminate|reflexivity].
  - destruct k as [|k0 k], c as [|c0 c]; cbn [str_eqb xorb].
    + left. exists addr. repeat split.
    + right. split; [right; intros [A _]; discriminate (A eq_refl)|reflexivity].
    + right. split; [right; intros [_ A]; discriminate (A eq_refl)|reflexivity].
    + left. exists addr. split; [reflexivity|]. split; [split; discriminate|reflexivity].
  - right. split; [left; discriminate|reflexivity].
Qed.
Print Assumptions C103_usage.

(** ** The stapled OCSP response *)

(** C103.  With -ocsp, a connection is used only if the server has sent a response about the serial number of its
    certificate that says good and has not expired, and that is signed with the key of the second certificate
    that the server sent (or of its own, if it sent only one). *)
Theorem C103_ocsp_partial : forall now peers staple, verify true now peers staple = true ->
  exists w c rest next, staple = Some w /\ peers = c :: rest /\
    List.In (ct_serial c, Good, next) (wi_singles w) /\ (now <= next)%Z /\
    wi_signer w = ct_key (hd c rest).
Proof.
  intros now peers staple H. unfold verify in H. cbn [negb] in H. destruct staple as [w|]; [|discriminate].
  destruct peers as [|c rest]; [discriminate|].
  destruct (parse_response w (Some (ct_serial c)) _) as [r|] eqn:P; [|discriminate].
  unfold parse_response in P. destruct (find _ (wi_singles w)) as [[[n s] t]|] eqn:F; [|discriminate].
  destruct (str_eqb _ (wi_signer w)) eqn:S; [|discriminate]. injection P as <-. cbn [rs_next rs_status] in H.
  destruct (t <? now)%Z eqn:T; [discriminate|]. apply Z.ltb_ge in T. destruct s; try discriminate.
  apply find_some in F. destruct F as [F1 F2]. cbn in F2. apply N.eqb_eq in F2. subst n.
  exists w, c, rest, t. split; [reflexivity|]. split; [reflexivity|]. split; [exact F1|]. split; [exact T|].
  apply str_eqb_spec in S. rewrite <- S. destruct rest; reflexivity.
Qed.
Print Assumptions C103_ocsp_partial.

(** C103.  What is missing: that it is the issuer who says so.  The list is what the server sends, not the chain
    that was verified.  So whoever holds the key of a certificate can sign the response themselves, also
    after the certificate was revoked: they send the certificate twice, and then the others that are
    needed to verify it; or the certificate alone. *)
Theorem C103_own_response_refuted : forall c others now next, (now <= next)%Z ->
  verify true now (c :: c :: others) (Some (says (ct_key c) c Good next)) = true /\
  verify true now [c] (Some (says (ct_key c) c Good next)) = true.
Proof.
  intros c others now next L. unfold verify, says, parse_response. cbn [negb wi_signer wi_singles find fst].
  rewrite N.eqb_refl, str_eqb_refl. cbn [rs_next rs_status]. apply Z.ltb_ge in L. now rewrite L.
Qed.
Print Assumptions C103_own_response_refuted.
(** C103.  Any other key will do as well, with a certificate that the server makes for it. *)
Theorem C103_any_key_refuted : forall c fake others now next, (now <= next)%Z ->
  verify true now (c :: fake :: others) (Some (says (ct_key fake) c Good next)) = true.
Proof.
  intros c fake others now next L. unfold verify, says, parse_response. cbn [negb wi_signer wi_singles find fst].
  rewrite N.eqb_refl, str_eqb_refl. cbn [rs_next rs_status]. apply Z.ltb_ge in L. now rewrite L.
Qed.
Print Assumptions C103_any_key_refuted.

(** C103.  A server that sends its certificate, then the one of its issuer, and a current response of the issuer that
    says good, is accepted; if it says anything else, or has expired, or there is none, it is not. *)
Theorem C103_ocsp_honest_partial : forall c issuer others now next st,
  verify true now (c :: issuer :: others) (Some (says (ct_key issuer) c st next)) = true <->
  st = Good /\ (now <= next)%Z.
Proof.
  intros c issuer others now next st. unfold verify, says, parse_response. cbn [negb wi_signer wi_singles find fst].
  rewrite N.eqb_refl, str_eqb_refl. cbn [rs_next rs_status]. destruct (next <? now)%Z eqn:L.
  - apply Z.ltb_lt in L. split; [discriminate|]. intros [_ A]. lia.
  - apply Z.ltb_ge in L. destruct st; split; try discriminate; auto; intros [A _]; discriminate.
Qed.
Print Assumptions C103_ocsp_honest_partial.
Theorem C103_ocsp_required : forall now peers, verify true now peers None = false.
Proof. reflexivity. Qed.
Print Assumptions C103_ocsp_required.
(** C103.  What is missing: a server whose certificate was issued by a root does not need to send any other, and
    then its response is refused; and so is one that does not say until when it is valid. *)
Theorem C103_ocsp_root_refuted : forall c root now next, ct_key root <> ct_key c ->
  verify true now [c] (Some (says (ct_key root) c Good next)) = false.
Proof.
  intros c root now next N. unfold verify, says, parse_response. cbn [negb wi_signer wi_singles find fst].
  rewrite N.eqb_refl. destruct (str_eqb (ct_key c) (ct_key root)) eqn:E; [apply str_eqb_spec in E; congruence|reflexivity].
Qed.
Print Assumptions C103_ocsp_root_refuted.
Theorem C103_ocsp_no_next_refuted : forall c issuer others now, (0 <= now)%Z ->
  verify true now (c :: issuer :: others) (Some (says (ct_key issuer) c Good zero_time)) = false.
Proof.
  intros c issuer others now N. unfold verify, says, parse_response. cbn [negb wi_signer wi_singles find fst].
  rewrite N.eqb_refl, str_eqb_refl. cbn [rs_next rs_status]. replace (zero_time <? now)%Z with true; [reflexivity|].
  symmetry. apply Z.ltb_lt. unfold zero_time. lia.
Qed.
Print Assumptions C103_ocsp_no_next_refuted.
(** C103.  Without -ocsp nothing is asked for. *)
Theorem C103_ocsp_off : forall now peers staple, verify false now peers staple = true.
Proof. reflexivity. Qed.
Print Assumptions C103_ocsp_off.

(** ** Copying
    [run quic init tr = Some s]: s is reached after the connection was made, by the history tr of what
    standard input, the server and the network do, and of the steps of the command, in any order. *)

(** C103.  At any moment, standard output is a prefix of what the server has sent, and what the server has received
    is a prefix of what came on standard input. *)
Theorem C103_in_order : forall quic tr s, run quic init tr = Some s ->
  prefix (out s) (r_sent s) /\ prefix (r_got s) (s_in s).
Proof.
  intros quic tr s H. destruct (reach _ _ _ H) as [V1 _ _ (rest & V4 & _) _ _ _ _]. split.
  - rewrite V4. eexists; reflexivity.
  - destruct (up s); [destruct V1 as [-> _]|destruct V1 as (l & -> & _)]; eexists; reflexivity.
Qed.
Print Assumptions C103_in_order.

(** C103.  When it ends, everything that the server has sent has been written and the server had ended its output; or
    else the connection was cut, and an error was reported. *)
Theorem C103_output : forall quic tr s, run quic init tr = Some s -> status s <> None ->
  (out s = r_sent s /\ r_fin s = true) \/ (r_cut s = true /\ logged s = true).
Proof.
  intros quic tr s H S. destruct (reach _ _ _ H) as [_ _ _ (rest & V4 & _ & V6) V7 _ _ _].
  destruct (down s); [destruct V7; contradiction|]. destruct (V6 eq_refl) as [[-> F]|F]; [left|right; exact F].
  cbn [app] in V4. rewrite app_nil_r in V4. auto.
Qed.
Print Assumptions C103_output.
Example C103_output_case : exists s, run false init [In (lit "get"); InEof; URead 3; UWrite; Arrive 3; UEof; ArriveEnd;
   SSend (lit "ok"); SFin; DRead 2; DWrite; DEof] = Some s /\ status s = Some 0 /\ out s = lit "ok" /\ r_end s = true /\ closed s = true.
Proof. eexists. split; [vm_compute; reflexivity|]. repeat split. Qed.

(** C103.  What does not hold: a script cannot tell.  The status is 0 whether the output is complete or not. *)
Theorem C103_status_refuted : (forall quic tr s n, run quic init tr = Some s -> status s = Some n -> n = 0) /\
  exists s, run false init [SSend (lit "half and the rest"); DRead 4; DWrite; SCut; DReadErr] = Some s /\
    status s = Some 0 /\ out s = lit "half" /\ r_fin s = false.
Proof.
  split.
  - intros quic tr s n H S. destruct (reach _ _ _ H) as [_ _ _ _ V7 _ _ _]. destruct (down s); destruct V7; congruence.
  - eexists. split; [vm_compute; reflexivity|]. repeat split.
Qed.
Print Assumptions C103_status_refuted.

(** C103.  The server is told that the input has ended only after it has received all of it. *)
Theorem C103_server_told_partial : forall quic tr s, run quic init tr = Some s -> r_end s = true -> ~ List.In InErr tr ->
  s_eof s = true /\ r_got s = s_in s.
Proof.
  intros quic tr s H E N. destruct (reach _ _ _ H) as [_ _ V3 _ _ _ _ _]. destruct (V3 E) as [V [K|K]]; [auto|].
  rewrite (no_inerr _ _ _ H N) in K. discriminate.
Qed.
Print Assumptions C103_server_told_partial.
(** C103.  What is missing: when the input cannot be read any more, the server sees the regular end of it. *)
Theorem C103_cut_input_refuted : exists s, run false init [In (lit "half"); URead 4; UWrite; Arrive 4; InErr; UReadErr; ArriveEnd] = Some s /\
  r_end s = true /\ s_eof s = false /\ r_cut s = false.
Proof. eexists. split; [vm_compute; reflexivity|]. repeat split. Qed.
Print Assumptions C103_cut_input_refuted.

(** C103.  Nothing is held back: whenever it runs and waits, everything that has come in has been passed on, and so has
    the end of the input; the server has not ended its output and is still connected. *)
Theorem C103_nothing_held_back : forall quic tr s, run quic init tr = Some s -> at_rest quic s -> status s = None ->
  out s = r_sent s /\ s_in s = r_got s ++ flight s /\ (s_eof s = true -> endq s = true) /\ r_fin s = false /\ r_cut s = false.
Proof.
  intros quic tr s H R A. pose proof (reach _ _ _ H) as V. destruct (rest_down _ _ V A R) as (D & U & F & C).
  pose proof (rest_up _ _ A R C) as P. destruct V as [V1 V2 V3 (rest & V4 & V5 & V6) V7 V8 V9 V10].
  rewrite D in V4, V5. rewrite V5, U in V4 by discriminate. cbn [app] in V4. rewrite app_nil_r in V4.
  split; [auto|]. destruct P as [P|(P & P1 & P2 & P3)]; rewrite P in V1.
  - destruct V1 as (lost & V1 & [[-> L]|L]); [|congruence]. rewrite app_nil_r in V1. split; [exact V1|]. split; [|auto].
    intros _. destruct (endq s) eqn:Q; [reflexivity|]. destruct (no_end _ _ _ H P Q).
  - rewrite P1 in V1. cbn [app] in V1. rewrite app_nil_r in V1. destruct V1 as [V1 Q]. split; [exact V1|]. split; [congruence|auto].
Qed.
Print Assumptions C103_nothing_held_back.

(** C103.  So when the input has ended, all of it and its end will arrive: nothing but the network is left to act. *)
Theorem C103_delivered : forall quic tr s, run quic init tr = Some s -> at_rest quic s -> status s = None -> s_eof s = true ->
  exists s', run quic s [Arrive (List.length (flight s)); ArriveEnd] = Some s' /\ r_got s' = s_in s /\ r_end s' = true.
Proof.
  intros quic tr s H R A E. destruct (C103_nothing_held_back _ _ _ H R A) as (_ & I & Q & _ & C). specialize (Q E).
  set (n := List.length (flight s)). set (s1 := with_net s (skipn n (flight s)) (r_got s ++ firstn n (flight s)) (r_end s) (r_sent s) (r_unread s) (r_fin s) false).
  assert (S1 : step quic s (Arrive n) = Some s1) by (unfold step; rewrite A, C; unfold n; rewrite Nat.leb_refl; reflexivity).
  assert (F : flight s1 = []) by (cbn [s1 with_net flight]; apply skipn_all).
  assert (S2 : step quic s1 ArriveEnd = Some (with_net s1 [] (r_got s1) true (r_sent s1) (r_unread s1) (r_fin s1) (r_cut s1))).
  { unfold step. rewrite F. change (status s1) with (status s). change (r_cut s1) with false. change (endq s1) with (endq s). rewrite A, Q. reflexivity. }
  cbn [run]. rewrite S1, S2. eexists. split; [reflexivity|]. split; [|reflexivity]. cbn [with_net s1 r_got]. unfold n. rewrite firstn_all. auto.
Qed.
Print Assumptions C103_delivered.
(** C103.  With TCP this also holds for what was written before the command has ended. *)
Theorem C103_delivered_later : forall tr s, run false init tr = Some s -> r_cut s = false ->
  exists s', run false s [Arrive (List.length (flight s))] = Some s' /\ r_got s' = r_got s ++ flight s /\ (endq s = true -> exists s2, run false s' [ArriveEnd] = Some s2 /\ r_got s2 = r_got s ++ flight s /\ r_end s2 = true).
Proof.
  intros tr s H C. set (n := List.length (flight s)). set (s1 := with_net s (skipn n (flight s)) (r_got s ++ firstn n (flight s)) (r_end s) (r_sent s) (r_unread s) (r_fin s) false).
  assert (S1 : step false s (Arrive n) = Some s1) by (unfold step; rewrite C; unfold n; rewrite Nat.leb_refl, orb_true_r; reflexivity).
  assert (G : r_got s1 = r_got s ++ flight s) by (cbn [s1 with_net r_got]; unfold n; rewrite firstn_all; reflexivity).
  assert (F : flight s1 = []) by (cbn [s1 with_net flight]; apply skipn_all).
  exists s1. cbn [run]. rewrite S1. split; [reflexivity|]. split; [exact G|]. intro Q.
  assert (S2 : step false s1 ArriveEnd = Some (with_net s1 [] (r_got s1) true (r_sent s1) (r_unread s1) (r_fin s1) (r_cut s1))).
  { unfold step. rewrite F. change (status s1) with (status s). change (r_cut s1) with false. change (endq s1) with (endq s). rewrite Q, orb_true_r. reflexivity. }
  rewrite S2. eexists. split; [reflexivity|]. split; [exact G|reflexivity].
Qed.
Print Assumptions C103_delivered_later.
Example C103_nothing_held_back_case : exists s, run true init [In (lit "get"); InEof; URead 3; UWrite; UEof; SSend (lit "o"); DRead 1; DWrite] = Some s /\
  at_rest true s /\ status s = None /\ flight s = lit "get" /\ out s = lit "o".
Proof.
  eexists. split; [vm_compute; reflexivity|]. split; [|repeat split].
  intros e B. destruct e; try discriminate B; try reflexivity; cbn; destruct n; reflexivity.
Qed.
(** C103.  And it comes to rest. *)
Theorem C103_comes_to_rest : forall quic s tr s', run quic s tr = Some s' -> forallb by_client tr = true ->
  List.length tr <= 2 * List.length (s_unread s) + 2 * List.length (r_unread s) + 4.
Proof.
  intros quic s tr s' H B. pose proof (run_size _ _ _ _ H B) as L. unfold size in L.
  assert (P : forall p, pc_size p <= 2) by (intros [[|]|]; cbn; lia). pose proof (P (up s)). pose proof (P (down s)). lia.
Qed.
Print Assumptions C103_comes_to_rest.

(** C103.  What does not hold: a server that has ended its output does not receive the rest of the input, even if it
    has already been written, with QUIC. *)
Definition early_end : list event := [SSend (lit "go on"); SFin; In (lit "a long upload"); InEof; URead 6; UWrite; DRead 5; DWrite; DEof].
Theorem C103_upload_refuted : forall quic, exists s, run quic init early_end = Some s /\
  status s = Some 0 /\ logged s = false /\ r_got s = [] /\ s_in s = lit "a long upload" /\
  (forall tr s', run quic s tr = Some s' -> prefix (r_got s') (lit "a long") /\ (quic = true -> r_got s' = [])).
Proof.
  intros quic. destruct quic; eexists; (split; [vm_compute; reflexivity|]); cbn [status logged r_got s_in];
    do 4 (split; [reflexivity|]).
  - intros tr s' H. apply (after_exit true) in H; [exact H|discriminate].
  - intros tr s' H. apply (after_exit false) in H; [exact H|discriminate].
Qed.
Print Assumptions C103_upload_refuted.

(** C103.  The server is told that the connection is over when the command ends; but not with QUIC. *)
Theorem C103_told_over_partial : forall tr s, run false init tr = Some s -> status s <> None -> closed s = true.
Proof. intros tr s H S. destruct (reach _ _ _ H) as [_ _ _ _ V7 _ _ _]. destruct (down s); destruct V7 as [V7 V7']; cbn in V7'; congruence. Qed.
Print Assumptions C103_told_over_partial.
Theorem C103_told_over_refuted : forall tr s, run true init tr = Some s -> closed s = false.
Proof. intros tr s H. destruct (reach _ _ _ H) as [_ _ _ _ V7 _ _ _]. destruct (down s); destruct V7 as [V7 V7']; cbn in V7'; congruence. Qed.
Print Assumptions C103_told_over_refuted.
