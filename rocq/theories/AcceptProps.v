(** PROXY protocol headers that the proxy accepts: only from the listed peers,
    and then for everything. *)
From Coq Require Import Lia.
From Verif Require Import Base IPModel IPSpec IPProofs ConnModel HelloModel RouteModel RouteSpec RouteProofs
  ProxyHdrModel ProxyHdrSpec ProxyHdrProofs ProxyHdrProps AcceptModel.
Local Open Scope nat_scope.

(** The networks of acceptProxyHeaderFrom, as written in the configuration. *)
Definition networks (l : list (ip * nat)) : list ipnet := map (fun c => parse_cidr (fst c) (snd c)) l.

(** The peer is one of those that may speak for others. *)
Definition speaks_for_others (l : list (ip * nat)) (peer : naddr) : Prop :=
  exists a port, peer = TCPAddr a port /\ exists c, In c l /\ in_range (fst c) (snd c) a.

Lemma accept_spec l peer : Forall cidr_ok l -> is_bytes (addr_ip peer) ->
  accept_proxy_header (networks l) peer = true <-> speaks_for_others l peer.
Proof.
  intros Hl Hb. unfold speaks_for_others. destruct peer as [a p|a p|]; cbn [accept_proxy_header addr_ip] in *.
  - pose proof (check_ip_spec None (Some l) a Hb ltac:(discriminate)
      ltac:(intros l0 [= <-]; exact Hl)) as S. cbn [option_map check_ip] in S.
    fold (networks l) in S. rewrite S. split.
    + intros [_ H]. exists a, p. split; [reflexivity|]. apply H. reflexivity.
    + intros (a0 & p0 & [= <- <-] & H). split; [discriminate|]. intros l0 [= <-]. exact H.
  - split; [discriminate|]. intros (? & ? & ? & _). discriminate.
  - split; [discriminate|]. intros (? & ? & ? & _). discriminate.
Qed.

(** ** C73 *)

(** Whatever a peer that is not listed sends, the proxy takes it for who it is:
    its own address is the one that a backend's address rules are applied to,
    and all of its bytes are taken as its own. *)
Theorem C73_others_speak_for_themselves : forall read l p e n peer bytes got1 got2,
  Forall cidr_ok l -> is_bytes (addr_ip peer) -> ~ speaks_for_others l peer ->
  receive read (networks l) peer bytes = (peer, Some bytes) /\
  (forall i, reaches (accept_tcp read (networks l) p e n peer bytes got1 got2) i ->
   exists b, nth_error (backs p) i = Some b /\ check_ip (bDeny b) (bAllow b) (addr_of peer) = true).
Proof.
  intros read l p e n peer bytes got1 got2 Hl Hb H.
  assert (E : receive read (networks l) peer bytes = (peer, Some bytes)).
  { unfold receive. destruct (accept_proxy_header (networks l) peer) eqn:A; [|reflexivity].
    exfalso. apply H. apply accept_spec; assumption. }
  split; [exact E|]. intros i R. unfold accept_tcp in R. rewrite E in R.
  exact (reaches_ip_ok _ _ _ _ _ _ R).
Qed.

Lemma hello_first_byte s got1 got2 c b0 t : s = b0 :: t -> byte b0 <> 22%N ->
  peek_client_hello (fresh_conn s) got1 got2 = c -> snd c = Err.
Proof.
  intros -> Nb <-. unfold peek_client_hello, peek, fresh_conn. cbn [peekBuf wire received List.length].
  change (0 <? 5) with true. cbn iota. unfold os_read. cbn [app].
  destruct (Nat.min got1 (5 - 0)) as [|k] eqn:K.
  - cbn. reflexivity.
  - cbn [firstn skipn peekBuf app].
    match goal with |- context [negb (negb ?x)] => destruct x end; cbn [negb]; [reflexivity|].
    destruct (N.eqb_spec (byte b0) 22); [contradiction|]. reflexivity.
Qed.

(** In particular a header from such a peer does not get it anywhere. *)
Theorem C73_headers_from_others_are_refused : forall read l p e n peer bytes got1 got2,
  Forall cidr_ok l -> is_bytes (addr_ip peer) -> ~ speaks_for_others l peer ->
  (has_prefix bytes (lit "PROXY") = true \/ has_prefix bytes pp_signature = true) ->
  accept_tcp read (networks l) p e n peer bytes got1 got2 = ActTooMany \/
  accept_tcp read (networks l) p e n peer bytes got1 got2 = ActBadHello.
Proof.
  intros read l p e n peer bytes got1 got2 Hl Hb H P.
  destruct (C73_others_speak_for_themselves read l p e n peer bytes got1 got2 Hl Hb H) as [E _].
  unfold accept_tcp. rewrite E.
  assert (S : snd (peek_client_hello (fresh_conn bytes) got1 got2) = Err).
  { destruct bytes as [|b0 t]; [destruct P; discriminate|].
    eapply (hello_first_byte _ _ _ _ b0 t); [reflexivity| |reflexivity].
    intros Hb0. assert (b0 = ascii_of_N 22) as -> by (rewrite <- Hb0; symmetry; apply ascii_N_embedding).
    destruct P; discriminate. }
  rewrite S. unfold handle_connection. destruct (_ <=? _); auto.
Qed.

(** A listed peer that sends no header is taken for who it is: a TLS record is
    never mistaken for a header. *)
Theorem C73_hello_is_no_header : forall p6 from peer rest,
  receive (pp_reader p6) from peer (ascii_of_N 22 :: rest) = (peer, Some (ascii_of_N 22 :: rest)).
Proof.
  intros p6 from peer rest. unfold receive. destruct (accept_proxy_header _ _); reflexivity.
Qed.

(** A proxy of the same kind in front, on a listed address: what it writes for
    its client is what this proxy takes the client for, and what the client
    sends follows. *)
Theorem C73_proxy_in_front : forall s6 p6 l v c hdr data peer,
  text6 s6 p6 -> endpoints_ok c -> (v = 1%N -> is_tcp (cl_remote c) = true) ->
  write_proxy_header s6 v c = Some hdr ->
  Forall cidr_ok l -> is_bytes (addr_ip peer) -> speaks_for_others l peer ->
  exists a, same_ip a (addr_ip (cl_remote c)) /\
    receive (pp_reader p6) (networks l) peer (hdr ++ data) =
    ((if is_tcp (cl_remote c) then TCPAddr else UDPAddr) a (addr_port (cl_remote c)), Some data).
Proof.
  intros s6 p6 l v c hdr data peer T6 E V W Hl Hb S.
  destruct (C71_header_tells_the_client s6 p6 v c hdr T6 E V W data) as (i & P & H1 & H2 & H3 & _).
  exists (pp_src i). split; [exact H2|].
  apply accept_spec in S; [|assumption|assumption].
  unfold receive. rewrite S. unfold pp_reader. rewrite P, H1, H3. reflexivity.
Qed.

Lemma contains_same n a b : canon a = canon b -> contains n a = contains n b.
Proof. intros E. unfold contains. fold (canon a). fold (canon b). rewrite E. reflexivity. Qed.
Lemma any_contains_same l a b : canon a = canon b -> any_contains l a = any_contains l b.
Proof. intros E. induction l as [|n l IH]; [reflexivity|]. cbn. rewrite (contains_same n a b E), IH. reflexivity. Qed.

(** The address rules of the backends are then applied to that client, not to
    the proxy in front. *)
Theorem C73_rules_for_the_real_client : forall s6 p6 l v c hdr data peer p e n got1 got2 i,
  text6 s6 p6 -> endpoints_ok c -> (v = 1%N -> is_tcp (cl_remote c) = true) ->
  write_proxy_header s6 v c = Some hdr ->
  Forall cidr_ok l -> is_bytes (addr_ip peer) -> speaks_for_others l peer ->
  reaches (accept_tcp (pp_reader p6) (networks l) p e n peer (hdr ++ data) got1 got2) i ->
  exists b, nth_error (backs p) i = Some b /\ check_ip (bDeny b) (bAllow b) (addr_of (cl_remote c)) = true.
Proof.
  intros s6 p6 l v c hdr data peer p e n got1 got2 i T6 E V W Hl Hb S R.
  destruct (C73_proxy_in_front s6 p6 l v c hdr data peer T6 E V W Hl Hb S) as (a & Sa & Er).
  unfold accept_tcp in R. rewrite Er in R.
  destruct (reaches_ip_ok _ _ _ _ _ _ R) as (b & Hn & Hc). exists b. split; [exact Hn|].
  rewrite <- Hc. unfold same_ip in Sa.
  assert (K : forall x, canon a = canon x -> check_ip (bDeny b) (bAllow b) (AddrIP x) = check_ip (bDeny b) (bAllow b) (AddrIP a)).
  { intros x Ex. cbn. destruct (bDeny b), (bAllow b); rewrite ?(any_contains_same _ a x Ex); reflexivity. }
  destruct (cl_remote c) as [x q|x q|] eqn:Ec; cbn [is_tcp addr_of addr_ip] in *; try (apply K; exact Sa).
  destruct E as [Er' _]. rewrite Ec in Er'. destruct Er'.
Qed.

(** Someone on the list who sends a header that cannot be read gets nowhere. *)
Theorem C73_broken_header : forall p6 from p e n peer bytes got1 got2,
  pp_parse p6 bytes = PPBad ->
  accept_proxy_header from peer = true ->
  accept_tcp (pp_reader p6) from p e n peer bytes got1 got2 = ActTooMany \/
  accept_tcp (pp_reader p6) from p e n peer bytes got1 got2 = ActBadHello.
Proof.
  intros p6 from p e n peer bytes got1 got2 P A. unfold accept_tcp, receive, pp_reader. rewrite A, P.
  unfold handle_connection. destruct (_ <=? _); auto.
Qed.

Definition ex_list : list (ip * nat) := [([10;0;0;0]%N, 8)].
Example ex_list_ok : Forall cidr_ok ex_list.
Proof. repeat constructor; cbn; lia. Qed.
Example ex_trusted : speaks_for_others ex_list (TCPAddr (v4_prefix ++ [10;1;2;3])%N 5000) /\
  ~ speaks_for_others ex_list (TCPAddr [11;1;2;3]%N 5000).
Proof.
  split.
  - exists (v4_prefix ++ [10;1;2;3])%N, 5000%N. split; [reflexivity|]. exists ([10;0;0;0]%N, 8). split; [left; reflexivity|].
    split; reflexivity.
  - intros (a & q & [= <- <-] & c & [<-|[]] & _ & H). discriminate H.
Qed.
Example ex_receive :
  match write_proxy_header ex_s6 2 ex_client with
  | Some h => receive (pp_reader ex_p6) (networks ex_list) (TCPAddr [10;1;2;3]%N 5000) (h ++ lit "xyz")
  | None => (OtherAddr, None)
  end = (TCPAddr [192;0;2;1]%N 40000, Some (lit "xyz")).
Proof. vm_compute. reflexivity. Qed.
Example ex_receive_other :
  receive (pp_reader ex_p6) (networks ex_list) (TCPAddr [11;1;2;3]%N 5000) (lit "PROXY TCP4 1.2.3.4") =
  (TCPAddr [11;1;2;3]%N 5000, Some (lit "PROXY TCP4 1.2.3.4")).
Proof. vm_compute. reflexivity. Qed.

Print Assumptions C73_others_speak_for_themselves.
Print Assumptions C73_headers_from_others_are_refused.
Print Assumptions C73_hello_is_no_header.
Print Assumptions C73_proxy_in_front.
Print Assumptions C73_rules_for_the_real_client.
Print Assumptions C73_broken_header.
