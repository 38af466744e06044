(** The PROXY protocol header that backends get, and the headers that the proxy
    accepts. *)
From Coq Require Import Lia DecimalString.
From Verif Require Import Base IPModel IPSpec HelloModel RouteModel ProxyHdrModel ProxyHdrSpec ProxyHdrProofs PoolModel.
Local Open Scope nat_scope.

(** ** C71 *)

(** What a header says about a client [c] that is connected to the proxy:
    its address and port, the address and port it connected to, and, in version
    2, the server name and the protocol of the connection. *)
Definition tells (c : client) (version2 : bool) (i : pp_info) : Prop :=
  pp_stream i = is_tcp (cl_remote c) /\
  same_ip (pp_src i) (addr_ip (cl_remote c)) /\ pp_sport i = addr_port (cl_remote c) /\
  same_ip (pp_dst i) (addr_ip (cl_local c)) /\ pp_dport i = addr_port (cl_local c) /\
  (version2 = true -> forall ty v, In (ty, v) (pp_tlvs i) <->
     v <> [] /\ (ty = 2%N /\ v = cl_name c \/ ty = 1%N /\ v = cl_proto c)).

(** A backend that reads a PROXY protocol header finds exactly the client's data
    in it, and exactly what the client sends behind it. *)
Theorem C71_header_tells_the_client : forall s6 p6 v c hdr,
  text6 s6 p6 -> endpoints_ok c -> (v = 1%N -> is_tcp (cl_remote c) = true) ->
  write_proxy_header s6 v c = Some hdr ->
  forall data, exists i, pp_parse p6 (hdr ++ data) = PPProxy i data /\ tells c (negb (v =? 1)%N) i.
Proof.
  intros s6 p6 v c hdr T6 E Hv W data. unfold write_proxy_header in W.
  destruct (join_tlvs (client_tlvs c)) as [tlvs|] eqn:J; [|discriminate].
  assert (K : (clamp_version v =? 1)%N = (v =? 1)%N).
  { unfold clamp_version. destruct (N.ltb_spec v 1), (N.ltb_spec 2 v), (N.eqb_spec v 1); cbn [orb]; subst; try lia; try reflexivity; try (apply N.eqb_neq; assumption). }
  rewrite K in W. destruct (N.eqb_spec v 1) as [->|Nv].
  - rewrite (format_v1_parse s6 p6 T6 c hdr data E (Hv eq_refl) W). eexists. split; [reflexivity|].
    unfold tells, same_ip. cbn. rewrite !canon_canon, (Hv eq_refl). repeat split; intros; discriminate.
  - destruct (format_v2_parse p6 c tlvs hdr data E J W) as [i [P [H1 [H2 [H3 [H4 [H5 H6]]]]]]].
    exists i. split; [exact P|]. unfold tells. repeat (split; [assumption|]). intros _ ty w.
    rewrite H6. unfold client_tlvs. rewrite map_app, in_app_iff.
    destruct (str_eqb (cl_name c) []) eqn:E1, (str_eqb (cl_proto c) []) eqn:E2;
      first [apply str_eqb_spec in E1 | apply str_eqb_neq in E1];
      first [apply str_eqb_spec in E2 | apply str_eqb_neq in E2]; cbn; (split; intros H;
      [ repeat match goal with
               | H : _ \/ _ |- _ => destruct H | H : False |- _ => destruct H
               | H : (_, _) = (_, _) |- _ => injection H as <- <- end; auto
      | destruct H as [Hn [[-> ->]|[-> ->]]]; auto; congruence ]).
Qed.

(** A header is always written for the connections that occur: the two ends have
    the same family, and names and protocols are short. *)
Theorem C71_header_is_written : forall s6 v c,
  endpoints_ok c -> (to4 (addr_ip (cl_remote c)) <> None -> to4 (addr_ip (cl_local c)) <> None) ->
  List.length (cl_name c) < 256 -> List.length (cl_proto c) < 256 ->
  exists hdr, write_proxy_header s6 v c = Some hdr /\ hdr <> [].
Proof.
  intros s6 v c [Hr [Hl Hs]] F Ln Lp. unfold write_proxy_header.
  assert (J : exists tlvs, join_tlvs (client_tlvs c) = Some tlvs /\ (List.length tlvs <= 520)%nat).
  { unfold client_tlvs. destruct (str_eqb (cl_name c) []), (str_eqb (cl_proto c) []); cbn [app join_tlvs tlv_value tlv_type];
      repeat (match goal with |- context [(65535 <? ?x)%N] => destruct (N.ltb_spec 65535 x); [lia|] end);
      eexists; (split; [reflexivity|]); cbn [List.length app be16]; rewrite ?app_length; cbn [List.length be16]; rewrite ?app_length; cbn [List.length]; lia. }
  destruct J as [tlvs [-> Lt]].
  assert (G : forall (a b : ip) p q (t : N), List.length a <= 16 -> List.length b <= 16 ->
    exists hdr, (if (65535 <? N.of_nat (List.length (map chr a ++ map chr b ++ be16 p ++ be16 q) + List.length tlvs))%N then None
      else Some (sig_v2 ++ [chr 33; chr t] ++ be16 (N.of_nat (List.length (map chr a ++ map chr b ++ be16 p ++ be16 q) + List.length tlvs)) ++ (map chr a ++ map chr b ++ be16 p ++ be16 q) ++ tlvs)) = Some hdr /\ hdr <> []).
  { intros a b p q t La Lb. rewrite !app_length, !map_length.
    match goal with |- context [(65535 <? ?x)%N] => destruct (N.ltb_spec 65535 x) end.
    - cbn [be16 List.length] in *. lia.
    - eexists. split; [reflexivity|discriminate]. }
  unfold format_v1, format_v2.
  destruct (cl_remote c) as [a p|a p|], (cl_local c) as [b q|b q|]; cbn [addr_ok is_tcp] in *; try discriminate; try tauto;
    destruct Hr as [Ha Hp], Hl as [Hb Hq]; cbn [transport_of addr_ip addr_port] in *.
  all: destruct (to4 a) as [a4|] eqn:E;
    [ destruct (to4 b) as [b4|] eqn:Eb; [|exfalso; apply F; congruence];
      pose proof (to4_length _ _ E); pose proof (to4_length _ _ Eb);
      destruct (_ =? 1)%N; [eexists; split; [reflexivity|discriminate]|];
      apply (G a4 b4 p q); lia
    | destruct Ha as [[La|La] Hba]; [unfold to4 in E; rewrite La in E; discriminate|];
      rewrite La; cbn [Nat.eqb]; assert (Ha : ip_ok a) by (split; auto);
      destruct (to16_some _ Ha) as [a6 E6]; destruct (to16_some _ Hb) as [b6 Eb6]; rewrite E6, Eb6;
      destruct (to16_ok _ _ Ha E6) as [_ ?]; destruct (to16_ok _ _ Hb Eb6) as [_ ?];
      destruct (_ =? 1)%N; [eexists; split; [reflexivity|discriminate]|];
      apply (G a6 b6 p q); lia ].
Qed.

(** Every connection to a backend for which a version is configured, over TCP
    and with or without TLS, starts with that header; without one it starts with
    the client's own bytes. *)
Theorem C71_backend_connections_partial : forall s6 p6 b c ov addr protos bc,
  text6 s6 p6 -> endpoints_ok c -> dial s6 b c ov addr protos = Some bc ->
  let t := settings b ov in
  t_mode t <> FQUIC -> (t_version t = 1%N -> is_tcp (cl_remote c) = true) ->
  if (t_version t =? 0)%N then bc_first bc = []
  else forall data, exists i, pp_parse p6 (bc_first bc ++ data) = PPProxy i data /\ tells c (negb (t_version t =? 1)%N) i.
Proof.
  intros s6 p6 b c ov addr protos bc T6 E D t M V. unfold dial in D. fold t in D.
  destruct (mem addr (t_addrs t)); [|discriminate].
  destruct (N.eqb_spec (t_version t) 0) as [Z|Z].
  - rewrite Z in D. cbn in D. destruct (t_mode t); try congruence; injection D as <-; reflexivity.
  - intros data. destruct (N.ltb_spec 0 (t_version t)); [|lia].
    destruct (write_proxy_header s6 (t_version t) c) as [h|] eqn:W.
    + assert (bc_first bc = h) as -> by (destruct (t_mode t); try congruence; injection D as <-; reflexivity).
      eapply C71_header_tells_the_client; eassumption.
    + destruct (t_mode t); congruence.
Qed.

(** The same settings on a backend in QUIC mode are accepted and have no effect:
    the backend is not told who the client is. *)
Theorem C71_quic_backend_refuted : exists s6 b c addr bc,
  endpoints_ok c /\ t_version (settings b None) = 2%N /\
  dial s6 b c None addr [] = Some bc /\ bc_first bc = [].
Proof.
  exists (fun _ => []),
    {| pb_default := {| t_addrs := [lit "10.0.0.1:443"]; t_mode := FQUIC; t_server_name := lit "b"; t_insecure := false;
                        t_roots := []; t_version := 2; t_proto := None |}; pb_overrides := [] |},
    {| cl_remote := TCPAddr [192;0;2;1]%N 40000; cl_local := TCPAddr [192;0;2;2]%N 443; cl_name := lit "a"; cl_proto := [] |},
    (lit "10.0.0.1:443").
  eexists. split; [|split; [reflexivity|split; reflexivity]].
  repeat split; cbn; auto; try lia; intros; intuition (subst; lia).
Qed.

(** A connection whose client has no address is announced as one that is not known, and
    not with an address that nobody has. *)
Theorem C71_unknown_address : forall s6 c a p b q, cl_remote c = TCPAddr a p -> cl_local c = TCPAddr b q ->
  List.length a <> 4 -> List.length a <> 16 -> List.length (cl_name c) < 256 -> List.length (cl_proto c) < 256 ->
  write_proxy_header s6 1 c = Some (lit "PROXY UNKNOWN" ++ [cr; lf]).
Proof.
  intros s6 c a p b q Hr Hl L4 L16 Ln Lp. unfold write_proxy_header.
  assert (J : exists tlvs, join_tlvs (client_tlvs c) = Some tlvs).
  { unfold client_tlvs. destruct (str_eqb (cl_name c) []), (str_eqb (cl_proto c) []); cbn [app join_tlvs tlv_value tlv_type];
      repeat (match goal with |- context [(65535 <? ?x)%N] => destruct (N.ltb_spec 65535 x); [lia|] end); eexists; reflexivity. }
  destruct J as [tlvs ->]. change (clamp_version 1 =? 1)%N with true. cbv iota. rewrite Hr, Hl. cbn [transport_of].
  assert (T : to4 a = None).
  { unfold to4. rewrite (proj2 (Nat.eqb_neq _ _) L4), (proj2 (Nat.eqb_neq _ _) L16). reflexivity. }
  rewrite T, (proj2 (Nat.eqb_neq _ _) L16). reflexivity.
Qed.
Print Assumptions C71_unknown_address.
Example C71_unknown_example :
  write_proxy_header (fun _ => []) 1
    {| cl_remote := TCPAddr [] 0; cl_local := TCPAddr [] 0; cl_name := lit "a"; cl_proto := [] |} = Some (lit "PROXY UNKNOWN" ++ [cr; lf]).
Proof. reflexivity. Qed.

(** With version 1 the header says UNKNOWN for clients that use QUIC. *)
Theorem C71_version_1_quic_clients_refuted : forall s6 c,
  endpoints_ok c -> is_tcp (cl_remote c) = false -> List.length (cl_name c) < 256 -> List.length (cl_proto c) < 256 ->
  write_proxy_header s6 1 c = Some (lit "PROXY UNKNOWN" ++ [cr; lf]).
Proof.
  intros s6 c [Hr [Hl Hs]] U Ln Lp. unfold write_proxy_header.
  assert (J : exists tlvs, join_tlvs (client_tlvs c) = Some tlvs).
  { unfold client_tlvs. destruct (str_eqb (cl_name c) []), (str_eqb (cl_proto c) []); cbn [app join_tlvs tlv_value tlv_type];
      repeat (match goal with |- context [(65535 <? ?x)%N] => destruct (N.ltb_spec 65535 x); [lia|] end); eexists; reflexivity. }
  destruct J as [tlvs ->]. change (clamp_version 1 =? 1)%N with true. cbv iota.
  destruct (cl_remote c) as [a p|a p|], (cl_local c) as [b q|b q|]; cbn in U, Hs, Hr, Hl; try discriminate; try tauto.
  cbn [transport_of]. unfold format_v1. destruct (to4 a); [reflexivity|]. destruct (_ =? _); reflexivity.
Qed.

Definition ex_client : client :=
  {| cl_remote := TCPAddr [192;0;2;1]%N 40000; cl_local := TCPAddr (v4_prefix ++ [198;51;100;7])%N 443;
     cl_name := lit "www.example.com"; cl_proto := lit "h2" |}.
(* a way to write IPv6 addresses that can be read back: all bytes in decimal *)
Definition ex_s6 (a : ip) : str := join ":"%char (map dec a).
Definition ex_p6 (s : str) : option ip := all_some (map (undec 255) (split_on ":"%char s)).
Example ex_text6 : text6 ex_s6 ex_p6.
Proof.
  intros a [L B] T. unfold ex_s6, ex_p6. rewrite split_join.
  - split; [apply all_some_map_undec; exact B|].
    assert (L16 : List.length a = 16) by (destruct L as [L|L]; [unfold to4 in T; rewrite L in T; discriminate|exact L]).
    destruct a as [|x [|y a]]; try discriminate.
    repeat split.
    + cbn [map join]. rewrite in_app_iff. right. left. reflexivity.
    + intros H. apply in_join in H as [H|[q [Hq H]]]; [discriminate|].
      apply in_map_iff in Hq as [n [<- _]]. exact (dec_no sp n sp_no_digit H).
    + intros H. apply in_join in H as [H|[q [Hq H]]]; [discriminate|].
      apply in_map_iff in Hq as [n [<- _]]. exact (dec_no lf n lf_no_digit H).
  - destruct a; [destruct L; discriminate|discriminate].
  - apply Forall_forall. intros q Hq. apply in_map_iff in Hq as [n [<- _]]. apply dec_no. exact colon_no_digit.
Qed.
Example ex_v1 : write_proxy_header ex_s6 1 ex_client =
  Some (lit "PROXY TCP4 192.0.2.1 198.51.100.7 40000 443" ++ [cr; lf]).
Proof. vm_compute. reflexivity. Qed.
Example ex_v2 : exists h, write_proxy_header ex_s6 2 ex_client = Some h /\ List.length h = 51 /\
  pp_parse ex_p6 (h ++ lit "hello") =
  PPProxy {| pp_stream := true; pp_src := [192;0;2;1]%N; pp_dst := [198;51;100;7]%N; pp_sport := 40000; pp_dport := 443;
             pp_tlvs := [(2%N, lit "www.example.com"); (1%N, lit "h2")] |} (lit "hello").
Proof. eexists. vm_compute. repeat split. Qed.
Example ex_client_ok : endpoints_ok ex_client.
Proof. repeat split; cbn; auto; try lia; intros; intuition (subst; lia). Qed.

Print Assumptions C71_header_tells_the_client.
Print Assumptions C71_header_is_written.
Print Assumptions C71_backend_connections_partial.
Print Assumptions C71_quic_backend_refuted.
Print Assumptions C71_version_1_quic_clients_refuted.
