(** Requests share connections to HTTP backends only when that makes no
    difference. *)
From Coq Require Import Lia.
From Verif Require Import Base IPModel ProxyHdrModel ProxyHdrSpec ProxyHdrProofs ProxyHdrProps PoolModel.
Local Open Scope nat_scope.

(** ** Spec *)

(** The connection [c] is one that could have been opened for [r] itself: it
    goes to one of the addresses that apply to the request, with the TLS
    settings that apply to it, and it shows the backend the certificate of the
    server name that the client of [r] asked for. *)
Definition suits (b : pbackend) (r : preq) (c : bconn) : Prop :=
  let t := settings b (rq_override r) in
  In (bc_addr c) (t_addrs t) /\
  (t_mode t <> FHTTP -> t_mode t <> FTCP -> bc_secure c = true) /\
  bc_server_name c = t_server_name t /\ bc_insecure c = t_insecure t /\ bc_roots c = t_roots t /\
  bc_cert_name c = cl_name (rq_client r).

(** No two requests of a history have different keys with the same hash. *)
Definition no_collision (s6 : ip -> str) (hash : str -> str) (b : pbackend) (ops : list pop) : Prop :=
  forall r a r' n, In (Open r a) ops -> In (Send r' n) ops ->
    hash (host_key s6 b r) = hash (host_key s6 b r') -> host_key s6 b r = host_key s6 b r'.

(** Server names have no semicolon in them. *)
Definition names_ok (ops : list pop) : Prop :=
  forall o, In o ops -> match o with
    | Open r _ | Send r _ => ~ In ";"%char (cl_name (rq_client r))
    | Drop _ => True
    end.

(** The protocol that the configuration asks for: the one of the override if it
    has one, else the one of the backend, else HTTP/1.1; an empty one stands for
    that of the client's connection. *)
Inductive wants (b : pbackend) (r : preq) : str -> Prop :=
| WOverride i t p : rq_override r = Some i -> nth_error (pb_overrides b) i = Some t -> t_proto t = Some p ->
    p <> [] -> wants b r p
| WOverrideSame i t : rq_override r = Some i -> nth_error (pb_overrides b) i = Some t -> t_proto t = Some [] ->
    wants b r (rq_negotiated r)
| WBackend p : (forall i t, rq_override r = Some i -> nth_error (pb_overrides b) i = Some t -> t_proto t = None) ->
    t_proto (pb_default b) = Some p -> p <> [] -> wants b r p
| WBackendSame : (forall i t, rq_override r = Some i -> nth_error (pb_overrides b) i = Some t -> t_proto t = None) ->
    t_proto (pb_default b) = Some [] -> wants b r (rq_negotiated r)
| WDefault : (forall i t, rq_override r = Some i -> nth_error (pb_overrides b) i = Some t -> t_proto t = None) ->
    t_proto (pb_default b) = None -> wants b r (lit "http/1.1").

(** The protocol spoken on a connection: what is offered when it is opened,
    HTTP/1.1 if nothing is. *)
Definition speaks (c : bconn) : str := match bc_alpn c with [] => lit "http/1.1" | p :: _ => p end.

(** ** Proofs *)

Lemma app_cut (c : ascii) (a1 b1 a2 b2 : str) : ~ In c a1 -> ~ In c a2 ->
  a1 ++ c :: b1 = a2 ++ c :: b2 -> a1 = a2 /\ b1 = b2.
Proof.
  intros H1 H2 E. pose proof (cut_app c a1 b1 H1) as P1. rewrite E, (cut_app c a2 b2 H2) in P1.
  injection P1 as -> ->. split; reflexivity.
Qed.

Lemma override_text_no ov : ~ In ";"%char (override_text ov).
Proof.
  destruct ov as [i|]; [|intros []]. apply dec_no. unfold is_digit. cbn. lia.
Qed.

Lemma dec_inj n m : dec n = dec m -> n = m.
Proof.
  intros E. pose proof (undec_dec (N.max n m) n ltac:(lia)) as P1.
  rewrite E, undec_dec in P1 by lia. congruence.
Qed.

Lemma override_text_inj o1 o2 : override_text o1 = override_text o2 -> o1 = o2.
Proof.
  destruct o1 as [i|], o2 as [j|]; cbn [override_text]; intros E.
  - apply dec_inj, Nat2N.inj in E. congruence.
  - exfalso. exact (dec_nonempty _ E).
  - exfalso. exact (dec_nonempty _ (eq_sym E)).
  - reflexivity.
Qed.

Lemma header_nonempty s6 v c h : write_proxy_header s6 v c = Some h -> h <> [].
Proof.
  unfold write_proxy_header. destruct (join_tlvs _); [|discriminate].
  destruct (_ =? 1)%N.
  - unfold format_v1. destruct (transport_of _ _);
      repeat match goal with |- match ?x with _ => _ end = _ -> _ => destruct x; [|try discriminate] end;
      try discriminate; intros E%some_inj; subst h; discriminate.
  - unfold format_v2. destruct (transport_of _ _);
      repeat match goal with |- match ?x with Some _ => _ | None => _ end = _ -> _ => destruct x; [|try discriminate] end;
      try discriminate;
      match goal with |- (if ?x then _ else _) = _ -> _ => destruct x; [discriminate|] end;
      intros E%some_inj; subst h; discriminate.
Qed.

(** Equal keys: the same name, the same override, the same header. *)
Lemma host_key_inj s6 b r r' :
  ~ In ";"%char (cl_name (rq_client r)) -> ~ In ";"%char (cl_name (rq_client r')) ->
  host_key s6 b r = host_key s6 b r' ->
  cl_name (rq_client r) = cl_name (rq_client r') /\ rq_override r = rq_override r' /\
  let v := t_version (settings b (rq_override r)) in
  ((0 < v)%N -> write_proxy_header s6 v (rq_client r) = write_proxy_header s6 v (rq_client r')).
Proof.
  intros N1 N2 E. unfold host_key in E. cbn [lit list_ascii_of_string app] in E.
  apply app_cut in E as [En E]; [|assumption|assumption].
  split; [exact En|].
  assert (O : rq_override r = rq_override r' /\
    (if (0 <? key_version b (rq_override r))%N then match write_proxy_header s6 (key_version b (rq_override r)) (rq_client r) with
                   | Some h => h | None => [] end else []) =
    (if (0 <? key_version b (rq_override r'))%N then match write_proxy_header s6 (key_version b (rq_override r')) (rq_client r') with
                   | Some h => h | None => [] end else [])).
  { pose proof (override_text_no (rq_override r)) as O1. pose proof (override_text_no (rq_override r')) as O2.
    destruct (0 <? key_version b (rq_override r))%N, (0 <? key_version b (rq_override r'))%N.
    - apply app_cut in E as [Et Eh]; [|assumption|assumption]. apply override_text_inj in Et. auto.
    - exfalso. apply O2. rewrite app_nil_r in E. rewrite <- E. apply in_or_app. right. left. reflexivity.
    - exfalso. apply O1. rewrite app_nil_r in E. rewrite E. apply in_or_app. right. left. reflexivity.
    - rewrite !app_nil_r in E. apply override_text_inj in E. auto. }
  destruct O as [O Eh]. split; [exact O|]. cbv zeta. intros V. rewrite <- O in Eh. unfold key_version in Eh.
  apply N.ltb_lt in V. rewrite V in Eh. clear E.
  destruct (write_proxy_header s6 _ (rq_client r)) eqn:W1, (write_proxy_header s6 _ (rq_client r')) eqn:W2; try congruence.
  - exfalso. apply header_nonempty in W1. congruence.
  - exfalso. apply header_nonempty in W2. congruence.
Qed.

(** Every pooled connection was opened for some request of the history. *)
Definition opened (s6 : ip -> str) (hash : str -> str) (quic : bool) (b : pbackend) (ops : list pop) (e : entry) : Prop :=
  exists r a, In (Open r a) ops /\ open s6 quic b r a = Some (en_conn e) /\
    en_transport e = choose_transport quic b r /\ en_host e = hash (host_key s6 b r).

Lemma run_opened s6 hash quic b ops : forall s all,
  (forall e, In e s -> opened s6 hash quic b all e) -> incl ops all ->
  forall r c, In (r, c) (pool_run s6 hash quic b s ops) ->
  exists e n, opened s6 hash quic b all e /\ en_conn e = c /\ In (Send r n) all /\
    en_transport e = choose_transport quic b r /\ en_host e = hash (host_key s6 b r).
Proof.
  induction ops as [|o ops IH]; intros s all Hs Hi r c H; [destruct H|].
  cbn [pool_run] in H. destruct (pool_step s6 hash quic b s o) as [s' out] eqn:E.
  assert (Hs' : forall e, In e s' -> opened s6 hash quic b all e).
  { destruct o as [ro a|ro n|n]; cbn [pool_step] in E.
    - destruct (open s6 quic b ro a) as [bc|] eqn:Eo; injection E as <- <-; [|exact Hs].
      intros e He. apply in_app_or in He as [He|[<-|[]]]; [auto|].
      exists ro, a. cbn. repeat split; auto. apply Hi. left; reflexivity.
    - destruct (nth_error s n) as [e0|]; [destruct (_ && _)|]; injection E as <- <-; exact Hs.
    - injection E as <- <-. intros e He. apply Hs. apply in_app_or in He as [He|He].
      + rewrite <- (firstn_skipn n s). apply in_or_app. left; exact He.
      + rewrite <- (firstn_skipn (S n) s). apply in_or_app. right; exact He. }
  assert (Hi' : incl ops all) by (intros x Hx; apply Hi; right; exact Hx).
  destruct out as [[r0 c0]|].
  - destruct H as [[= -> ->]|H]; [|eapply IH; eassumption].
    destruct o as [ro a|ro n|n]; cbn [pool_step] in E.
    + destruct (open _ _ _ _ _); discriminate.
    + destruct (nth_error s n) as [e0|] eqn:En; [|discriminate].
      destruct (transport3_eqb _ _ && str_eqb _ _) eqn:G; [|discriminate]. injection E as <- <- <-.
      apply andb_prop in G as [G1 G2]. apply str_eqb_spec in G2.
      exists e0, n. split; [apply Hs; exact (nth_error_In _ _ En)|]. split; [reflexivity|].
      split; [apply Hi; left; reflexivity|]. split; [|exact G2].
      destruct (en_transport e0), (choose_transport quic b ro); cbn in G1; congruence.
    + discriminate.
  - eapply IH; eassumption.
Qed.

Lemma served s6 hash quic b ops r c :
  no_collision s6 hash b ops -> names_ok ops ->
  In (r, c) (pool_run s6 hash quic b [] ops) ->
  exists r0 a, open s6 quic b r0 a = Some c /\ choose_transport quic b r0 = choose_transport quic b r /\
    cl_name (rq_client r0) = cl_name (rq_client r) /\ rq_override r0 = rq_override r /\
    let v := t_version (settings b (rq_override r)) in
    ((0 < v)%N -> write_proxy_header s6 v (rq_client r0) = write_proxy_header s6 v (rq_client r)).
Proof.
  intros NC NO H.
  destruct (run_opened s6 hash quic b ops [] ops (fun e He => match He with end) (incl_refl _) r c H)
    as (e & n & (r0 & a & I0 & Eo & Et & Eh) & <- & Is & Et' & Eh').
  exists r0, a. split; [exact Eo|]. split; [congruence|].
  assert (K : host_key s6 b r0 = host_key s6 b r) by (eapply NC; [exact I0|exact Is|congruence]).
  destruct (host_key_inj s6 b r0 r (NO _ I0) (NO _ Is) K) as [A [B C]].
  split; [exact A|]. split; [exact B|]. cbv zeta in *. rewrite <- B. exact C.
Qed.

(** ** C72 *)

(** Whatever requests came before and whichever connections are kept, a request
    is only sent on a connection that suits it. *)
Theorem C72_connection_suits_request : forall s6 hash quic b ops r c,
  no_collision s6 hash b ops -> names_ok ops ->
  In (r, c) (pool_run s6 hash quic b [] ops) -> suits b r c.
Proof.
  intros s6 hash quic b ops r c NC NO H.
  destruct (served s6 hash quic b ops r c NC NO H) as (r0 & a & Eo & _ & En & Eov & _).
  unfold suits. rewrite <- En, <- Eov. cbv zeta. unfold open in Eo.
  assert (D : forall protos, dial s6 b (rq_client r0) (rq_override r0) a protos = Some c -> 
    let t := settings b (rq_override r0) in
    In (bc_addr c) (t_addrs t) /\ (t_mode t <> FHTTP -> t_mode t <> FTCP -> bc_secure c = true) /\
    bc_server_name c = t_server_name t /\ bc_insecure c = t_insecure t /\ bc_roots c = t_roots t /\
    bc_cert_name c = cl_name (rq_client r0)).
  { intros protos. unfold dial. destruct (mem a _) eqn:M; [|discriminate]. apply mem_spec in M. cbv zeta.
    destruct (t_mode _), (0 <? t_version (settings b (rq_override r0)))%N; try destruct (write_proxy_header _ _ _); try discriminate;
      intros [= <-]; cbn; repeat split; auto; congruence. }
  destruct (choose_transport quic b r0); [exact (D _ Eo)|exact (D _ Eo)|].
  unfold dial_quic_backend in Eo. destruct (mem a _) eqn:M; [|discriminate]. apply mem_spec in M.
  injection Eo as <-. cbn. repeat split; auto.
Qed.

(** With a PROXY protocol version configured, the header at the beginning of the
    connection that a request is sent on is about the client that sent the
    request, and nobody else, unless HTTP/3 is used to the backend. *)
Theorem C72_header_is_about_this_client_partial : forall s6 p6 hash quic b ops r c,
  text6 s6 p6 -> no_collision s6 hash b ops -> names_ok ops ->
  In (r, c) (pool_run s6 hash quic b [] ops) ->
  let t := settings b (rq_override r) in
  t_mode t = FHTTP \/ t_mode t = FHTTPS -> (0 < t_version t)%N ->
  endpoints_ok (rq_client r) -> (t_version t = 1%N -> is_tcp (cl_remote (rq_client r)) = true) ->
  choose_transport quic b r <> H3 ->
  forall data, exists i, pp_parse p6 (bc_first c ++ data) = PPProxy i data /\
    tells (rq_client r) (negb (t_version t =? 1)%N) i.
Proof.
  intros s6 p6 hash quic b ops r c T6 NC NO H t M V E V1 NH data.
  destruct (served s6 hash quic b ops r c NC NO H) as (r0 & a & Eo & Et & En & Eov & Eh).
  cbv zeta in Eh. fold t in Eh. specialize (Eh V).
  assert (W : write_proxy_header s6 (t_version t) (rq_client r) = Some (bc_first c)).
  { rewrite <- Eh. unfold open in Eo. rewrite Et in Eo.
    assert (D : forall protos, dial s6 b (rq_client r0) (rq_override r0) a protos = Some c ->
      write_proxy_header s6 (t_version t) (rq_client r0) = Some (bc_first c)).
    { intros protos. unfold dial. rewrite Eov. fold t. destruct (mem _ _); [|discriminate].
      apply N.ltb_lt in V. rewrite V.
      destruct (write_proxy_header s6 (t_version t) (rq_client r0)) as [h|];
        destruct M as [-> | ->]; try discriminate; intros [= <-]; reflexivity. }
    destruct (choose_transport quic b r); [exact (D _ Eo)|exact (D _ Eo)|congruence]. }
  eapply C71_header_tells_the_client; eassumption.
Qed.

(** Without one, nothing is put in front of the requests. *)
Theorem C72_no_header_unless_configured : forall s6 hash quic b ops r c,
  no_collision s6 hash b ops -> names_ok ops ->
  In (r, c) (pool_run s6 hash quic b [] ops) ->
  t_version (settings b (rq_override r)) = 0%N -> bc_first c = [].
Proof.
  intros s6 hash quic b ops r c NC NO H V.
  destruct (served s6 hash quic b ops r c NC NO H) as (r0 & a & Eo & _ & _ & Eov & _).
  unfold open, dial, dial_quic_backend in Eo. rewrite Eov, V in Eo. cbn [N.ltb N.compare] in Eo.
  destruct (choose_transport quic b r0); destruct (mem _ _); try discriminate;
    try destruct (t_mode _); injection Eo as <-; reflexivity.
Qed.

(** The case that is missing: with backendProto h3 the version is accepted, and
    no header is ever sent. *)
Theorem C72_http3_backend_refuted : exists s6 hash b r addr c,
  no_collision s6 hash b [Open r addr; Send r 0] /\ names_ok [Open r addr; Send r 0] /\
  t_version (settings b (rq_override r)) = 2%N /\ endpoints_ok (rq_client r) /\
  In (r, c) (pool_run s6 hash true b [] [Open r addr; Send r 0]) /\ bc_first c = [].
Proof.
  exists ex_s6, (fun x => x),
    {| pb_default := {| t_addrs := [lit "10.0.0.1:443"]; t_mode := FHTTPS; t_server_name := lit "b"; t_insecure := false;
                        t_roots := []; t_version := 2; t_proto := Some (lit "h3") |}; pb_overrides := [] |},
    {| rq_client := ex_client; rq_override := None; rq_upgrade := false; rq_negotiated := lit "h2" |},
    (lit "10.0.0.1:443").
  eexists. split; [intros r a r' n _ _ E; exact E|]. split.
  { intros o [<-|[<-|[]]]; cbn; intuition discriminate. }
  split; [reflexivity|]. split; [exact ex_client_ok|]. split; [left; reflexivity|reflexivity].
Qed.

(** A request is sent with the protocol that the configuration asks for;
    upgrades (of WebSockets, say) are always sent with HTTP/1.1. *)
Theorem C72_protocol_is_the_configured_one : forall s6 hash quic b ops r c p,
  no_collision s6 hash b ops -> names_ok ops ->
  In (r, c) (pool_run s6 hash quic b [] ops) -> wants b r p ->
  speaks c = if rq_upgrade r then lit "http/1.1"
             else if mem p [lit "h2"] || (mem p [lit "h3"] && quic) then p else lit "http/1.1".
Proof.
  intros s6 hash quic b ops r c p NC NO H W.
  destruct (served s6 hash quic b ops r c NC NO H) as (r0 & a & Eo & Et & _).
  unfold open in Eo. rewrite Et in Eo.
  assert (S : speaks c = match choose_transport quic b r with H1 => lit "http/1.1" | H2 => lit "h2" | H3 => lit "h3" end).
  { unfold dial, dial_quic_backend in Eo.
    destruct (choose_transport quic b r); destruct (mem _ _); try discriminate;
      try destruct (t_mode _); try destruct (0 <? _)%N; try destruct (write_proxy_header _ _ _); try discriminate;
      injection Eo as <-; reflexivity. }
  rewrite S. clear - W. unfold choose_transport. destruct (rq_upgrade r); [reflexivity|]. cbv zeta.
  set (q := if str_eqb _ [] then _ else _).
  assert (Q : q = p).
  { subst q. destruct W as [i t p E1 E2 E3 N|i t E1 E2 E3|p F E N|F E|F E]; rewrite ?E1, ?E2, ?E3, ?E.
    - apply str_eqb_neq in N. rewrite N. reflexivity.
    - reflexivity.
    - apply str_eqb_neq in N. destruct (rq_override r) as [i|]; [destruct (nth_error _ i) as [t|] eqn:En|];
        rewrite ?(F i t eq_refl En), ?N; reflexivity.
    - destruct (rq_override r) as [i|]; [destruct (nth_error _ i) as [t|] eqn:En|];
        rewrite ?(F i t eq_refl En); reflexivity.
    - destruct (rq_override r) as [i|]; [destruct (nth_error _ i) as [t|] eqn:En|];
        rewrite ?(F i t eq_refl En); reflexivity. }
  rewrite Q. clear. cbn [mem].
  destruct (str_eqb p (lit "h3")) eqn:E3; [apply str_eqb_spec in E3; subst p; destruct quic; reflexivity|].
  destruct (str_eqb p (lit "h2")) eqn:E2; [apply str_eqb_spec in E2; subst p; reflexivity|]. reflexivity.
Qed.

(** Two clients and two requests each: the second request of a client goes on
    that client's connection. *)
Definition ex_be : pbackend :=
  {| pb_default := {| t_addrs := [lit "10.0.0.1:443"]; t_mode := FHTTPS; t_server_name := lit "b"; t_insecure := false;
                      t_roots := []; t_version := 1; t_proto := Some [] |};
     pb_overrides := [{| t_addrs := [lit "10.0.0.2:443"]; t_mode := FHTTPS; t_server_name := lit "x"; t_insecure := true;
                      t_roots := []; t_version := 0; t_proto := None |}] |}.
Definition ex_req (a : ip) (ov : option nat) : preq :=
  {| rq_client := {| cl_remote := TCPAddr a 40000; cl_local := TCPAddr [192;0;2;2]%N 443; cl_name := lit "a"; cl_proto := lit "h2" |};
     rq_override := ov; rq_upgrade := false; rq_negotiated := lit "h2" |}.
Definition ex_ops : list pop :=
  [Open (ex_req [192;0;2;10]%N None) (lit "10.0.0.1:443"); Open (ex_req [192;0;2;11]%N None) (lit "10.0.0.1:443");
   Open (ex_req [192;0;2;10]%N (Some 0)) (lit "10.0.0.2:443");
   Send (ex_req [192;0;2;10]%N None) 0; Send (ex_req [192;0;2;11]%N None) 0; Send (ex_req [192;0;2;11]%N None) 1;
   Send (ex_req [192;0;2;11]%N (Some 0)) 2; Send (ex_req [192;0;2;11]%N (Some 0)) 1].
Example ex_pool : map (fun x => (addr_ip (cl_remote (rq_client (fst x))), bc_first (snd x), bc_server_name (snd x)))
    (pool_run ex_s6 (fun x => x) true ex_be [] ex_ops) =
  [([192;0;2;10]%N, lit "PROXY TCP4 192.0.2.10 192.0.2.2 40000 443" ++ [cr; lf], lit "b");
   ([192;0;2;11]%N, lit "PROXY TCP4 192.0.2.11 192.0.2.2 40000 443" ++ [cr; lf], lit "b");
   ([192;0;2;11]%N, [], lit "x")].
Proof. vm_compute. reflexivity. Qed.
Example ex_no_collision : no_collision ex_s6 (fun x => x) ex_be ex_ops /\ names_ok ex_ops.
Proof.
  split; [intros r a r' n _ _ E; exact E|].
  intros o H. cbn [ex_ops In] in H. repeat destruct H as [<-|H]; try destruct H; cbn; intuition discriminate.
Qed.

Print Assumptions C72_connection_suits_request.
Print Assumptions C72_header_is_about_this_client_partial.
Print Assumptions C72_no_header_unless_configured.
Print Assumptions C72_http3_backend_refuted.
Example ex_wants : wants ex_be (ex_req [192;0;2;10]%N None) (lit "h2") /\
  map (fun x => speaks (snd x)) (pool_run ex_s6 (fun x => x) true ex_be [] ex_ops) = [lit "h2"; lit "h2"; lit "h2"].
Proof. split; [|vm_compute; reflexivity]. apply (WBackendSame ex_be (ex_req _ _)); [discriminate|reflexivity]. Qed.
Print Assumptions C72_protocol_is_the_configured_one.
