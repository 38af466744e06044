(** Proofs about the whole way of a connection. *)
From Coq Require Import Lia.
From Verif Require Import Base IPModel ConnModel HelloModel HelloSpec HelloProps RouteModel RouteSpec RouteProofs RouteProps
  ProxyHdrModel AcceptModel WholeModel WholeSpec.
From Verif Require HttpModel HttpSpec HttpProps HttpProofs HttpProofs2.
Local Open Scope nat_scope.

Lemma local_not_forward ev be r f : HttpModel.local_only ev be r <> HttpModel.Forward f.
Proof.
  unfold HttpModel.local_only. destruct (HttpModel.authenticate _ _ _) as [[r1 c]|]; [|discriminate].
  destruct (HttpModel.local_and_authorize _ _ _ _) as [res|] eqn:L; [|discriminate].
  intros ->. apply HttpProofs.local_inl_kind in L. exact L.
Qed.

Lemma answered w p xs i name src c reqs f : In f (http_serve w p xs i name src c reqs) ->
  exists b x ev r, nth_error (backs p) i = Some b /\ nth_error xs i = Some x /\ In (ev, r) reqs /\
    f = Answer i c ev r (handler b x ev (http_conn w name src c) r).
Proof.
  unfold http_serve. destruct (nth_error (backs p) i) as [b|]; [|intros []]. destruct (nth_error xs i) as [x|]; [|intros []].
  intros H. apply in_map_iff in H as ((ev, r) & <- & H). exists b, x, ev, r. auto.
Qed.

Lemma handler_checked w b x name src c ev r :
  let res := handler b x ev (http_conn w name src c) r in
  sso_respected x ev r res /\ host_respected b name r res /\ tells_the_truth w b x src c ev r res.
Proof.
  cbv zeta.
  assert (S : sso_respected x ev r (handler b x ev (http_conn w name src c) r)).
  { intros s U E P R.
    apply (HttpProps.C17_sso_cannot_be_bypassed ev (http_view b x) (http_conn w name src c) s r U E P).
    unfold handler in R. destruct (bMode b); auto. }
  split; [exact S|]. unfold handler, host_respected, tells_the_truth.
  assert (L : bMode b = ModeHTTP \/ bMode b = ModeHTTPS \/ bMode b <> ModeHTTP /\ bMode b <> ModeHTTPS)
    by (destruct (bMode b); auto; right; right; split; discriminate).
  assert (RP : (match HttpModel.reverse_proxy ev (http_view b x) (http_conn w name src c) r with
    | HttpModel.Forward _ | HttpModel.Static _ => bMode b = ModeHTTP \/ bMode b = ModeHTTPS -> exists s, In s (bNames b) /\
        HttpSpec.names_host (if str_eqb (HttpModel.rq_host r) [] then name else HttpModel.rq_host r) s
    | _ => True end) /\ tells_the_truth w b x src c ev r (HttpModel.reverse_proxy ev (http_view b x) (http_conn w name src c) r)).
  { pose proof (HttpProps.C22_only_own_hosts ev (http_view b x) (http_conn w name src c) r) as H.
    split. { destruct (HttpModel.reverse_proxy _ _ _ _); auto. }
    unfold tells_the_truth. destruct (HttpModel.reverse_proxy _ _ _ _) as [| | | | | | | | |f] eqn:F; auto.
    split; [apply (HttpProps.C19_forwarded_for _ _ _ _ _ F)|]. split.
    - destruct (HttpProps.C19_client_certificate _ _ _ _ _ F) as [E|(v & E & _ & V)]; [auto|]. right.
      cbn in E. destruct c as [k|]; [|discriminate]. injection E as <-. eauto.
    - intros R1 R2. destruct (HttpProps.C19_user_header _ _ _ _ _ F R1 R2) as [E|(s & cl & e & E & _ & I & V)]; [auto|].
      right. exists s, cl, e. auto. }
  destruct (bMode b) eqn:M; try exact RP.
  - split.
    + destruct (HttpModel.local_only _ _ _); auto; intros [X|X]; discriminate X.
    + destruct (HttpModel.local_only _ _ _) eqn:F; auto. destruct (local_not_forward _ _ _ _ F).
  - split.
    + destruct (HttpModel.local_only _ _ _); auto; intros [X|X]; discriminate X.
    + destruct (HttpModel.local_only _ _ _) eqn:F; auto. destruct (local_not_forward _ _ _ _ F).
Qed.

Lemma hello_of_data d got1 got2 h : snd (peek_client_hello (fresh_conn d) got1 got2) = Ok h ->
  starts_with_hello d (serverName h) (alpnProtos h).
Proof.
  intros H. destruct (peek_client_hello (fresh_conn d) got1 got2) as [c' r] eqn:P. cbn in H. subst r.
  destruct (C02_hello_sound _ _ _ _ _ P) as (ver & buf & rest & exts & U & L & I & N & O & A).
  exists ver, buf, rest, exts. repeat split; auto.
Qed.

Lemma reaches_open p e n r hello i : reaches (handle_connection p e n r hello) i -> n < maxOpen p.
Proof. unfold handle_connection. destruct (Nat.leb_spec (maxOpen p) n); [intros []|auto]. Qed.

Lemma annotated p h : annotated_name p (Ok h) = requested_name p h.
Proof. unfold annotated_name, requested_name. destruct (serverName h); reflexivity. Qed.

Lemma reaches_backend p e n r h i : reaches (handle_connection p e n r (Ok h)) i ->
  exists b, get_backend p (requested_name p h) (alpnProtos h) = Some (i, b).
Proof.
  unfold handle_connection. destruct (_ <=? _); [intros []|]. cbv zeta.
  change (match serverName h with [] => defName p | _ => serverName h end) with (annotated_name p (Ok h)).
  rewrite annotated.
  destruct (get_backend _ _ _) as [[j b]|]; [|intros []].
  destruct (mode_eqb _ _). { destruct (check_ip _ _ _); [|intros []]. destruct (waitOK e); [|intros []]. cbn. intros E. exists b. congruence. }
  destruct (_ && _); [intros []|]. destruct (negb _); [intros []|].
  destruct (authorize_tls _ _ _ _ _) as [[proto c]| | |]; try (intros []; fail).
  destruct (waitOK e); [|intros []]. intros H. exists b. destruct (bMode b); cbn in H; subst; reflexivity.
Qed.

(** What [tcp_effects] does, as one of three cases. *)
Lemma tcp_inv w from p xs e n peer bytes got1 got2 reqs f :
  In f (tcp_effects w from p xs e n peer bytes got1 got2 reqs) ->
  exists src data h,
    receive (w_read w) from peer bytes = (src, Some data) /\
    snd (peek_client_hello (fresh_conn data) got1 got2) = Ok h /\
    let a := handle_connection p e n (addr_of src) (Ok h) in
    reaches a (backend_of f) /\
    match f with
    | Answer i c _ _ _ => exists proto, a = ActHTTP i proto c /\ In f (http_serve w p xs i (requested_name p h) src c reqs)
    | Bridge i proto c => a = ActDial i proto c
    | Raw i => a = ActPassthrough i
    end.
Proof.
  unfold tcp_effects. destruct (receive (w_read w) from peer bytes) as [src [data|]] eqn:R.
  2:{ unfold handle_connection. destruct (_ <=? _); intros []. }
  destruct (snd (peek_client_hello (fresh_conn data) got1 got2)) as [h| | |] eqn:P;
    try (unfold handle_connection; destruct (_ <=? _); intros []; fail).
  destruct (handle_connection p e n (addr_of src) (Ok h)) as [| | | | |i proto c|i proto c|i|] eqn:A; intros H; try (destruct H; fail).
  - exists src, data, h. split; [auto|]. split; [exact P|]. rewrite A.
    rewrite annotated in H. pose proof H as H0.
    apply answered in H as (b & x & ev & r & _ & _ & _ & ->). cbn. split; [reflexivity|]. eauto.
  - destruct H as [<-|[]]. exists src, data, h. rewrite A. cbn. auto.
  - destruct H as [<-|[]]. exists src, data, h. rewrite A. cbn. auto.
Qed.

(** ** Getting through *)

Lemma nego_found s cps : In s cps -> fst (nego_client s cps) = true.
Proof.
  induction cps as [|c cps IH]; [intros []|]. cbn. intros [->|H].
  - rewrite str_eqb_refl. reflexivity.
  - destruct (str_eqb s c); [reflexivity|]. specialize (IH H). destruct (nego_client s cps). exact IH.
Qed.

Lemma nego_shared q cps : In q cps -> forall sps fb, In q sps -> exists r, nego_server sps cps fb = Some r.
Proof.
  intros Hc. induction sps as [|s sps IH]; [intros ? []|]. intros fb H. cbn.
  destruct (nego_client s cps) as [[|] h] eqn:E; [eauto|].
  destruct H as [->|H]; [|apply IH; exact H]. pose proof (nego_found q cps Hc) as F. rewrite E in F. discriminate F.
Qed.

Lemma negotiates b cps : cps = [] \/ bALPN b = [] \/ (exists q, In q cps /\ In q (bALPN b) /\ q <> !"h3") ->
  exists proto, negotiate_alpn false (next_protos_tcp b) cps = Some proto.
Proof.
  intros H. unfold negotiate_alpn. destruct ((_ =? 0) || _) eqn:E; [cbn; eauto|].
  destruct H as [->|[A|(q & Q1 & Q2 & Q3)]].
  - cbn in E. rewrite orb_true_r in E. discriminate.
  - unfold next_protos_tcp, next_protos_quic in E. rewrite A in E. discriminate E.
  - apply (nego_shared q cps Q1). unfold next_protos_tcp, next_protos_quic.
    assert (N : quic_only q = false).
    { unfold quic_only. destruct (str_eqb q _) eqn:X; [|reflexivity]. apply str_eqb_spec in X. contradiction. }
    apply filter_In. rewrite N. split; [|reflexivity]. apply filter_In. rewrite N. split; [exact Q2|reflexivity].
Qed.

Lemma http_gets_it p e n r h i b :
  get_backend p (requested_name p h) (alpnProtos h) = Some (i, b) ->
  n < maxOpen p -> check_ip (bDeny b) (bAllow b) r = true ->
  (bMode b = ModeHTTP \/ bMode b = ModeHTTPS) -> bClientAuth b = None ->
  alpnProtos h <> [!"acme-tls/1"] ->
  (alpnProtos h = [] \/ bALPN b = [] \/ exists q, In q (alpnProtos h) /\ In q (bALPN b) /\ q <> !"h3") ->
  hsOK e = true -> waitOK e = true ->
  (hsName e = requested_name p h \/ hsName e = [] /\ requested_name p h = defName p) ->
  exists proto, handle_connection p e n r (Ok h) = ActHTTP i proto None.
Proof.
  intros G L C M CA NA AL HS WO HN. destruct (negotiates b _ AL) as (proto & P). exists proto.
  unfold handle_connection. destruct (Nat.leb_spec (maxOpen p) n); [lia|]. cbv zeta.
  change (match serverName h with [] => defName p | _ => serverName h end) with (annotated_name p (Ok h)).
  rewrite annotated, G.
  replace (mode_eqb (bMode b) ModeTLSPassthrough) with false by (destruct M as [-> | ->]; reflexivity).
  replace ((List.length (alpnProtos h) =? 1) && str_eqb (hd [] (alpnProtos h)) acme_proto) with false.
  2:{ symmetry. apply not_true_iff_false. intros X. apply andb_prop in X as [X1 X2]. apply Nat.eqb_eq in X1.
      apply str_eqb_spec in X2. apply NA. destruct (alpnProtos h) as [|a [|? ?]]; try discriminate. cbn in X2. subst a. reflexivity. }
  cbn [andb]. rewrite C. cbn [negb]. unfold authorize_tls, tls_handshake. rewrite HS, P, CA. cbn [negb].
  replace ((str_eqb (hsName e) [] && negb (str_eqb (requested_name p h) (defName p))) ||
           (negb (str_eqb (hsName e) []) && negb (str_eqb (hsName e) (requested_name p h)))) with false.
  - rewrite WO. destruct M as [-> | ->]; reflexivity.
  - destruct HN as [->|[-> ->]].
    + rewrite str_eqb_refl. destruct (str_eqb (requested_name p h) []) eqn:X; [|reflexivity].
      apply str_eqb_spec in X. unfold requested_name in *. destruct (serverName h); [|discriminate X].
      rewrite str_eqb_refl. reflexivity.
    + rewrite !str_eqb_refl. reflexivity.
Qed.


Lemma plain_forwards ev b x cn r : plain b x ->
  (exists s, In s (bNames b) /\ HttpSpec.plain_name s /\
     HttpSpec.names_host (if str_eqb (HttpModel.rq_host r) [] then HttpModel.cn_name cn else HttpModel.rq_host r) s) ->
  HttpModel.h_values HttpModel.via (HttpModel.rq_headers r) = [] ->
  exists f, handler b x ev cn r = HttpModel.Forward f.
Proof.
  intros (M & A & S & H & O) (s & Hs & Hp & Hn) V.
  assert (E : handler b x ev cn r = HttpModel.reverse_proxy ev (http_view b x) cn r).
  { unfold handler. destruct M as [-> | ->]; reflexivity. }
  rewrite E. unfold HttpModel.reverse_proxy, HttpModel.authenticate.
  cbn [http_view HttpModel.be_sso]. rewrite S.
  unfold HttpModel.local_and_authorize, HttpModel.enforce. cbn [http_view HttpModel.be_sso HttpModel.be_handlers]. rewrite S, H.
  cbn [find existsb]. unfold HttpModel.forward. cbv zeta.
  cbn [HttpModel.rq_host HttpModel.rq_headers HttpModel.set_headers http_view HttpModel.be_names HttpModel.be_overrides HttpModel.be_addrs].
  rewrite (HttpProofs2.url_hostname_complete _ s Hp Hn).
  replace (mem s (bNames b)) with true by (symmetry; apply mem_spec; exact Hs). cbn [negb]. rewrite O. cbn [HttpModel.choose].
  destruct (bAddrs b) as [|a l]; [contradiction|].
  match goal with |- context [existsb ?g ?l] => assert (X : l = []) end.
  { rewrite HttpProofs.h_get_set. change (HttpModel.same_name (lit "host") HttpModel.via) with false. cbv iota.
    rewrite HttpProofs.h_get_del by reflexivity. unfold HttpModel.h_get. rewrite V. reflexivity. }
  rewrite X. cbn [existsb]. destruct (fold_left _ _ _) as [h1 h2]. eauto.
Qed.
