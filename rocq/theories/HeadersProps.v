(** Properties C80 and C81: the headers that the proxy adds to requests and
    responses. *)
From Verif Require Import Base IPModel TokenModel HttpModel HttpSpec HttpProofs HttpProofs2 HttpProps ProxyHdrModel HeadersModel HeadersSpec HeadersProofs.
From Verif Require RouteModel RouteSpec RouteProofs.
Open Scope list_scope.
Local Open Scope nat_scope.

(** ** C80 *)

(** Variables in a configured value are replaced by their values, and nothing else
    changes; in particular what a variable stands for is not expanded again. *)
Theorem C80_templates : forall m l, well_written l -> expand m (print l) = fill m l.
Proof. exact expand_print. Qed.
Print Assumptions C80_templates.

(** Every value can be read as a template, so this says what becomes of all of
    them. *)
Theorem C80_every_value_is_a_template : forall s, exists l, well_written l /\ print l = s.
Proof. intros s. exact (print_all (List.length s) s (le_n _)). Qed.
Example C80_odd_templates :
  let l := [Text (lit "cost: 5"); Dollar; Text (lit " "); Special "1"%char; Nameless; Plain (lit "A_1"); Text (lit "-"); Unclosed; Text (lit "JWT:x"); Dollar] in
  well_written l /\ print l = lit "cost: 5$ $1${}$A_1-${JWT:x$" /\
  expand (fun n => lit "<" ++ n ++ lit ">") (print l) = lit "cost: 5$ <1><A_1>-JWT:x$".
Proof.
  split; [|vm_compute; auto]. cbn [well_written].
  split; [cbn; intuition discriminate|]. split; [intros c r [= <- _]; unfold word_char, special_char; cbn; intuition (discriminate || lia)|].
  split; [cbn; intuition discriminate|]. split; [unfold special_char; cbn; tauto|]. split; [exact I|].
  split; [|split; [cbn; intuition discriminate|split; [cbn; intuition discriminate|split; [cbn; intuition discriminate|split; [intros c r; discriminate|exact I]]]]].
  split; [exists "A"%char, (lit "_1"); split; [reflexivity|cbn; lia]|].
  split; [apply Forall_forall; intros x Hx; cbn in Hx; destruct Hx as [<-|[<-|[<-|[]]]]; unfold word_char; cbn; [right; lia|left; reflexivity|right; lia]|].
  intros c r [= <- _]. unfold word_char. cbn. intuition (discriminate || lia).
Qed.
Print Assumptions C80_every_value_is_a_template.

(** What the variables stand for. *)
Theorem C80_variables : forall s6 show f c,
  let var n := expand_vars s6 show f c (lit "${" ++ n ++ lit "}") in
  var (lit "NETWORK") = fa_network f /\ var (lit "LOCAL_ADDR") = fa_local f /\ var (lit "REMOTE_ADDR") = fa_remote f /\
  var (lit "LOCAL_IP") = addr2ip s6 (fa_local_addr f) /\ var (lit "REMOTE_IP") = addr2ip s6 (fa_remote_addr f) /\
  var (lit "SERVER_NAME") = fa_name f /\
  (forall n, ~ In "}"%char n -> var (lit "JWT:" ++ n) =
     match c with
     | Some cl => match assoc n cl with Some (VStr s) => s | Some v => show v | None => [] end
     | None => []
     end) /\
  (forall n, n <> [] -> ~ In "}"%char n -> ~ In n [lit "NETWORK"; lit "LOCAL_ADDR"; lit "REMOTE_ADDR"; lit "LOCAL_IP"; lit "REMOTE_IP"; lit "SERVER_NAME"] ->
     (forall m, n <> lit "JWT:" ++ m) -> var n = []).
Proof.
  intros s6 show f c var.
  assert (E : forall n, n <> [] -> ~ In "}"%char n -> var n = variable s6 show f c n).
  { intros n Hn Hb. unfold var, expand_vars. pose proof (expand_print (variable s6 show f c) [Braced n]) as X.
    unfold print, fill in X. cbn [map List.concat print1 fill1] in X. rewrite !app_nil_r in X. apply X. cbn. auto. }
  assert (B : forall n, In n [lit "NETWORK"; lit "LOCAL_ADDR"; lit "REMOTE_ADDR"; lit "LOCAL_IP"; lit "REMOTE_IP"; lit "SERVER_NAME"] -> n <> [] /\ ~ In "}"%char n).
  { intros n Hn. repeat (destruct Hn as [<-|Hn]; [split; [discriminate|intro X; repeat (destruct X as [X|X]; [discriminate X|]); exact X]|]). destruct Hn. }
  do 6 (split; [rewrite E by (apply B; inlist); reflexivity|]). split.
  - intros n Hb. rewrite E.
    + unfold variable. cbn [app]. replace (lit "JWT:" ++ n) with ("J"%char :: "W"%char :: "T"%char :: ":"%char :: n) by reflexivity.
      cbn. destruct c as [cl|]; [|reflexivity]. destruct (assoc n cl) as [[ | | | ]|]; reflexivity.
    + discriminate.
    + intro X. apply in_app_or in X. destruct X as [X|X]; [repeat (destruct X as [X|X]; [discriminate X|]); exact X|exact (Hb X)].
  - intros n Hn Hb Hl Hj. rewrite E by assumption. unfold variable.
    assert (D : forall s, In s [lit "NETWORK"; lit "LOCAL_ADDR"; lit "REMOTE_ADDR"; lit "LOCAL_IP"; lit "REMOTE_IP"; lit "SERVER_NAME"] -> str_eqb n s = false).
    { intros s Hs. apply str_eqb_neq. intros ->. exact (Hl Hs). }
    rewrite !D by inlist. destruct (has_prefix n (lit "JWT:")) eqn:Ep; [|reflexivity]. apply has_prefix_spec in Ep. destruct Ep as (m & ->). destruct (Hj m eq_refl).
Qed.
Print Assumptions C80_variables.

(** A configured header reaches the backend with the configured value, in which
    variables have the values of this connection and of the session that
    authenticates the request; if nothing is left of the value there is no such
    header.  What the client sent under that name is gone.  Missing: see below, the
    client can remove the header. *)
Theorem C80_configured_headers_partial : forall ev be cn r f k v,
  reverse_proxy ev be cn r = Forward f -> In (k, v) (rules be (fw_override f)) -> distinct (rules be (fw_override f)) ->
  rules_leave be (lit "connection") -> ~ hop_by_hop k -> ~ (exists m, In m [xff; xfcc] /\ same_name m k = true) ->
  ~ connection_names (rq_headers r) k ->
  h_values k (fw_headers f) = rendered ev be r v.
Proof.
  intros ev be cn r f k v H Hin ND Hc Hh Hx Hn.
  assert (P' : forall m, In m hop_headers -> same_name m k = false).
  { intros m Hm. destruct (same_name m k) eqn:E; [|reflexivity]. exfalso. apply Hh. exists m. auto. }
  assert (P : forall m, In m [xff; xfcc] -> same_name m k = false).
  { intros m Hm. destruct (same_name m k) eqn:E; [|reflexivity]. exfalso. apply Hx. exists m. auto. }
  rewrite (configured_values _ _ _ _ _ _ _ H Hin ND Hc) by (first [apply P'; inlist | apply P; inlist]).
  replace (conn_names (rq_headers r) k) with false.
  2:{ symmetry. destruct (conn_names _ _) eqn:X; [|reflexivity]. apply conn_names_spec in X. contradiction. }
  replace (is_hop k) with false; [reflexivity|].
  symmetry. destruct (is_hop k) eqn:X; [|reflexivity]. exfalso. apply Hh. apply existsb_exists in X. exact X.
Qed.
Print Assumptions C80_configured_headers_partial.

(** Whatever the client sends, the backend never sees another value. *)
Theorem C80_not_forged : forall ev be cn r f k v,
  reverse_proxy ev be cn r = Forward f -> In (k, v) (rules be (fw_override f)) -> distinct (rules be (fw_override f)) ->
  rules_leave be (lit "connection") -> ~ hop_by_hop k -> ~ (exists m, In m [xff; xfcc] /\ same_name m k = true) ->
  h_values k (fw_headers f) = [] \/ h_values k (fw_headers f) = rendered ev be r v.
Proof.
  intros ev be cn r f k v H Hin ND Hc Hh Hx.
  assert (P' : forall m, In m hop_headers -> same_name m k = false).
  { intros m Hm. destruct (same_name m k) eqn:E; [|reflexivity]. exfalso. apply Hh. exists m. auto. }
  assert (P : forall m, In m [xff; xfcc] -> same_name m k = false).
  { intros m Hm. destruct (same_name m k) eqn:E; [|reflexivity]. exfalso. apply Hx. exists m. auto. }
  rewrite (configured_values _ _ _ _ _ _ _ H Hin ND Hc) by (first [apply P'; inlist | apply P; inlist]).
  destruct (_ || _); auto.
Qed.
Print Assumptions C80_not_forged.

(** A configured Host header is also the host of the request. *)
Theorem C80_host : forall ev be cn r f k v,
  reverse_proxy ev be cn r = Forward f -> In (k, v) (rules be (fw_override f)) -> distinct (rules be (fw_override f)) ->
  same_name k (lit "host") = true -> rendered ev be r v <> [] ->
  [fw_host f] = rendered ev be r v.
Proof.
  intros ev be cn r f k v H Hin ND Hk Hv. apply reverse_forward in H. destruct H as (r1 & c & r2 & Ha & He & Hf).
  apply forward_spec in Hf. cbv zeta in Hf. destruct Hf as (_ & _ & extra & h1 & Hr & _ & Eh1 & _ & Eo).
  apply rules_for_rules in Hr. subst extra. unfold rendered in *. rewrite <- (authenticate_session _ _ _ _ _ Ha) in *.
  destruct (ev_expand ev c v) as [|x y] eqn:Ex; [congruence|]. f_equal. rewrite <- Ex.
  transitivity (snd (fold_left (apply_header ev c) (rules be (fw_override f)) (h1, rq_host r2))); [tauto|]. apply (apply_headers_host ev c _ _ _ k); try assumption. congruence.
Qed.
Print Assumptions C80_host.

(** An example: a user name taken from the session, next to a forged one. *)
Definition x_facts : facts :=
  {| fa_network := lit "tcp"; fa_local := lit "192.0.2.1:443"; fa_remote := lit "198.51.100.7:5000";
     fa_local_addr := TCPAddr [192%N; 0%N; 2%N; 1%N] 443; fa_remote_addr := TCPAddr [198%N; 51%N; 100%N; 7%N] 5000; fa_name := lit "www.example.com" |}.
Definition x_env_vars : env :=
  {| ev_keys := ev_keys x_env; ev_now := ev_now x_env; ev_decode := ev_decode x_env; ev_hash := ev_hash x_env;
     ev_expand := expand_vars (fun _ => []) (fun _ => []) x_facts; ev_fs := ev_fs x_env |}.
Definition x_be_rules : backend :=
  {| be_names := be_names x_be; be_sso := be_sso x_be; be_handlers := []; be_overrides := [];
     be_addrs := be_addrs x_be; be_root := []; be_sanitize := None;
     be_headers := [(lit "X-User", lit "<${JWT:email}> from ${REMOTE_IP}"); (lit "X-Env", lit "$NETWORK"); (lit "X-None", lit "${JWT:nope}")]; be_xfcc := [] |}.
Definition x_send (h : headers) : option (list (list str)) :=
  match reverse_proxy x_env_vars x_be_rules x_conn (x_req "/private/x" (x_cookie "TLSPROXYAUTH=alice" ++ h)) with
  | Forward f => Some (map (fun n => h_values n (fw_headers f)) [lit "x-user"; lit "x-env"; lit "x-none"])
  | _ => None
  end.
Example C80_example :
  x_send [(lit "x-USER", lit "<root@example.com>"); (lit "X-None", lit "1")] = Some [[lit "<alice@example.com> from 198.51.100.7"]; [lit "tcp"]; []] /\
  distinct (be_headers x_be_rules) /\ rules_leave x_be_rules (lit "connection") /\ ~ hop_by_hop (lit "X-User").
Proof.
  split; [vm_compute; reflexivity|]. split.
  { unfold distinct. cbn. repeat constructor; cbn; intuition discriminate. }
  split; [split; [intros kv Hk; repeat (destruct Hk as [<-|Hk]; [reflexivity|]); destruct Hk|intros po l kv []]|].
  intros (m & Hm & H). repeat (destruct Hm as [<-|Hm]; [vm_compute in H; discriminate H|]). exact Hm.
Qed.

(** The full claim, that a configured header always reaches the backend, is false: a
    client removes it by naming it in a Connection header. *)
Theorem C80_configured_headers_refuted :
  ~ (forall ev be cn r f k v,
      reverse_proxy ev be cn r = Forward f -> In (k, v) (rules be (fw_override f)) -> distinct (rules be (fw_override f)) ->
      rules_leave be (lit "connection") -> ~ hop_by_hop k -> ~ (exists m, In m [xff; xfcc] /\ same_name m k = true) ->
      h_values k (fw_headers f) = rendered ev be r v).
Proof.
  intro H.
  destruct (reverse_proxy x_env_vars x_be_rules x_conn (x_req "/private/x" (x_cookie "TLSPROXYAUTH=alice" ++ [(lit "Connection", lit "X-User")]))) as [| | | | | | | | |f] eqn:E;
    try (vm_compute in E; discriminate E).
  destruct C80_example as (_ & D & R & Hh).
  assert (Eov : fw_override f = None) by (vm_compute in E; injection E as <-; reflexivity).
  specialize (H _ _ _ _ _ (lit "X-User") (lit "<${JWT:email}> from ${REMOTE_IP}") E).
  rewrite Eov in H. specialize (H (or_introl eq_refl) D R Hh).
  assert (X : ~ (exists m, In m [xff; xfcc] /\ same_name m (lit "X-User") = true)).
  { intros (m & Hm & Y). repeat (destruct Hm as [<-|Hm]; [vm_compute in Y; discriminate Y|]). exact Hm. }
  specialize (H X). vm_compute in E. injection E as <-. vm_compute in H. discriminate H.
Qed.
Print Assumptions C80_configured_headers_refuted.

(** ** C81 *)

(** The backend's answer goes to the client with its status and its headers; only two
    headers may be added, and one that the backend set itself stays. *)
Theorem C81_responses : forall b proto host r, let r' := modify_response b proto host r in
  rs_status r' = rs_status r /\
  (forall n, same_name hsts n = false -> same_name altsvc n = false -> h_values n (rs_headers r') = h_values n (rs_headers r)) /\
  (h_get hsts (rs_headers r) <> [] -> h_values hsts (rs_headers r') = h_values hsts (rs_headers r)) /\
  (h_get altsvc (rs_headers r) <> [] -> h_values altsvc (rs_headers r') = h_values altsvc (rs_headers r)).
Proof.
  intros b proto host r r'. unfold r', modify_response. cbn [rs_status rs_headers]. split; [reflexivity|].
  set (h1 := if _ && _ then h_set hsts hsts_value (rs_headers r) else rs_headers r).
  assert (E1 : forall n, same_name hsts n = false -> h_values n h1 = h_values n (rs_headers r)).
  { intros n Hn. unfold h1. destruct (_ && _); [rewrite h_values_set, Hn|]; reflexivity. }
  assert (E2 : forall n, same_name altsvc n = false ->
    h_values n (if ((200 <=? rs_status r) && (rs_status r <? 400))%N && str_eqb (h_get altsvc h1) [] then set_alt_svc b proto host h1 else h1) = h_values n h1).
  { intros n Hn. apply alt_svc_if. exact Hn. }
  split; [intros n Ha Hb; rewrite E2, E1 by assumption; reflexivity|]. split.
  - intro Hh. rewrite E2 by reflexivity. unfold h1. apply str_eqb_neq in Hh. rewrite Hh, andb_false_r. reflexivity.
  - intro Hh. rewrite (h_get_ext altsvc h1 (rs_headers r)) by (apply E1; reflexivity).
    pose proof Hh as Hh'. apply str_eqb_neq in Hh'. rewrite Hh', andb_false_r. apply E1. reflexivity.
Qed.
Print Assumptions C81_responses.

(** Every answer of a backend carries Strict-Transport-Security, except 421, which
    tells the client to use another connection. *)
Theorem C81_strict_transport : forall b proto host r, rs_status r <> 421%N ->
  h_get hsts (rs_headers (modify_response b proto host r)) = match h_get hsts (rs_headers r) with [] => lit "max-age=2592000" | v => v end.
Proof.
  intros b proto host r Hs. unfold modify_response. cbn [rs_headers].
  set (h1 := if _ && _ then h_set hsts hsts_value (rs_headers r) else rs_headers r).
  assert (E : h_get hsts (if ((200 <=? rs_status r) && (rs_status r <? 400))%N && str_eqb (h_get altsvc h1) [] then set_alt_svc b proto host h1 else h1) = h_get hsts h1).
  { apply h_get_ext. apply alt_svc_if. reflexivity. }
  rewrite E. unfold h1. apply N.eqb_neq in Hs. rewrite Hs. cbn [negb andb].
  destruct (h_get hsts (rs_headers r)) as [|x y] eqn:Eg; [|cbn [str_eqb]; exact Eg]. cbn [str_eqb]. rewrite h_get_set, same_name_refl. reflexivity.
Qed.
Print Assumptions C81_strict_transport.

(** Clients are told about HTTP/3 if and only if the backend serves it, they do not use
    it yet, the answer is not an error, and the backend did not say something else
    itself; the port is the one the client used. *)
Theorem C81_alt_svc : forall b proto host r, h_get altsvc (rs_headers r) = [] ->
  let out := h_values altsvc (rs_headers (modify_response b proto host r)) in
  let offered p := (200 <= rs_status r < 400)%N /\ h3_server b = true /\ proto <> Some (lit "h3") /\
                   (exists l, h3_alpn b = Some l /\ In (lit "h3") l) /\ port_in host p in
  (forall p, offered p -> out = [lit "h3="":" ++ dec p ++ lit """; ma=2592000;"]) /\
  ((forall p, ~ offered p) -> out = h_values altsvc (rs_headers r)).
Proof.
  intros b proto host r Hg out offered. unfold out, modify_response. cbn [rs_headers].
  set (h1 := if _ && _ then h_set hsts hsts_value (rs_headers r) else rs_headers r).
  assert (E1 : h_values altsvc h1 = h_values altsvc (rs_headers r)).
  { unfold h1. destruct (_ && _); [rewrite h_values_set|]; reflexivity. }
  rewrite (h_get_ext altsvc h1 (rs_headers r) E1), Hg. cbn [str_eqb]. rewrite andb_true_r. split.
  - intros p ((S1 & S2) & Hs & Hp & Ha & P). apply N.leb_le in S1. apply N.ltb_lt in S2. rewrite S1, S2. cbn [andb].
    rewrite (alt_svc_set b proto host h1 Hs Hp Ha p P), h_values_set, same_name_refl. reflexivity.
  - intro No. destruct ((200 <=? rs_status r) && (rs_status r <? 400))%N eqn:Es; [|exact E1].
    apply andb_true_iff in Es. destruct Es as [S1 S2]. apply N.leb_le in S1. apply N.ltb_lt in S2.
    destruct (alt_svc_only b proto host h1) as [->|(Hs & Hp & Ha & p & P & _)]; [exact E1|]. destruct (No p). unfold offered. auto.
Qed.
Print Assumptions C81_alt_svc.

(** The HTTP/3 connection that a client then makes, for any of the backend's names,
    goes to the same backend. *)
Theorem C81_same_backend : forall quic idna rs p i b n protos,
  RouteModel.check_config quic idna rs = Some (RouteModel.backs p) ->
  nth_error (RouteModel.backs p) i = Some b -> RouteModel.shut p i = false ->
  In n (RouteModel.bNames b) -> In (lit "h3") (RouteModel.bALPN b) ->
  RouteModel.get_backend p n (lit "h3" :: protos) = Some (i, b).
Proof.
  intros quic idna rs p i b n protos Hc Hb Hs Hn Ha.
  assert (Hcl : RouteSpec.claims (RouteModel.backs p) i n (lit "h3")) by (exists b; auto).
  unfold RouteModel.get_backend, RouteModel.lookup, RouteModel.ptable. cbn [RouteModel.find_proto].
  destruct (RouteProofs.table_proto (RouteModel.backs p) n (lit "h3")) as [(k & E & Hk)|[_ No]]; [discriminate| |destruct (No i Hcl)].
  rewrite E. assert (k = i) by (eapply RouteProofs.claims_distinct; eauto). subst k. rewrite Hs, Hb. reflexivity.
Qed.
Print Assumptions C81_same_backend.

Definition x_h3 : h3conf := {| h3_server := true; h3_alpn := Some [lit "h3"; lit "h2"] |}.
Example C81_example :
  rs_headers (modify_response x_h3 (Some (lit "h2")) (lit "www.example.com:8443") {| rs_status := 200; rs_headers := [(lit "Server", lit "x")] |}) =
    [(lit "Server", lit "x"); (hsts, lit "max-age=2592000"); (altsvc, lit "h3="":8443""; ma=2592000;")] /\
  rs_headers (modify_response x_h3 (Some (lit "h3")) (lit "www.example.com") {| rs_status := 200; rs_headers := [(hsts, lit "max-age=0")] |}) =
    [(hsts, lit "max-age=0")] /\
  rs_headers (modify_response x_h3 None (lit "www.example.com") {| rs_status := 304; rs_headers := [] |}) =
    [(hsts, lit "max-age=2592000"); (altsvc, lit "h3="":443""; ma=2592000;")] /\
  rs_headers (modify_response x_h3 (Some (lit "h2")) (lit "www.example.com") {| rs_status := 421; rs_headers := [] |}) = [] /\
  rs_headers (modify_response x_h3 (Some (lit "h2")) (lit "www.example.com") {| rs_status := 500; rs_headers := [] |}) = [(hsts, lit "max-age=2592000")] /\
  port_in (lit "www.example.com:8443") 8443 /\ port_in (lit "www.example.com") 443.
Proof.
  repeat split; try (vm_compute; reflexivity); [right|left]; vm_compute; repeat split; try discriminate; reflexivity.
Qed.
