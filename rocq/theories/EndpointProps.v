(** C78: local endpoints are served where they are configured; C79: the access list
    of a passkey provider. *)
From Coq Require Import Permutation.
From Verif Require Import Base PathModel HttpModel HttpSpec HttpProofs HttpProofs2 HttpProps EndpointModel.
From Verif Require RouteModel RouteProofs RouteProps DiscoveryProofs.
Open Scope list_scope.

(** The handler that one URL of a registration gives. *)
Definition handler_of (g : reg) (host path : str) : local_handler :=
  {| lh_id := g_id g; lh_host := host; lh_path := path; lh_prefix := g_prefix g; lh_bypass := g_bypass g |}.

Lemma add_at_nth i h l j : nth_error (add_at i h l) j =
  match nth_error l j with
  | Some x => Some (if Nat.eqb i j then x ++ [h] else x)
  | None => None
  end.
Proof.
  revert l j. induction i as [|i IH]; intros [|x l] [|j]; cbn [add_at nth_error Nat.eqb]; try reflexivity.
  - destruct (nth_error l j); reflexivity.
  - apply IH.
Qed.

(** All single URLs, in order. *)
Definition calls (l : list reg) : list (reg * str) := flat_map (fun g => map (pair g) (g_urls g)) l.

Lemma add_all_calls url bs l : add_all url bs l =
  fold_left (fun st x => add_url url bs (fst x) st (snd x)) (calls l) {| s_handlers := map k_fixed bs; s_acl := fun _ => None |}.
Proof.
  unfold add_all. generalize {| s_handlers := map k_fixed bs; s_acl := fun _ => None |}. induction l as [|g l IH]; intro st; [reflexivity|].
  cbn [fold_left calls flat_map]. fold (calls l). rewrite fold_left_app, IH. f_equal. unfold add_local_handler.
  generalize (g_urls g). intro us. revert st. induction us as [|u us IHu]; intro st; [reflexivity|]. cbn [fold_left map fst snd]. apply IHu.
Qed.

(** The handlers that the calls give to backend [i]. *)
Definition given (url : str -> option (str * str)) (bs : list back) (i : nat) (x : reg * str) : list local_handler :=
  match url (snd x) with
  | Some (host, path) => match by_name bs host with
                         | Some j => if Nat.eqb j i then [handler_of (fst x) host path] else []
                         | None => []
                         end
  | None => []
  end.

Lemma handlers_given url bs xs : forall st i, nth_error (s_handlers (fold_left (fun st x => add_url url bs (fst x) st (snd x)) xs st)) i =
  match nth_error (s_handlers st) i with
  | Some hs => Some (hs ++ flat_map (given url bs i) xs)
  | None => None
  end.
Proof.
  induction xs as [|x xs IH]; intros st i; cbn [fold_left flat_map].
  - destruct (nth_error (s_handlers st) i); [rewrite app_nil_r|]; reflexivity.
  - rewrite IH. unfold add_url, given at 2. destruct (url (snd x)) as [[host path]|]; [|reflexivity].
    destruct (by_name bs host) as [j|]; [|reflexivity]. cbn [s_handlers]. rewrite add_at_nth.
    destruct (nth_error (s_handlers st) i) as [hs|]; [|reflexivity]. destruct (Nat.eqb j i); [|reflexivity].
    rewrite <- app_assoc. reflexivity.
Qed.

(** Which handlers a backend has: its own ones, and one for every URL with a host that
    it is the backend of. *)
Theorem C78_who_gets_what : forall url bs l i b, nth_error bs i = Some b ->
  exists hs, nth_error (s_handlers (add_all url bs l)) i = Some hs /\
  forall h, In h hs <-> In h (k_fixed b) \/
    exists g u host path, In g l /\ In u (g_urls g) /\ url u = Some (host, path) /\ by_name bs host = Some i /\ h = handler_of g host path.
Proof.
  intros url bs l i b Hb. rewrite add_all_calls, handlers_given. cbn [s_handlers].
  rewrite (map_nth_error k_fixed _ _ Hb). eexists. split; [reflexivity|]. intro h. rewrite in_app_iff, in_flat_map.
  split; (intros [H|H]; [left; exact H|right]).
  - destruct H as ([g u] & Hx & Hg). unfold given in Hg. cbn [fst snd] in Hg. unfold calls in Hx. apply in_flat_map in Hx.
    destruct Hx as (g' & Hg' & Hu). apply in_map_iff in Hu. destruct Hu as (u' & [= -> ->] & Hu).
    destruct (url u) as [[host path]|] eqn:Eu; [|destruct Hg]. destruct (by_name bs host) as [j|] eqn:Ej; [|destruct Hg].
    destruct (Nat.eqb j i) eqn:Eji; [|destruct Hg]. apply Nat.eqb_eq in Eji. subst j. destruct Hg as [<-|[]].
    exists g, u, host, path. auto.
  - destruct H as (g & u & host & path & Hg & Hu & Eu & Ej & ->). exists (g, u). split.
    + unfold calls. apply in_flat_map. exists g. split; [exact Hg|]. apply in_map. exact Hu.
    + unfold given. cbn [fst snd]. rewrite Eu, Ej, Nat.eqb_refl. left. reflexivity.
Qed.
Print Assumptions C78_who_gets_what.

(** The backend of a host. *)
Definition the_backend (bs : list back) (host : str) (i : nat) : Prop :=
  exists b before after, bs = before ++ b :: after /\ i = List.length before /\ In host (k_names b) /\
    forall b', In b' before -> ~ In host (k_names b').

Lemma by_name_keep host bs : forall i j, (forall b, In b bs -> k_alpn b <> None -> forall l, k_alpn b = Some l -> ~ In [] l) -> by_name_from host i bs (Some j) = Some j.
Proof.
  induction bs as [|b bs IH]; intros i j H; [reflexivity|]. cbn [by_name_from].
  assert (E : match k_alpn b with Some l => mem [] l | None => false end = false).
  { destruct (k_alpn b) as [l|] eqn:El; [|reflexivity]. apply mem_false. apply (H b (or_introl eq_refl)); [congruence|exact El]. }
  rewrite E. replace (if mem host (k_names b) then _ else _) with (Some j) by (destruct (mem _ _); reflexivity).
  apply IH. intros b' Hb'. apply H. right. exact Hb'.
Qed.

(** The empty string is not a protocol in any list. *)
Definition real_protocols (bs : list back) : Prop := forall b l, In b bs -> k_alpn b = Some l -> ~ In [] l.

(** It is the first one that lists the host. *)
Theorem C78_backend_of_a_host : forall bs host i, real_protocols bs ->
  by_name bs host = Some i <-> the_backend bs host i.
Proof.
  intros bs host i H. unfold by_name, the_backend.
  enough (G : forall bs0 n, real_protocols bs0 -> by_name_from host n bs0 None = Some i <->
    exists b before after, bs0 = before ++ b :: after /\ i = (n + List.length before)%nat /\ In host (k_names b) /\ forall b', In b' before -> ~ In host (k_names b')).
  { apply (G bs 0%nat H). }
  clear bs H. induction bs0 as [|b bs IH]; intros n H.
  - split; [discriminate|]. intros (b & before & after & E & _). destruct before; discriminate.
  - cbn [by_name_from].
    assert (E : match k_alpn b with Some l => mem [] l | None => false end = false).
    { destruct (k_alpn b) as [l|] eqn:El; [|reflexivity]. apply mem_false. apply (H b l (or_introl eq_refl) El). }
    rewrite E. destruct (mem host (k_names b)) eqn:Em.
    + rewrite by_name_keep; [|intros b' Hb' _ l Hl; apply (H b' l (or_intror Hb') Hl)]. apply mem_spec in Em. split.
      * intros [= <-]. exists b, [], bs. repeat split; [cbn; lia|exact Em|intros b' []].
      * intros (b' & before & after & Eb & -> & Hin & Hno). destruct before as [|x before]; [cbn; f_equal; lia|].
        injection Eb as <- _. exfalso. apply (Hno b (or_introl eq_refl) Em).
    + rewrite IH; [|intros b' l Hb'; apply H; right; exact Hb']. apply mem_false in Em. split.
      * intros (b' & before & after & -> & -> & Hin & Hno). exists b', (b :: before), after. split; [reflexivity|]. split; [cbn; lia|]. split; [exact Hin|].
        intros x [<-|Hx]; [exact Em|apply Hno; exact Hx].
      * intros (b' & before & after & Eb & -> & Hin & Hno). destruct before as [|x before]; [injection Eb as <- _; contradiction|].
        injection Eb as <- ->. exists b', before, after. split; [reflexivity|]. split; [cbn; lia|]. split; [exact Hin|].
        intros x Hx. apply Hno. right. exact Hx.
Qed.
Print Assumptions C78_backend_of_a_host.

(** A backend that lists the empty string as a protocol gets the endpoints of its names
    even when others list them before; of several such backends it is the last one. *)
Theorem C78_empty_protocol : forall before b after host l,
  In host (k_names b) -> k_alpn b = Some l -> In [] l ->
  (forall b' l', In b' after -> In host (k_names b') -> k_alpn b' = Some l' -> ~ In [] l') ->
  by_name (before ++ b :: after) host = Some (List.length before).
Proof.
  intros before b after host l Hn Hl He Ha. unfold by_name.
  enough (G : forall bs n f, by_name_from host n (bs ++ b :: after) f = Some (n + List.length bs)%nat) by apply G.
  assert (A : forall bs n j, (forall b' l', In b' bs -> In host (k_names b') -> k_alpn b' = Some l' -> ~ In [] l') -> by_name_from host n bs (Some j) = Some j).
  { induction bs as [|b' bs IH]; intros n j H; [reflexivity|]. cbn [by_name_from].
    replace (if mem host (k_names b') then _ else _) with (Some j); [apply IH; intros x l' Hx; apply H; right; exact Hx|].
    destruct (mem host (k_names b')) eqn:Em; [|reflexivity]. apply mem_spec in Em.
    destruct (k_alpn b') as [l'|] eqn:El; [|reflexivity].
    rewrite (proj2 (mem_false _ _) (H b' l' (or_introl eq_refl) Em El)). reflexivity. }
  induction bs as [|x bs IH]; intros n f.
  - cbn [app by_name_from List.length]. rewrite (proj2 (mem_spec _ _) Hn), Hl, (proj2 (mem_spec _ _) He). rewrite A by exact Ha. f_equal. lia.
  - cbn [app by_name_from List.length]. rewrite IH. f_equal. lia.
Qed.
Print Assumptions C78_empty_protocol.

(** The host of a request is what its Host header says without the port, and without the
    brackets of an IPv6 address that has a port. *)
Theorem C78_host_of_a_request : forall host port,
  ~ In "["%char host -> ~ In "]"%char host -> ~ In colon port -> ~ In "["%char port -> ~ In "]"%char port ->
  (~ In colon host -> host_from_req host = host /\ host_from_req (host ++ colon :: port) = host) /\
  (In colon host -> host_from_req (host ++ colon :: port) = host ++ colon :: port) /\
  host_from_req ("["%char :: host ++ "]"%char :: colon :: port) = host.
Proof.
  intros host port H1 H2 P1 P2 P3. unfold host_from_req. split.
  - intros Hc. split.
    + unfold split_host_port. replace (cut_last colon host) with (@None (str * str)); [reflexivity|]. clear -Hc.
      induction host as [|c h IH]; [reflexivity|]. cbn [cut_last]. rewrite <- IH by (intros I; apply Hc; right; exact I).
      destruct (Ascii.eqb c colon) eqn:E; [|reflexivity]. apply Ascii.eqb_eq in E. exfalso. apply Hc. left. exact E.
    + rewrite DiscoveryProofs.split_plain; auto.
  - split.
    { intros Hc. unfold split_host_port. rewrite cut_last_at by exact P1. apply has_char_spec in Hc.
      destruct host as [|c h]; [discriminate Hc|]. cbn [app]. destruct (Ascii.eqb c "[") eqn:E; [apply Ascii.eqb_eq in E; subst c; exfalso; apply H1; left; reflexivity|].
      rewrite Hc. reflexivity. }
    unfold split_host_port.
    replace ("["%char :: host ++ "]"%char :: colon :: port) with (("["%char :: host ++ ["]"%char]) ++ colon :: port) by (cbn; rewrite <- app_assoc; reflexivity).
    rewrite cut_last_at by exact P1. cbn [app]. rewrite <- app_assoc. cbn [app Ascii.eqb Bool.eqb].
    assert (C : cut "]" (host ++ "]"%char :: colon :: port) = (host, colon :: port, true)).
    { clear -H2. induction host as [|c h IH]; [reflexivity|]. cbn [app cut].
      destruct (Ascii.eqb c "]") eqn:E; [apply Ascii.eqb_eq in E; exfalso; apply H2; left; exact E|].
      rewrite IH by (intros I; apply H2; right; exact I). reflexivity. }
    rewrite C. change (lit "]") with ["]"%char]. rewrite str_eqb_refl.
    assert (B1 : has_char "[" (host ++ "]"%char :: colon :: port) = false).
    { apply has_char_false. intros I. apply in_app_iff in I as [I|[I|[I|I]]]; try contradiction; discriminate. }
    assert (B2 : has_char "]" (colon :: port) = false) by (apply has_char_false; intros [I|I]; [discriminate|contradiction]).
    rewrite B1, B2. reflexivity.
Qed.
Print Assumptions C78_host_of_a_request.
Example C78_host_example :
  map (fun s => host_from_req (lit s)) ["www.example.com"; "www.example.com:8443"; "[2001:db8::1]:443"]%string =
  map lit ["www.example.com"; "www.example.com"; "2001:db8::1"]%string.
Proof. reflexivity. Qed.

(** A request for the URL of an endpoint, on the backend of its host, is answered by
    that endpoint, or, if the endpoint is not open to everyone, stopped by the login.
    For this the path of the URL must be in the form in which paths are compared,
    which excludes the empty one, and no other endpoint may have the same URL. *)
Theorem C78_endpoint_answers_partial : forall url bs l i b g u host path ev be cn r hs,
  nth_error bs i = Some b -> (forall h, In h (k_fixed b) -> lh_host h = []) ->
  In g l -> In u (g_urls g) -> url u = Some (host, path) -> host <> [] -> by_name bs host = Some i ->
  (forall g' u', In g' l -> In u' (g_urls g') -> url u' = Some (host, path) -> g' = g) ->
  nth_error (s_handlers (add_all url bs l)) i = Some hs -> Permutation hs (be_handlers be) -> sorted (be_handlers be) ->
  host_from_req (rq_host r) = host -> rq_path r = path -> pathClean path = path ->
  match reverse_proxy ev be cn r with
  | Local h => lh_id h = g_id g
  | SetIDToken => True
  | Login | AuthRequired | Denied => g_bypass g = false
  | _ => False
  end.
Proof.
  intros url bs l i b g u host path ev be cn r hs Hb Hf Hg Hu Eu Hne Hi Huniq Ehs Hperm Hs Hh Hp Hc.
  destruct (C78_who_gets_what url bs l i b Hb) as (hs' & E' & Hin). rewrite Ehs in E'. injection E' as <-.
  set (h0 := handler_of g host path).
  assert (I0 : In h0 (be_handlers be)) by (apply (Permutation_in _ Hperm), Hin; right; exists g, u, host, path; auto).
  assert (M0 : handler_matches host path h0 = true) by (apply C24_matches; cbn; auto).
  destruct (find (handler_matches host path) (be_handlers be)) as [h|] eqn:Ef.
  2:{ exfalso. apply (find_none _ _ Ef) in I0. congruence. }
  assert (Sp := selected_specific _ _ _ _ Hs Ef). destruct Sp as (Ih & Mh & Sp). specialize (Sp h0 I0 M0).
  assert (Eh : h = h0).
  { apply C24_matches in Mh. destruct Mh as [Mh1 Mh2]. assert (Host : lh_host h = host).
    { destruct Sp as [(X & Y)|(X & Y)]; [symmetry; exact X|]. destruct Mh1; [contradiction|assumption]. }
    apply (Permutation_in _ (Permutation_sym Hperm)), Hin in Ih. destruct Ih as [Ih|(g' & u' & host' & path' & A & B & C & D & ->)].
    - apply Hf in Ih. congruence.
    - cbn in Host. subst host'. assert (Path : path' = path).
      { cbn [handler_of lh_path lh_host lh_prefix] in *. destruct Mh2 as [->|(_ & t & Et)]; [reflexivity|].
        exfalso. destruct Sp as [(_ & Y)|(_ & Y)]; [|cbn in Y; congruence]. cbn [h0 handler_of lh_path] in Y. rewrite Et, app_length in Y. cbn in Y. lia. }
      subst path'. rewrite (Huniq _ _ A B C). reflexivity. }
  subst h.
  destruct (C24_matching_requests_stay ev be cn r h0) as [_ X]; [rewrite Hh, Hp, Hc; exact Ef|].
  destruct (reverse_proxy ev be cn r); try exact X; try exact I.
  - destruct X as [-> X]. rewrite Hp, Hc in X. apply X. reflexivity.
  - destruct X as [-> _]. reflexivity.
Qed.
Print Assumptions C78_endpoint_answers_partial.

(** An endpoint that is bound to a host answers only requests for that host, and only
    on the backend of that host. *)
Theorem C78_nowhere_else : forall url bs l i b ev be cn r hs h,
  nth_error bs i = Some b -> nth_error (s_handlers (add_all url bs l)) i = Some hs -> Permutation hs (be_handlers be) -> sorted (be_handlers be) ->
  reverse_proxy ev be cn r = Local h ->
  In h (k_fixed b) \/
  exists g u host path, In g l /\ In u (g_urls g) /\ url u = Some (host, path) /\ by_name bs host = Some i /\
    lh_id h = g_id g /\ (host <> [] -> host_from_req (rq_host r) = host) /\
    (rq_path r = path \/ (g_prefix g = true /\ exists t, rq_path r = path ++ slash :: t)).
Proof.
  intros url bs l i b ev be cn r hs h Hb Ehs Hperm Hs H.
  destruct (C78_who_gets_what url bs l i b Hb) as (hs' & E' & Hin). rewrite Ehs in E'. injection E' as <-.
  destruct (C24_most_specific ev be cn r h Hs (or_introl H)) as (Ih & M & _).
  apply (Permutation_in _ (Permutation_sym Hperm)), Hin in Ih. destruct Ih as [Ih|(g & u & host & path & A & B & C & D & ->)]; [left; exact Ih|right].
  apply C24_matches in M. destruct M as [M1 M2]. cbn [handler_of lh_host lh_path lh_prefix lh_id] in *.
  exists g, u, host, path. repeat split; auto. intro X. destruct M1; [contradiction|congruence].
Qed.
Print Assumptions C78_nowhere_else.

(** Which connections get there: if only one backend lists the host, all that are
    accepted for it. *)
Theorem C78_connections_reach_it_partial : forall bs p host protos j b,
  map k_names bs = map RouteModel.bNames (RouteModel.backs p) -> real_protocols bs ->
  (forall i i' x x', nth_error bs i = Some x -> nth_error bs i' = Some x' -> In host (k_names x) -> In host (k_names x') -> i = i') ->
  RouteModel.get_backend p host protos = Some (j, b) -> by_name bs host = Some j.
Proof.
  intros bs p host protos j b E R U H. apply RouteProofs.get_backend_inv in H. destruct H as (H & _ & _).
  apply RouteProofs.lookup_lists in H. destruct H as (b' & Hb & Hin).
  assert (K : nth_error (map k_names bs) j = Some (RouteModel.bNames b')) by (rewrite E; apply map_nth_error; exact Hb).
  rewrite nth_error_map in K. destruct (nth_error bs j) as [k|] eqn:Ek; [|discriminate]. injection K as K. rewrite <- K in Hin.
  apply C78_backend_of_a_host; [exact R|]. apply nth_error_split in Ek. destruct Ek as (before & after & -> & <-).
  exists k, before, after. repeat split; [exact Hin|]. intros x Hx Hx'. apply in_split in Hx. destruct Hx as (l1 & l2 & ->).
  assert (List.length l1 = List.length (l1 ++ x :: l2)).
  { apply (U _ _ x k); [| |exact Hx'|exact Hin].
    - rewrite <- app_assoc. rewrite nth_error_app2 by lia. rewrite Nat.sub_diag. reflexivity.
    - rewrite nth_error_app2 by lia. rewrite Nat.sub_diag. reflexivity. }
  rewrite app_length in H. cbn in H. lia.
Qed.
Print Assumptions C78_connections_reach_it_partial.

(** ** Examples *)

(** https://host/path *)
Definition url0 (u : str) : option (str * str) :=
  if has_prefix u (lit "https://") then
    let '(h, p, found) := cut "/"%char (skipn 8 u) in Some (h, if found then "/"%char :: p else [])
  else None.
Definition status : local_handler := {| lh_id := 0; lh_host := []; lh_path := lit "/.sso/"; lh_prefix := false; lh_bypass := true |}.
Definition bs0 : list back :=
  [ {| k_names := [lit "login"]; k_alpn := Some [lit "h2"]; k_sso := Some (Some (lit "keys"), Some [lit "@example.com"]); k_fixed := [status] |};
    {| k_names := [lit "app"; lit "www"]; k_alpn := None; k_sso := None; k_fixed := [] |} ].
Definition regs0 : list reg :=
  [ {| g_id := 1; g_urls := [lit "https://login/oidc"]; g_prefix := false; g_bypass := true; g_callback := true |};
    {| g_id := 2; g_urls := [lit "https://login/pk"]; g_prefix := false; g_bypass := true; g_callback := true |};
    {| g_id := 3; g_urls := [lit "https://www/ocsp"; lit "https://login/ocsp"]; g_prefix := true; g_bypass := true; g_callback := false |};
    {| g_id := 4; g_urls := [lit "https://www/ocsp/admin"]; g_prefix := false; g_bypass := false; g_callback := false |} ].
Example C78_example :
  real_protocols bs0 /\ by_name bs0 (lit "www") = Some 1%nat /\ pathClean (lit "/ocsp/admin") = lit "/ocsp/admin" /\
  map (map lh_id) (s_handlers (add_all url0 bs0 regs0)) = [[0; 1; 2; 3]; [3; 4]]%nat /\
  sorted (List.rev (nth 1 (s_handlers (add_all url0 bs0 regs0)) [])) /\
  s_acl (add_all url0 bs0 regs0) (lit "keys") = Some [lit "@example.com"].
Proof.
  split; [intros b l [<-|[<-|[]]] [= <-] [X|[]]; discriminate X|]. vm_compute. repeat split; repeat constructor.
Qed.

(** FINDING.  The URL of an endpoint may have no path.  It is then registered with the
    empty path, with which no cleaned path is compared equal, so the endpoint does
    not answer; the request goes to the backend. *)
Theorem C78_no_path_refuted :
  ~ (forall url bs l i b g u host path ev be cn r hs,
       nth_error bs i = Some b -> In g l -> In u (g_urls g) -> url u = Some (host, path) -> host <> [] -> by_name bs host = Some i ->
       (forall g' u', In g' l -> In u' (g_urls g') -> url u' = Some (host, path) -> g' = g) ->
       nth_error (s_handlers (add_all url bs l)) i = Some hs -> Permutation hs (be_handlers be) -> sorted (be_handlers be) ->
       rq_host r = host -> rq_path r = (match path with [] => lit "/" | _ => path end) -> g_bypass g = true ->
       exists h, reverse_proxy ev be cn r = Local h \/ reverse_proxy ev be cn r = SetIDToken).
Proof.
  intro H.
  set (g := {| g_id := 1; g_urls := [lit "https://www.example.com"]; g_prefix := false; g_bypass := true; g_callback := true |}).
  set (k := {| k_names := [lit "www.example.com"]; k_alpn := None; k_sso := None; k_fixed := [] |}).
  set (be := {| be_names := [lit "www.example.com"]; be_sso := None; be_handlers := [handler_of g (lit "www.example.com") []]; be_overrides := [];
     be_addrs := []; be_root := lit "/var/www"; be_sanitize := None; be_headers := []; be_xfcc := [] |}).
  destruct (H url0 [k] [g] 0%nat k g (lit "https://www.example.com") (lit "www.example.com") [] x_env be x_conn
              {| rq_method := lit "GET"; rq_host := lit "www.example.com"; rq_path := lit "/"; rq_proto := lit "HTTP/1.1"; rq_headers := [] |}
              [handler_of g (lit "www.example.com") []]) as (h & [E|E]); try reflexivity; try (left; reflexivity); try discriminate.
  - intros g' u' [<-|[]] _ _. reflexivity.
  - repeat constructor.
Qed.
Print Assumptions C78_no_path_refuted.

(** FINDING.  Two backends may share a server name if they differ in protocols.  The
    endpoints of that name are given to the first of them in the file (proxy.go:438,
    743) whatever its mode.  If that is, say, a mail server, no HTTP request finds
    the endpoint: the callback of a login ends up at the other backend. *)
Theorem C78_shared_name_refuted :
  ~ (forall quic idna rs p bs host protos j b,
       RouteModel.check_config quic idna rs = Some (RouteModel.backs p) ->
       map k_names bs = map RouteModel.bNames (RouteModel.backs p) ->
       map k_alpn bs = map (fun x => Some (RouteModel.bALPN x)) (RouteModel.backs p) -> real_protocols bs ->
       RouteModel.get_backend p host protos = Some (j, b) -> In (lit "h2") protos -> In (lit "h2") (RouteModel.bALPN b) -> by_name bs host = Some j).
Proof.
  intro H.
  set (rs := [RouteProps.rb [lit "www"] (lit "tcp") (Some [lit "imap"]) None None None; RouteProps.rb [lit "www"] (lit "https") None None None None]).
  destruct (RouteModel.check_config true (fun s => s) rs) as [bes|] eqn:E; [|vm_compute in E; discriminate E].
  set (p := {| RouteModel.backs := bes; RouteModel.shut := fun _ => false; RouteModel.defName := lit "www"; RouteModel.maxOpen := 10 |}).
  specialize (H true (fun s => s) rs p (map (fun x => {| k_names := RouteModel.bNames x; k_alpn := Some (RouteModel.bALPN x); k_sso := None; k_fixed := [] |}) bes)
    (lit "www") [lit "h2"] 1%nat (nth 1 bes (nth 0 bes {| RouteModel.bNames := []; RouteModel.bMode := RouteModel.ModeTCP; RouteModel.bALPN := []; RouteModel.bClientAuth := None; RouteModel.bDeny := None; RouteModel.bAllow := None; RouteModel.bAddrs := []; RouteModel.bPki := [] |})) E).
  vm_compute in E. injection E as <-.
  assert (X : by_name (map (fun x => {| k_names := RouteModel.bNames x; k_alpn := Some (RouteModel.bALPN x); k_sso := None; k_fixed := [] |}) (RouteModel.backs p)) (lit "www") = Some 1%nat).
  { apply H; [reflexivity|reflexivity| |reflexivity|left; reflexivity|].
    - intros b l Hb Hl. cbn in Hb. destruct Hb as [<-|[<-|[]]]; injection Hl as <-; vm_compute; intuition discriminate.
    - vm_compute. auto. }
  vm_compute in X. discriminate X.
Qed.
Print Assumptions C78_shared_name_refuted.

(** ** C79 *)

(** Backend [b] asks passkey manager [m], with this access list. *)
Definition uses (b : back) (m : str) (acl : option (list str)) : Prop := k_sso b = Some (Some m, acl).
(** A provider has its callback on backend [i]. *)
Definition calls_back (url : str -> option (str * str)) (bs : list back) (l : list reg) (i : nat) : Prop :=
  exists g u host path, In g l /\ g_callback g = true /\ In u (g_urls g) /\ url u = Some (host, path) /\ by_name bs host = Some i.

(** The access list of the one call. *)
Definition sets (url : str -> option (str * str)) (bs : list back) (m : str) (x : reg * str) : option (option (list str)) :=
  match url (snd x) with
  | Some (host, _) => match by_name bs host with
      | Some i => match nth_error bs i with
          | Some {| k_sso := Some (Some m', acl) |} => if g_callback (fst x) && str_eqb m m' then Some acl else None
          | _ => None
          end
      | None => None
      end
  | None => None
  end.

Lemma acl_sets url bs m xs : forall st,
  s_acl (fold_left (fun st x => add_url url bs (fst x) st (snd x)) xs st) m =
  fold_left (fun a x => match sets url bs m x with Some acl => acl | None => a end) xs (s_acl st m).
Proof.
  induction xs as [|x xs IH]; intro st; [reflexivity|]. cbn [fold_left]. rewrite IH. f_equal. unfold add_url, sets.
  destruct (url (snd x)) as [[host path]|]; [|reflexivity]. destruct (by_name bs host) as [i|]; [|reflexivity]. cbn [s_acl].
  destruct (nth_error bs i) as [[n al [[[m'|] acl]|] f]|]; try reflexivity.
  destruct (g_callback (fst x)); cbn [andb]; [|reflexivity]. destruct (str_eqb m m'); reflexivity.
Qed.

(** The access list of a passkey provider is that of the backends that use it and
    have the callback of some provider, if these all have the same one, in whatever
    order the providers are registered; without such a backend everyone is allowed. *)
Theorem C79_access_list_partial : forall url bs l m,
  (forall i b acl acl', nth_error bs i = Some b -> uses b m acl -> calls_back url bs l i ->
     forall i' b', nth_error bs i' = Some b' -> uses b' m acl' -> calls_back url bs l i' -> acl' = acl) ->
  (forall i b acl, nth_error bs i = Some b -> uses b m acl -> calls_back url bs l i -> s_acl (add_all url bs l) m = acl) /\
  ((forall i b acl, nth_error bs i = Some b -> uses b m acl -> ~ calls_back url bs l i) -> s_acl (add_all url bs l) m = None).
Proof.
  intros url bs l m U. rewrite add_all_calls, acl_sets. cbn [s_acl].
  assert (S : forall x acl, In x (calls l) -> sets url bs m x = Some acl -> exists i b, nth_error bs i = Some b /\ uses b m acl /\ calls_back url bs l i).
  { intros [g u] acl Hx Hs. unfold calls in Hx. apply in_flat_map in Hx. destruct Hx as (g' & Hg & Hu). apply in_map_iff in Hu. destruct Hu as (u' & [= -> ->] & Hu).
    unfold sets in Hs. cbn [fst snd] in Hs. destruct (url u) as [[host path]|] eqn:Eu; [|discriminate]. destruct (by_name bs host) as [i|] eqn:Ei; [|discriminate].
    destruct (nth_error bs i) as [[n al [[[m'|] acl']|] f]|] eqn:Eb; try discriminate. destruct (g_callback g && str_eqb m m') eqn:Ec; [|discriminate].
    injection Hs as <-. apply andb_true_iff in Ec. destruct Ec as [Ec Em]. apply str_eqb_spec in Em. subst m'.
    exists i, {| k_names := n; k_alpn := al; k_sso := Some (Some m, acl'); k_fixed := f |}. split; [exact Eb|]. split; [reflexivity|]. exists g, u, host, path. auto. }
  split.
  - intros i b acl Hb Hu Hc.
    assert (A : forall x acl', In x (calls l) -> sets url bs m x = Some acl' -> acl' = acl).
    { intros x acl' Hx Hs. destruct (S x acl' Hx Hs) as (i' & b' & X & Y & Z). apply (U i b acl acl' Hb Hu Hc i' b' X Y Z). }
    assert (B : exists x, In x (calls l) /\ sets url bs m x = Some acl).
    { destruct Hc as (g & u & host & path & Hg & Hcb & Hgu & Eu & Ei). exists (g, u). split.
      - unfold calls. apply in_flat_map. exists g. split; [exact Hg|apply in_map; exact Hgu].
      - unfold sets. cbn [fst snd]. rewrite Eu, Ei, Hb. unfold uses in Hu. destruct b as [n al s f]. cbn in Hu. subst s. rewrite Hcb, str_eqb_refl. reflexivity. }
    clear S U Hb Hu Hc. revert A B. generalize (@None (list str)). induction (calls l) as [|x xs IH]; intros a A (y & Hy & Hs); [destruct Hy|].
    cbn [fold_left]. destruct (sets url bs m x) as [acl'|] eqn:Ex.
    + assert (acl' = acl) by (apply (A x acl' (or_introl eq_refl) Ex)). subst acl'. clear IH y Hy Hs Ex.
      assert (A' : forall x acl', In x xs -> sets url bs m x = Some acl' -> acl' = acl) by (intros z w Hz; apply A; right; exact Hz). clear A.
      induction xs as [|z xs IH]; [reflexivity|]. cbn [fold_left]. destruct (sets url bs m z) as [w|] eqn:Ez.
      * rewrite (A' z w (or_introl eq_refl) Ez). apply IH. intros q v Hq. apply A'. right. exact Hq.
      * apply IH. intros q v Hq. apply A'. right. exact Hq.
    + apply IH; [intros z w Hz; apply A; right; exact Hz|]. destruct Hy as [<-|Hy]; [congruence|]. exists y. auto.
  - intro N. assert (A : forall x, In x (calls l) -> sets url bs m x = None).
    { intros x Hx. destruct (sets url bs m x) as [acl|] eqn:Es; [|reflexivity]. destruct (S x acl Hx Es) as (i & b & X & Y & Z). exfalso. apply (N i b acl X Y Z). }
    clear -A. induction (calls l) as [|x xs IH]; [reflexivity|]. cbn [fold_left]. rewrite (A x (or_introl eq_refl)). apply IH. intros y Hy. apply A. right. exact Hy.
Qed.
Print Assumptions C79_access_list_partial.

(** Who may register a key: the listed users and the users of the listed domains. *)
Theorem C79_meaning : forall l local domain, ~ In "@"%char local ->
  subject_allowed (Some l) (local ++ lit "@" ++ domain) = true <->
  In (local ++ lit "@" ++ domain) l \/ In (lit "@" ++ domain) l.
Proof.
  intros l local domain H. unfold subject_allowed.
  assert (E : forall x, ~ In "@"%char x -> cut "@"%char (x ++ "@"%char :: domain) = (x, domain, true)).
  { induction x as [|a x IH]; intro N; cbn [app cut]; [rewrite Ascii.eqb_refl; reflexivity|].
    destruct (Ascii.eqb a "@"%char) eqn:Ea; [exfalso; apply N; left; symmetry; apply Ascii.eqb_eq in Ea; congruence|].
    rewrite IH; [reflexivity|]. intro X. apply N. right. exact X. }
  change (lit "@" ++ domain) with ("@"%char :: domain). rewrite E by exact H. rewrite orb_true_iff, !mem_spec. reflexivity.
Qed.
Print Assumptions C79_meaning.

Definition bs1 : list back :=
  [ {| k_names := [lit "login"]; k_alpn := None; k_sso := Some (Some (lit "keys"), Some [lit "admin@example.com"]); k_fixed := [] |};
    {| k_names := [lit "app"]; k_alpn := None; k_sso := Some (Some (lit "keys"), None); k_fixed := [] |} ].
Definition pk_reg : reg := {| g_id := 1; g_urls := [lit "https://login/pk"]; g_prefix := false; g_bypass := true; g_callback := true |}.
Definition oidc_reg : reg := {| g_id := 2; g_urls := [lit "https://app/oidc"]; g_prefix := false; g_bypass := true; g_callback := true |}.

Example C79_example :
  s_acl (add_all url0 bs1 [pk_reg]) (lit "keys") = Some [lit "admin@example.com"] /\
  subject_allowed (s_acl (add_all url0 bs1 [pk_reg]) (lit "keys")) (lit "eve@evil.com") = false.
Proof. vm_compute. split; reflexivity. Qed.

(** FINDING.  The access list of a passkey provider is set once for every backend that
    uses the provider and has any callback, in the order of a Go map
    (proxy.go:752-756, 759): the last one counts.  Whether the list of the passkey
    page itself is applied is left to chance. *)
Theorem C79_order_matters_refuted :
  ~ (forall url bs l l' i b acl m, Permutation l l' -> nth_error bs i = Some b -> uses b m acl ->
       (exists g u host path, In g l /\ g_id g = 1%nat /\ g_callback g = true /\ In u (g_urls g) /\ url u = Some (host, path) /\ by_name bs host = Some i) ->
       s_acl (add_all url bs l) m = acl -> s_acl (add_all url bs l') m = acl).
Proof.
  intro H. specialize (H url0 bs1 [oidc_reg; pk_reg] [pk_reg; oidc_reg] 0%nat (nth 0 bs1 (hd (nth 0 bs0 (hd {| k_names := []; k_alpn := None; k_sso := None; k_fixed := [] |} bs0)) bs1)) (Some [lit "admin@example.com"]) (lit "keys") (perm_swap _ _ _) eq_refl eq_refl).
  assert (X : s_acl (add_all url0 bs1 [pk_reg; oidc_reg]) (lit "keys") = Some [lit "admin@example.com"]).
  { apply H; [|vm_compute; reflexivity]. exists pk_reg, (lit "https://login/pk"), (lit "login"), (lit "/pk"). repeat split; try (right; left; reflexivity); try (left; reflexivity). }
  vm_compute in X. discriminate X.
Qed.
Print Assumptions C79_order_matters_refuted.

(** FINDING.  If the backend with the passkey page does not itself ask that provider,
    no access list is ever set, and everyone whom the other provider knows may
    register a key. *)
Theorem C79_not_set_refuted :
  ~ (forall url bs l b acl m email, In b bs -> uses b m (Some acl) -> s_acl (add_all url bs l) m = None ->
       subject_allowed (s_acl (add_all url bs l) m) email = true -> subject_allowed (Some acl) email = true).
Proof.
  intro H.
  set (bs := [ {| k_names := [lit "login"]; k_alpn := None; k_sso := None; k_fixed := [] |};
               {| k_names := [lit "app"]; k_alpn := None; k_sso := Some (Some (lit "keys"), Some [lit "admin@example.com"]); k_fixed := [] |} ]).
  specialize (H url0 bs [pk_reg] (nth 1 bs (nth 0 bs (hd {| k_names := []; k_alpn := None; k_sso := None; k_fixed := [] |} bs))) [lit "admin@example.com"] (lit "keys") (lit "eve@evil.com")).
  assert (X : subject_allowed (Some [lit "admin@example.com"]) (lit "eve@evil.com") = true).
  { apply H; [right; left; reflexivity|reflexivity|vm_compute; reflexivity|vm_compute; reflexivity]. }
  vm_compute in X. discriminate X.
Qed.
Print Assumptions C79_not_set_refuted.
