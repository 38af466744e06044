(** Theorems C97: the console shows what has happened, and no secrets. *)
From Verif Require Import Base ConsoleModel ConsoleSpec ConsoleProofs.
From Coq Require Import Permutation.
Open Scope list_scope.

(** ** Events *)

(** The table of events has one row for each event that was reported, with the number of
    times, in order. *)
Theorem C97_events_exact : forall reported,
  let rows := event_rows (record_all [] reported) in
  increasing (map fst rows) /\
  forall m n, In (m, n) rows <-> In m reported /\ n = times m reported.
Proof.
  intros l rows. unfold rows, event_rows. clear rows. split.
  - rewrite map_map. cbn [fst]. rewrite map_id. apply sort_increasing. apply record_nodup. constructor.
  - intros m n. rewrite in_map_iff. rewrite <- (record_keys l m).
    assert (V : forall k, In k (map fst (record_all [] l)) -> match assoc k (record_all [] l) with Some n => n | None => 0 end = times k l).
    { intros k _. rewrite record_assoc. cbn. destruct (times k l); reflexivity. }
    split.
    + intros (k & E & I). injection E as -> <-. apply (Permutation_in _ (Permutation_sym (sort_perm _))) in I. split; [exact I|]. apply V. exact I.
    + intros [I ->]. exists m. rewrite V by exact I. split; [reflexivity|]. exact (Permutation_in _ (sort_perm _) I).
Qed.
Print Assumptions C97_events_exact.

(** Every TCP connection is counted once, whatever becomes of it. *)
Theorem C97_tcp_connections_counted : forall uni history,
  (forall k h, In (k, h) history -> ~ In (lit "tcp connection") (foreign h)) ->
  existsb (fun x => is_tcp (snd x)) history = true ->
  assoc (lit "tcp connection") (events_after uni history) = Some (List.length (filter (fun x => is_tcp (snd x)) history)).
Proof.
  intros uni hist H E. unfold events_after. rewrite record_assoc. cbn [assoc]. change (lit "tcp connection") with TC. rewrite (tcp_counted uni hist H).
  destruct (filter _ hist) as [|x l] eqn:F; [|reflexivity]. apply existsb_exists in E as (x & I & Hx).
  assert (In x []) as [] by (rewrite <- F; apply filter_In; auto).
Qed.
Print Assumptions C97_tcp_connections_counted.

(** A connection that the table says was turned away is not passed on: what it reports does not
    depend on the backend. *)
Theorem C97_turned_away : forall uni k c m, List.In m (tcp_events uni k (with_dial c None [] true)) -> turned_away m ->
  forall w d ok, tcp_events uni k (with_dial c w d ok) = tcp_events uni k (with_dial c None [] true).
Proof.
  intros uni k c m I T w d ok. revert I. unfold tcp_events. cbn [with_dial t_over t_hello t_ip t_staple t_no_cert t_early t_late t_proto t_cert t_moved t_panic].
  assert (NO : forall x, turned_away m -> List.In m x -> (forall y, List.In y x -> ~ turned_away y) -> False) by (intros x A B C; exact (C m B A)).
  assert (N1 : ~ turned_away (lit "tcp connection")) by (intros [H|H]; [cbn in H; intuition discriminate|discriminate]).
  assert (N2 : ~ turned_away (lit "no SNI")) by (intros [H|H]; [cbn in H; intuition discriminate|discriminate]).
  assert (N3 : ~ turned_away (lit "panic")) by (intros [H|H]; [cbn in H; intuition discriminate|discriminate]).
  assert (N4 : ~ turned_away (lit "conn chan nil")) by (intros [H|H]; [cbn in H; intuition discriminate|discriminate]).
  assert (N5 : forall n, ~ turned_away (lit "ocsp staple error for " ++ n)) by (intros n [H|H]; [cbn in H; intuition discriminate|discriminate]).
  assert (N6 : forall n, ~ turned_away (lit "allow X509 [" ++ n)) by (intros n [H|H]; [cbn in H; intuition discriminate|discriminate]).
  assert (NS : forall n b, List.In m (staple_event uni n b) -> False).
  { intros n b H. unfold staple_event in H. destruct b; [destruct H as [<-|[]]; exact (N5 _ T)|destruct H]. }
  assert (NV : forall n p ce evs, verify_connection uni k n p ce = (evs, Fine) -> List.In m evs -> False).
  { intros n p ce evs. unfold verify_connection. destruct (find_backend k n [p]) as [e|b]; [discriminate|]. destruct (b_auth b); cbn [negb]; [|intro H; injection H as <-; intros []].
    destruct ce as [|sum r o a]; [discriminate|]. destruct r; [discriminate|]. destruct o; [discriminate|]. destruct a; cbn [negb]; [|discriminate].
    destruct (str_eqb sum []); intro H; injection H as <-; [intros []|]. intros [<-|[]]. exact (N6 _ T). }
  assert (NP : List.In m (if t_panic c then [lit "panic"] else []) -> False) by (destruct (t_panic c); [intros [<-|[]]; exact (N3 T)|intros []]).
  destruct (t_over c); [reflexivity|]. destruct (t_hello c) as [[sni protos]|]; [|reflexivity]. cbv zeta.
  set (name := if str_eqb sni [] then k_default k else sni).
  destruct (find_backend k name protos) as [e|b]; [reflexivity|]. intros [<-|I]; [destruct (N1 T)|].
  apply in_app_or in I as [I|I]; [|destruct (NP I)]. apply in_app_or in I as [I|I]; [destruct (str_eqb sni []); [destruct I as [<-|[]]; destruct (N2 T)|destruct I]|].
  destruct (b_mode b).
  - destruct (t_ip c); [|reflexivity]. destruct I.
  - destruct (_ && _); [reflexivity|]. destruct (t_ip c); cbn [negb] in *; [|reflexivity]. revert I. unfold authorize_tls.
    cbn [with_dial t_staple t_no_cert t_early t_late t_proto t_cert t_moved].
    destruct (t_early c); [reflexivity|]. destruct (t_no_cert c); [reflexivity|].
    destruct (if b_auth b then _ else _) as [evs v] eqn:V. destruct v; try reflexivity. destruct (t_late c); [reflexivity|]. destruct (t_moved c && _); [reflexivity|].
    destruct (_ && _); [reflexivity|]. intro I. exfalso. apply in_app_or in I as [I|I].
    + apply in_app_or in I as [I|I]; [exact (NS _ _ I)|]. destruct (b_auth b); [exact (NV _ _ _ _ V I)|injection V as <-; destruct I].
    + unfold wait_and_hand_over in I. cbn [with_dial t_wait] in I. destruct (b_serving b); [destruct I|destruct I as [<-|[]]; exact (N4 T)].
  - destruct (_ && _); [reflexivity|]. destruct (t_ip c); cbn [negb] in *; [|reflexivity]. revert I. unfold authorize_tls.
    cbn [with_dial t_staple t_no_cert t_early t_late t_proto t_cert t_moved].
    destruct (t_early c); [reflexivity|]. destruct (t_no_cert c); [reflexivity|].
    destruct (if b_auth b then _ else _) as [evs v] eqn:V. destruct v; try reflexivity. destruct (t_late c); [reflexivity|]. destruct (t_moved c && _); [reflexivity|].
    destruct (_ && _); [reflexivity|]. intro I. exfalso. apply in_app_or in I as [I|I].
    + apply in_app_or in I as [I|I]; [exact (NS _ _ I)|]. destruct (b_auth b); [exact (NV _ _ _ _ V I)|injection V as <-; destruct I].
    + unfold wait_and_dial in I. cbn [with_dial t_wait t_dial t_dial_ok app] in I. destruct I.
  - destruct (_ && _); reflexivity.
Qed.
Print Assumptions C97_turned_away.

(** Clients without a certificate and without a login cannot make the table grow: whatever they
    send, its size is bounded by the number of server names and the texts of the
    libraries and backends. *)
Theorem C97_table_stays_small_partial : forall uni names lib history,
  (forall k h, In (k, h) history -> anonymous h /\ incl (names_of k) names /\ incl (foreign h) lib) ->
  List.length (events_after uni history) <= 16 + 4 * List.length names + List.length lib.
Proof. exact keys_count. Qed.
Print Assumptions C97_table_stays_small_partial.

(** Users can: each one who logs in leaves a row for ever, even those whom the access list
    refuses. *)
Theorem C97_table_stays_small_refuted : forall uni k host n, exists history,
  (forall k' h, In (k', h) history -> k' = k /\ exists user, h = Sso user host false) /\
  List.length history = n /\ List.length (events_after uni history) = n.
Proof.
  intros uni k host n. set (user := fun i => repeat "a"%char i).
  exists (map (fun i => (k, Sso (user i) host false)) (seq 0 n)).
  split; [intros k' h I; apply in_map_iff in I as (i & E & _); injection E as <- <-; eauto|].
  split; [rewrite map_length, seq_length; reflexivity|]. unfold events_after.
  assert (R : flat_map (fun x => events_of uni (fst x) (snd x)) (map (fun i => (k, Sso (user i) host false)) (seq 0 n)) =
              map (fun i => sso_event uni (user i) host false) (seq 0 n)).
  { generalize (seq 0 n). intros l. induction l as [|i l IH]; [reflexivity|]. cbn [map flat_map fst snd events_of app]. rewrite IH. reflexivity. }
  rewrite R. clear R. set (f := fun i => sso_event uni (user i) host false).
  assert (J : forall i j, f i = f j -> i = j).
  { intros i j E. apply (f_equal (@List.length ascii)) in E. unfold f, sso_event in E. rewrite !app_length in E. unfold user in E. rewrite !repeat_length in E. lia. }
  assert (ND : NoDup (map f (seq 0 n))).
  { generalize (seq_NoDup n 0). generalize (seq 0 n). intros l. induction l as [|i l IH]; intros H; [constructor|]. inversion H; subst. cbn. constructor; [|auto].
    intros I. apply in_map_iff in I as (j & E & I). apply J in E. subst. contradiction. }
  rewrite <- (map_length fst). apply Nat.le_antisymm.
  - transitivity (List.length (map f (seq 0 n))); [|rewrite map_length, seq_length; lia].
    apply NoDup_incl_length; [apply record_nodup; constructor|]. intros m I. exact (proj1 (record_keys _ _) I).
  - transitivity (List.length (map f (seq 0 n))); [rewrite map_length, seq_length; lia|].
    apply NoDup_incl_length; [exact ND|]. intros m I. exact (proj2 (record_keys _ _) I).
Qed.
Print Assumptions C97_table_stays_small_refuted.

(** ** Server names *)

(** In whatever order the connections get their counters: the table has a row for each name
    with connections, with their number and the sums of what they have sent
    and received since. *)
Theorem C97_names_exact : forall uni history n,
  let s := acts history in
  (forall n n', In n (map fst (s_metrics s)) -> In n' (map fst (s_metrics s)) -> uni n = uni n' -> n = n') ->
  of_name s n <> [] ->
  In (uni n, {| r_conns := List.length (of_name s n); r_sent := sum (map c_sent (of_name s n)); r_recv := sum (map c_recv (of_name s n)) |}) (name_rows uni s).
Proof.
  intros uni l n s Inj NE. pose proof (ok_acts l) as O. fold s in O.
  destruct (assoc n (s_metrics s)) as [r|] eqn:A.
  2:{ destruct NE. pose proof (f_equal r_conns (ok_none s O n A)) as Z. cbn in Z. apply length_zero_iff_nil in Z. exact Z. }
  pose proof (ok_row s O n r A) as R. fold (tally (s_conns s) n). change {| r_conns := _; r_sent := _; r_recv := _ |} with (tally (s_conns s) n).
  assert (In n (map fst (s_metrics s))) as In_n by (apply assoc_in; eauto).
  assert (T : assoc (uni n) (totals uni s) = Some (tally (s_conns s) n)).
  { rewrite totals_assoc by (exact Inj || apply O).
    destruct (find _ (s_metrics s)) as [[k r']|] eqn:F.
    - apply find_some in F as [F1 F2]. cbn in F2. apply str_eqb_spec in F2.
      assert (k = n) as -> by (apply Inj; [apply in_map_iff; exists (k, r'); auto|exact In_n|exact F2]). cbn [snd].
      assert (r' = r) as ->.
      { pose proof (ok_nodup s O) as ND. clear -F1 A ND. induction (s_metrics s) as [|[k0 r0] m IH]; [destruct F1|]. cbn in *. inversion ND; subst.
        destruct F1 as [F1|F1].
        - injection F1 as -> ->. rewrite str_eqb_refl in A. congruence.
        - destruct (str_eqb n k0) eqn:E; [apply str_eqb_spec in E; subst; destruct H1; apply in_map_iff; exists (k0, r'); auto|auto]. }
      f_equal. apply nth_error_nth. exact R.
    - apply assoc_in in In_n as [v Hv]. clear -F A. exfalso. induction (s_metrics s) as [|[k0 r0] m IH]; [discriminate|]. cbn in *.
      destruct (str_eqb n k0) eqn:E; [apply str_eqb_spec in E; subst; rewrite str_eqb_refl in F; discriminate|].
      destruct (str_eqb (uni k0) (uni n)); [discriminate|auto]. }
  unfold name_rows. cbv zeta. apply in_map_iff. exists (uni n). rewrite T. split; [reflexivity|].
  apply (Permutation_in _ (sort_perm _)). apply assoc_in. eauto.
Qed.
Print Assumptions C97_names_exact.

(** Each name has one row, and there are no others. *)
Theorem C97_names_once : forall uni history,
  let s := acts history in
  increasing (map fst (name_rows uni s)) /\
  forall u r, In (u, r) (name_rows uni s) -> exists n, u = uni n /\ of_name s n <> [].
Proof.
  intros uni l s. split.
  - unfold name_rows. cbv zeta. rewrite map_map. cbn [fst]. rewrite map_id. apply sort_increasing. apply totals_nodup.
  - intros u r I. unfold name_rows in I. apply in_map_iff in I as (k & E & I). injection E as -> _.
    apply (Permutation_in _ (Permutation_sym (sort_perm _))) in I.
    assert (X : exists n, u = uni n /\ In n (map fst (s_metrics s))).
    { unfold totals in I. revert I. generalize (s_metrics s). intros m.
      assert (G : forall m t, In u (map fst (fold_left (fun t kv => assoc_set (uni (fst kv)) (nth (snd kv) (s_rows s) {| r_conns := 0; r_sent := 0; r_recv := 0 |}) t) m t)) ->
        (exists n, u = uni n /\ In n (map fst m)) \/ In u (map fst t)).
      { clear m. induction m as [|[k0 r0] m IH]; intros t H; [now right|]. cbn [fold_left map fst] in *. destruct (IH _ H) as [(n & -> & In_n)|H2].
        - left. exists n. split; [reflexivity|now right].
        - apply assoc_set_keys in H2 as [->|H2]; [left; exists k0; split; [reflexivity|now left]|now right]. }
      intros H. destruct (G m [] H) as [H2|[]]. exact H2. }
    destruct X as (n & -> & In_n). exists n. split; [reflexivity|]. clear r I.
    (* a row is made together with its first connection *)
    revert In_n. unfold s, acts.
    assert (G : forall l s0, ok s0 -> (forall n, In n (map fst (s_metrics s0)) -> of_name s0 n <> []) ->
      forall n, In n (map fst (s_metrics (fold_left act l s0))) -> of_name (fold_left act l s0) n <> []).
    { clear. induction l as [|a l IH]; intros s0 O H n; [apply H|]. cbn [fold_left]. apply IH; [now apply ok_act|]. clear IH n. intros n I.
      pose proof (ok_act s0 a O) as O1. set (s1 := act s0 a) in *. apply assoc_in in I as [r A].
      assert (P : 1 <= r_conns (tally (s_conns s1) n)); [|intros E; unfold tally in P; cbn in P; unfold of_name in E; rewrite E in P; cbn in P; lia].
      assert (Q : In n (map fst (s_metrics s0)) \/ exists c r', In c (s_conns s1) /\ c_name c = n /\ c_place c = Attached r').
      { subst s1. destruct a as [m|i|i|i m|i m]; cbn [act] in A |- *;
          try (destruct (nth_error (s_conns s0) i) as [c|] eqn:N; [|left; apply assoc_in; eauto]; destruct (c_place c); try (left; apply assoc_in; now eauto)).
        - left. apply assoc_in. eauto.
        - destruct (assoc (c_name c) (s_metrics s0)); left; apply assoc_in; eauto.
        - destruct (assoc (c_name c) (s_metrics s0)); [left; apply assoc_in; eauto|]. cbn [s_metrics s_conns] in *.
          destruct (str_eq_dec n (c_name c)) as [->|Ne]; [right|left; rewrite assoc_set_neq in A by congruence; apply assoc_in; eauto].
          exists (move (Attached (List.length (s_rows s0))) c). eexists. split; [|split; reflexivity].
          apply (nth_error_In _ i). rewrite upd_nth, Nat.eqb_refl, N. reflexivity. }
      destruct Q as [Q|(c & r' & I & E & P)].
      - specialize (H n Q). assert (M : r_conns (tally (s_conns s0) n) <= r_conns (tally (s_conns s1) n)).
        { subst s1. clear -O. destruct a as [m|i|i|i m|i m]; cbn [act];
            try (destruct (nth_error (s_conns s0) i) as [c|] eqn:N; [|lia]; destruct (c_place c) eqn:P; try lia).
          - cbn [s_conns]. rewrite tally_app. cbn [plus_row r_conns]. lia.
          - destruct (assoc _ _); cbn [s_conns]; match goal with |- context [upd ?f i _] => pose proof (f_equal r_conns (tally_upd f i _ c n N)) as T end;
              cbn [plus_row r_conns] in T; rewrite (single_not c n) in T by (unfold attached; rewrite P; reflexivity); cbn [zero_row r_conns] in T; lia.
          - destruct (assoc _ _); cbn [s_conns]; match goal with |- context [upd ?f i _] => pose proof (f_equal r_conns (tally_upd f i _ c n N)) as T end;
              cbn [plus_row r_conns] in T; rewrite (single_not c n) in T by (unfold attached; rewrite P; reflexivity); cbn [zero_row r_conns] in T; lia.
          - cbn [s_conns]. match goal with |- context [upd ?f i _] => pose proof (f_equal r_conns (tally_upd f i _ c n N)) as T end.
            cbn [plus_row r_conns] in T. unfold single in T. cbn [attached c_place c_name] in T. unfold attached in T. cbn [c_place] in T. destruct (_ && _); cbn [r_conns zero_row] in T; lia.
          - cbn [s_conns]. match goal with |- context [upd ?f i _] => pose proof (f_equal r_conns (tally_upd f i _ c n N)) as T end.
            cbn [plus_row r_conns] in T. unfold single in T. unfold attached in T. cbn [c_place c_name] in T. destruct (_ && _); cbn [r_conns zero_row] in T; lia. }
        assert (1 <= r_conns (tally (s_conns s0) n)); [|lia]. unfold tally, of_name in *. cbn. destruct (filter _ _); [congruence|cbn; lia].
      - apply in_split in I as (l1 & l2 & ->). rewrite tally_app, tally_cons. cbn [plus_row r_conns]. unfold single, attached. rewrite P, E, str_eqb_refl. cbn. lia. }
    apply G; [|cbn; tauto]. apply (ok_acts []).
Qed.
Print Assumptions C97_names_once.

(** ** Streams: RFC 9000, section 2.1 *)
Theorem C97_stream_direction : forall id,
  direction id = if N.testbit id 1 then (if N.testbit id 0 then lit "<--" else lit "-->") else lit "<->".
Proof.
  intros id. unfold direction. assert (E : N.land id 3 = (N.b2n (N.testbit id 0) + 2 * N.b2n (N.testbit id 1))%N).
  { apply N.bits_inj. intros i. destruct id as [|[[p|p|]|[p|p|]|]]; cbn; try reflexivity; destruct i as [|[i|i|]]; cbn; try reflexivity. }
  rewrite E. destruct (N.testbit id 0), (N.testbit id 1); reflexivity.
Qed.
Print Assumptions C97_stream_direction.

(** ** The configuration *)

(** The page depends on the configuration without its secrets only, however it is written. *)
Theorem C97_no_secrets : forall enc h1 c1 h2 c2,
  same_but_secrets (marshal h1 c1) (marshal h2 c2) ->
  snd (show_config enc h1 c1) = snd (show_config enc h2 c2).
Proof.
  intros enc h1 c1 h2 c2 H. destruct (show_spec enc h1 c1) as (x & -> & _). destruct (show_spec enc h2 c2) as (y & -> & _). cbn. f_equal. exact (hide_same _ _ H).
Qed.
Print Assumptions C97_no_secrets.

(** All the rest is shown as it is. *)
Theorem C97_rest_is_shown : forall enc h c, snd (show_config enc h c) = enc (hide (marshal h c)).
Proof. intros enc h c. destruct (show_spec enc h c) as (x & -> & _). reflexivity. Qed.
Print Assumptions C97_rest_is_shown.

(** Looking at the page does not change the configuration that the proxy runs with, not even its
    secrets. *)
Theorem C97_running_configuration_untouched : forall enc h c n, valid h c ->
  let h' := after_views enc c n h in
  valid h' c /\ marshal h' c = marshal h c.
Proof.
  intros enc h c n V. cbv zeta. induction n as [|n [IH1 IH2]]; [auto|]. cbn [after_views].
  set (h' := after_views enc c n h) in *. destruct (show_spec enc h' c) as (x & -> & E). cbn [fst].
  split; [exact (valid_extends _ _ _ E IH1)|]. rewrite (marshal_extends _ _ _ E IH1). exact IH2.
Qed.
Print Assumptions C97_running_configuration_untouched.

(** But headers that are added to requests are shown with their values, and a password for the
    backend is such a value. *)
Theorem C97_header_values_refuted : forall enc, (forall a b, enc a = enc b -> a = b) ->
  exists h1 h2 c, valid h1 c /\ valid h2 c /\
  (exists rest password1 password2,
     marshal h1 c = {| w_rest := rest; w_oidc := []; w_backends := [{| v_rest := []; v_headers := [(lit "Authorization", password1)]; v_clients := None |}] |} /\
     marshal h2 c = {| w_rest := rest; w_oidc := []; w_backends := [{| v_rest := []; v_headers := [(lit "Authorization", password2)]; v_clients := None |}] |}) /\
  snd (show_config enc h1 c) <> snd (show_config enc h2 c).
Proof.
  intros enc Inj.
  exists {| h_oidc := []; h_client := []; h_be := [{| e_rest := []; e_headers := [(lit "Authorization", lit "Basic one")]; e_clients := None |}] |},
         {| h_oidc := []; h_client := []; h_be := [{| e_rest := []; e_headers := [(lit "Authorization", lit "Basic two")]; e_clients := None |}] |},
         {| g_rest := []; g_oidc := []; g_backends := [0] |}.
  split; [split; repeat constructor; cbn; discriminate|]. split; [split; repeat constructor; cbn; discriminate|]. split.
  - exists [], (lit "Basic one"), (lit "Basic two"). split; reflexivity.
  - rewrite !C97_rest_is_shown. intros E. apply Inj in E. discriminate E.
Qed.
Print Assumptions C97_header_values_refuted.

(** ** Examples *)
Definition ex_uni (s : str) : str := s.
Definition ex_be (m : mode) (auth : bool) : backend := {| b_mode := m; b_auth := auth; b_acl := auth; b_shutdown := false; b_serving := true |}.
Definition ex_cfg : config := {| k_backends := [((lit "www", []), ex_be HttpLike false); ((lit "vpn", []), ex_be TlsLike true)]; k_default := lit "www" |}.
Definition ex_tcp (sni : str) (ip : bool) (c : cert) : tcp :=
  {| t_over := false; t_hello := Some (sni, []); t_ip := ip; t_staple := false; t_no_cert := false; t_early := false; t_late := false;
     t_proto := []; t_cert := c; t_moved := false; t_wait := None; t_dial := []; t_dial_ok := true; t_panic := false |}.
Definition ex_history : list (config * happening) :=
  map (fun h => (ex_cfg, h)) [Tcp (ex_tcp (lit "www") true NoCert); Tcp (ex_tcp (lit "vpn") true NoCert); Tcp (ex_tcp (lit "zzz") true NoCert); Tcp (ex_tcp [] false NoCert)].
Example C97_example_events : event_rows (events_after ex_uni ex_history) =
  [(lit "deny no cert to vpn", 1); (lit "no SNI", 1); (lit "tcp connection", 4); (lit "tls handshake failed", 1); (lit "unexpected SNI", 1); (lit "www CheckIP access denied", 1)].
Proof. vm_compute. reflexivity. Qed.
Example C97_example_anonymous :
  (forall k h, In (k, h) ex_history -> anonymous h /\ incl (names_of k) [lit "www"; lit "vpn"] /\ incl (foreign h) []) /\
  existsb (fun x => is_tcp (snd x)) ex_history = true.
Proof.
  split; [|reflexivity]. intros k h I. cbn in I. repeat (destruct I as [E|I]; [injection E as <- <-; split; [reflexivity|split; [apply incl_refl|apply incl_refl]]|]). destruct I.
Qed.
(** Two connections for a new name at the same time: both find no counters, one makes them. *)
Definition ex_acts : list action := [New (lit "www"); New (lit "www"); First 0; First 1; Second 1; Sent 1 10; Second 0; Received 0 5; Sent 0 7; New (lit "vpn"); First 2].
Example C97_example_names : name_rows ex_uni (acts ex_acts) = [(lit "www", {| r_conns := 2; r_sent := 17; r_recv := 5 |})] /\ of_name (acts ex_acts) (lit "www") <> [].
Proof. split; [vm_compute; reflexivity|vm_compute; discriminate]. Qed.
Definition ex_heap : heap :=
  {| h_oidc := [{| o_rest := lit "google"; o_secret := lit "s1" |}]; h_client := [{| l_rest := lit "app"; l_secret := lit "s2" |}];
     h_be := [{| e_rest := lit "www"; e_headers := []; e_clients := Some [0] |}] |}.
Definition ex_cfgobj : cfgobj := {| g_rest := lit "x"; g_oidc := [0]; g_backends := [0] |}.
Example C97_example_config : valid ex_heap ex_cfgobj /\
  hide (marshal ex_heap ex_cfgobj) =
    {| w_rest := lit "x"; w_oidc := [{| o_rest := lit "google"; o_secret := lit "**REDACTED**" |}];
       w_backends := [{| v_rest := lit "www"; v_headers := []; v_clients := Some [{| l_rest := lit "app"; l_secret := lit "**REDACTED**" |}] |}] |} /\
  w_oidc (marshal ex_heap ex_cfgobj) = [{| o_rest := lit "google"; o_secret := lit "s1" |}].
Proof.
  split; [|split; reflexivity]. split; constructor; cbn; auto. split; [auto|]. intros l [= <-]. auto.
Qed.
Example C97_example_stream : map direction [0; 1; 2; 3; 7; 10]%N = map lit ["<->"; "<->"; "-->"; "<--"; "<--"; "-->"]%string.
Proof. reflexivity. Qed.

(** A connection that is turned away because its certificate is revoked. *)
Definition revoked_conn : tcp :=
  {| t_over := false; t_hello := Some (lit "a.example", [lit "h2"]); t_ip := true; t_staple := false; t_no_cert := false; t_early := false; t_late := false;
     t_proto := lit "h2"; t_cert := Cert (lit "CN=x") true None true; t_moved := false; t_wait := None; t_dial := []; t_dial_ok := true; t_panic := false |}.
Example C97_turned_away_case :
  tcp_events (fun s => s) {| k_backends := [((lit "a.example", []), {| b_mode := TlsLike; b_auth := true; b_acl := true; b_shutdown := false; b_serving := false |})]; k_default := [] |}
    (with_dial revoked_conn None [] true) = [lit "tcp connection"; lit "deny X509 [CN=x] to a.example (revoked)"; lit "cert is revoked"] /\
  turned_away (lit "cert is revoked").
Proof. split; [vm_compute; reflexivity|left; cbn; auto 20]. Qed.

(** A connection for an ACME challenge, to a backend that is not a passthrough backend, is not
    passed on and its address and certificate are not looked at: whatever else happens to it, the
    table says that it came, and at most that its certificate has no staple, that the handshake
    failed, and that the program panicked. *)
Theorem C97_challenge : forall uni k c sni b, t_over c = false -> t_hello c = Some (sni, [lit "acme-tls/1"]) -> sni <> [] ->
  find_backend k sni [lit "acme-tls/1"] = inr b -> b_mode b <> Passthrough ->
  forall m, List.In m (tcp_events uni k c) ->
  m = lit "tcp connection" \/ m = lit "ocsp staple error for " ++ uni sni \/ m = lit "tls handshake failed" \/ m = lit "panic".
Proof.
  intros uni k c sni b O H S F M m. unfold tcp_events. rewrite O, H.
  assert (E : str_eqb sni [] = false) by (destruct (str_eqb sni []) eqn:E; [apply str_eqb_spec in E; contradiction|reflexivity]).
  rewrite E. cbv zeta. cbv iota. rewrite F. change (str_eqb (lit "acme-tls/1") (lit "acme-tls/1")) with true. cbn [negb andb].
  assert (K : forall l, List.In m (lit "tcp connection" :: ([] ++ l) ++ (if t_panic c then [lit "panic"] else [])) ->
    (List.In m l -> m = lit "ocsp staple error for " ++ uni sni \/ m = lit "tls handshake failed") ->
    m = lit "tcp connection" \/ m = lit "ocsp staple error for " ++ uni sni \/ m = lit "tls handshake failed" \/ m = lit "panic").
  { intros l [<-|I] L; [auto|]. cbn [app] in I. apply in_app_or in I as [I|I]; [destruct (L I); auto|].
    destruct (t_panic c); [destruct I as [<-|[]]; auto|destruct I]. }
  assert (L : List.In m (staple_event uni sni (t_staple c) ++ (if t_early c then [lit "tls handshake failed"] else [])) ->
    m = lit "ocsp staple error for " ++ uni sni \/ m = lit "tls handshake failed").
  { intros I. apply in_app_or in I as [I|I].
    - unfold staple_event in I. destruct (t_staple c); [destruct I as [<-|[]]; auto|destruct I].
    - destruct (t_early c); [destruct I as [<-|[]]; auto|destruct I]. }
  destruct (b_mode b); [contradiction| | |]; intros I; exact (K _ I L).
Qed.
Print Assumptions C97_challenge.
Example C97_challenge_case :
  tcp_events (fun s => s) {| k_backends := [((lit "a.example", []), {| b_mode := TlsLike; b_auth := true; b_acl := true; b_shutdown := false; b_serving := false |})]; k_default := [] |}
    {| t_over := false; t_hello := Some (lit "a.example", [lit "acme-tls/1"]); t_ip := false; t_staple := true; t_no_cert := true; t_early := true; t_late := false;
       t_proto := []; t_cert := NoCert; t_moved := false; t_wait := Some (lit "x"); t_dial := [lit "y"]; t_dial_ok := false; t_panic := false |} =
    [lit "tcp connection"; lit "ocsp staple error for a.example"; lit "tls handshake failed"].
Proof. vm_compute. reflexivity. Qed.
