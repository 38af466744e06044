(** Proofs about the console. *)
From Verif Require Import Base ConsoleModel ConsoleSpec.
From Coq Require Import Permutation.
Open Scope list_scope.

(** ** Events *)
Lemma record_assoc : forall l e m,
  assoc m (record_all e l) =
  match assoc m e with
  | Some n => Some (n + times m l)
  | None => match times m l with 0 => None | k => Some k end
  end.
Proof.
  induction l as [|x l IH]; intros e m.
  - cbn. destruct (assoc m e); [f_equal; lia|reflexivity].
  - unfold record_all in *. cbn [fold_left]. rewrite IH. unfold times. cbn [count_occ]. unfold record_event.
    destruct (str_eq_dec x m) as [->|Ne].
    + rewrite assoc_set_eq. destruct (assoc m e); f_equal; lia.
    + rewrite assoc_set_neq by congruence. reflexivity.
Qed.

Lemma assoc_in : forall {A} (l : list (str * A)) k, (exists v, assoc k l = Some v) <-> In k (map fst l).
Proof.
  induction l as [|[k' v'] l IH]; intros k; cbn.
  - split; [intros [v H]; discriminate|tauto].
  - destruct (str_eqb k k') eqn:E.
    + apply str_eqb_spec in E. subst. split; eauto.
    + apply str_eqb_neq in E. rewrite IH. split; [tauto|intros [H|H]; [congruence|exact H]].
Qed.

Lemma assoc_set_keys : forall {A} k (v : A) l x, In x (map fst (assoc_set k v l)) <-> x = k \/ In x (map fst l).
Proof.
  intros A k v l x. rewrite <- !assoc_in. destruct (str_eq_dec x k) as [->|Ne].
  - rewrite assoc_set_eq. split; [now left|eauto].
  - rewrite assoc_set_neq by congruence. split; [tauto|]. intros [H|H]; [congruence|exact H].
Qed.

Lemma assoc_set_nodup : forall {A} k (v : A) l, NoDup (map fst l) -> NoDup (map fst (assoc_set k v l)).
Proof.
  intros A k v l H. unfold assoc_set, assoc_del. cbn. constructor.
  - intro I. apply in_map_iff in I as ([k' v'] & E & I). cbn in E. subst. apply filter_In in I as [_ I]. cbn in I.
    rewrite str_eqb_refl in I. discriminate.
  - clear v. induction l as [|[k' v'] l IH]; [constructor|]. cbn in *. inversion H; subst. destruct (negb _); cbn; [|auto].
    constructor; [|auto]. intro I. apply in_map_iff in I as ([k2 v2] & E & I). apply filter_In in I as [I _]. cbn in E. subst.
    apply H2. apply in_map_iff. exists (k', v2). auto.
Qed.

Lemma record_nodup : forall l e, NoDup (map fst e) -> NoDup (map fst (record_all e l)).
Proof.
  induction l as [|x l IH]; intros e H; [exact H|]. unfold record_all in *. cbn. apply IH. apply assoc_set_nodup. exact H.
Qed.

Lemma record_keys : forall l m, In m (map fst (record_all [] l)) <-> In m l.
Proof.
  intros l m. rewrite <- assoc_in, record_assoc. cbn. unfold times. rewrite (count_occ_In str_eq_dec).
  destruct (count_occ str_eq_dec l m); split; intros H; try lia; [destruct H; discriminate|eauto].
Qed.

Lemma insert_perm : forall s l, Permutation (s :: l) (insert_str s l).
Proof.
  intros s l. induction l as [|x l IH]; cbn; [reflexivity|]. destruct (str_leb s x); [reflexivity|].
  rewrite perm_swap. constructor. exact IH.
Qed.
Lemma sort_perm : forall l, Permutation l (sort_strs l).
Proof. induction l as [|x l IH]; cbn; [reflexivity|]. rewrite <- insert_perm. now constructor. Qed.

Lemma str_leb_total : forall a b, str_leb a b = false -> str_leb b a = true.
Proof.
  induction a as [|x a IH]; intros [|y b] H; cbn in *; try discriminate; [reflexivity|].
  destruct (N_of_ascii x <? N_of_ascii y)%N eqn:E1; [discriminate|].
  destruct (N_of_ascii y <? N_of_ascii x)%N eqn:E2; [reflexivity|]. auto.
Qed.

Fixpoint sorted (l : list str) : Prop :=
  match l with [] => True | x :: l' => (match l' with [] => True | y :: _ => str_leb x y = true end) /\ sorted l' end.
Lemma insert_sorted : forall s l, sorted l -> sorted (insert_str s l).
Proof.
  intros s l. induction l as [|x l IH]; cbn; [tauto|]. intros [H1 H2]. destruct (str_leb s x) eqn:E; cbn.
  - auto.
  - split; [|auto]. destruct l as [|y l]; cbn; [exact (str_leb_total _ _ E)|]. destruct (str_leb s y); [exact (str_leb_total _ _ E)|exact H1].
Qed.
Lemma sort_sorted : forall l, sorted (sort_strs l).
Proof. induction l as [|x l IH]; cbn; [exact Logic.I|]. now apply insert_sorted. Qed.

Lemma sort_increasing : forall l, NoDup l -> increasing (sort_strs l).
Proof.
  intros l H. assert (N : NoDup (sort_strs l)) by (exact (Permutation_NoDup (sort_perm l) H)).
  pose proof (sort_sorted l) as S. revert N S. generalize (sort_strs l). clear. intros l. induction l as [|x l IH]; cbn; [tauto|].
  intros N [S1 S2]. inversion N; subst. split; [|auto]. destruct l as [|y l]; [exact Logic.I|]. split; [exact S1|].
  intros ->. apply H1. now left.
Qed.

(** ** What anyone can cause *)
Lemma at_key_in : forall l n p b, at_key l n p = Some b -> In n (map (fun x => fst (fst x)) l).
Proof.
  induction l as [|[[n' p'] b'] l IH]; intros n p b; cbn; [discriminate|]. destruct (str_eqb n n') eqn:E; cbn.
  - apply str_eqb_spec in E. subst. now left.
  - intros H. right. eauto.
Qed.
Lemma find_in : forall k n ps b, find_backend k n ps = inr b -> In n (names_of k).
Proof.
  intros k n ps b. unfold find_backend, names_of.
  assert (F : forall ps b, first_key (k_backends k) n ps = Some b -> In n (map (fun x => fst (fst x)) (k_backends k))).
  { clear. induction ps as [|p ps IH]; cbn; [discriminate|]. intros b. destruct (at_key _ _ p) eqn:E; [|apply IH]. intros _. eapply at_key_in; eauto. }
  destruct (first_key _ _ ps) eqn:E; [intros _; eapply F; eauto|]. destruct (at_key _ _ []) eqn:E2; [|discriminate]. intros _. eapply at_key_in; eauto.
Qed.
Lemma find_err : forall k n ps e, find_backend k n ps = inl e -> In e fixed_events.
Proof.
  intros k n ps e. unfold find_backend. destruct (match first_key _ _ _ with Some b => Some b | None => _ end) as [b|].
  - destruct (b_shutdown b); [|discriminate]. intros [= <-]. cbv. tauto.
  - intros [= <-]. cbv. tauto.
Qed.

(** The texts that can be reported. *)
Definition vocab (uni : str -> str) (N lib : list str) (m : str) : Prop :=
  In m fixed_events \/ (exists n, In n N /\ In m (events_with uni n)) \/ In m lib.

Section Vocab.
  Context (uni : str -> str) (k : config) (N lib : list str) (HN : incl (names_of k) N).

  Lemma v_fixed : forall m, In m fixed_events -> vocab uni N lib m.
  Proof. intros; now left. Qed.
  Lemma v_name : forall n m, In n (names_of k) -> In m (events_with uni n) -> vocab uni N lib m.
  Proof. intros n m H1 H2. right. left. exists n. auto. Qed.
  Lemma v_err : forall n ps e, find_backend k n ps = inl e -> vocab uni N lib e.
  Proof. intros. apply v_fixed. eapply find_err; eauto. Qed.

  Ltac fx := apply v_fixed; unfold fixed_events; cbn [map In]; tauto.
  Ltac nm n H := apply (v_name n); [exact H|unfold events_with; cbn [In]; tauto].
  Definition all (l : list str) : Prop := forall m, In m l -> vocab uni N lib m.
  Lemma all_app l l' : all l -> all l' -> all (l ++ l').
  Proof. intros H H' m I. apply in_app_iff in I as [I|I]; auto. Qed.
  Lemma all_nil : all [].
  Proof. intros m []. Qed.
  Lemma all_one m : vocab uni N lib m -> all [m].
  Proof. intros H m' [<-|[]]. exact H. Qed.

  Lemma staple_all n b : In n (names_of k) -> all (staple_event uni n b).
  Proof. intros H. destruct b; [apply all_one; nm n H|apply all_nil]. Qed.

  Lemma verify_all n p evs v : verify_connection uni k n p NoCert = (evs, v) -> all evs.
  Proof.
    unfold verify_connection. destruct (find_backend k n [p]) as [e|b] eqn:E; [intros [= <- _]; apply all_nil|].
    destruct (negb (b_auth b)); intros [= <- _]; [apply all_nil|]. apply all_one. nm n (find_in _ _ _ _ E).
  Qed.

  Lemma authorize_all sni n b c evs ok : In n (names_of k) -> t_cert c = NoCert ->
    authorize_tls uni k sni n b c = (evs, ok) -> all evs.
  Proof.
    intros Hn Hc. unfold authorize_tls. cbv zeta. pose proof (staple_all n (t_staple c) Hn) as Hs. rewrite Hc.
    destruct (t_early c); [intros [= <- _]; apply all_app; [exact Hs|apply all_one; fx]|].
    destruct (t_no_cert c); [intros [= <- _]; apply all_app; [exact Hs|apply all_one; nm n Hn]|].
    destruct (if b_auth b then _ else _) as [ev v] eqn:E.
    assert (He : all ev).
    { destruct (b_auth b); [exact (verify_all _ _ _ _ E)|]. injection E as <- _. apply all_nil. }
    destruct v; repeat match goal with |- context [if ?b then _ else _] => destruct b end; intros [= <- _];
      repeat (apply all_app); try exact Hs; try exact He; try (apply all_one; fx).
  Qed.

  Lemma wait_dial_all c : incl (foreign (Tcp c)) lib -> all (wait_and_dial c).
  Proof.
    intros Hl. unfold wait_and_dial. cbn in Hl. destruct (t_wait c).
    - apply all_one. right. right. apply Hl. apply in_app_iff. right. now left.
    - apply all_app; [|destruct (t_dial_ok c); [apply all_nil|apply all_one; fx]].
      intros m I. right. right. apply Hl. apply in_app_iff. now left.
  Qed.
  Lemma hand_over_all b c : incl (foreign (Tcp c)) lib -> all (wait_and_hand_over b c).
  Proof.
    intros Hl. unfold wait_and_hand_over. cbn in Hl. destruct (t_wait c).
    - apply all_one. right. right. apply Hl. apply in_app_iff. right. now left.
    - destruct (b_serving b); [apply all_nil|apply all_one; fx].
  Qed.

  Lemma cons_all m l : vocab uni N lib m -> all l -> all (m :: l).
  Proof. intros H H' x [<-|I]; auto. Qed.

  Lemma tcp_all c : t_cert c = NoCert -> incl (foreign (Tcp c)) lib -> all (tcp_events uni k c).
  Proof.
    intros Hc Hl. unfold tcp_events. apply cons_all; [fx|]. apply all_app; [|destruct (t_panic c); [apply all_one; fx|apply all_nil]].
    destruct (t_over c); [apply all_one; fx|]. destruct (t_hello c) as [[sni protos]|]; [|apply all_one; fx].
    cbv zeta. apply all_app; [destruct (str_eqb sni []); [apply all_one; fx|apply all_nil]|].
    set (name := if str_eqb sni [] then k_default k else sni).
    destruct (find_backend k name protos) as [e|b] eqn:E; [apply all_one; exact (v_err _ _ _ E)|].
    pose proof (find_in _ _ _ _ E) as Hn.
    assert (Hip : all [check_ip_event (uni name)]) by (apply all_one; nm name Hn).
    destruct (b_mode b).
    { destruct (t_ip c); [exact (wait_dial_all c Hl)|exact Hip]. }
    all: destruct (_ && negb _); [apply all_app; [exact (staple_all _ _ Hn)|destruct (t_early c); [apply all_one; fx|apply all_nil]]|].
    3: apply all_nil.
    all: destruct (negb (t_ip c)); [exact Hip|];
      destruct (authorize_tls uni k sni name b c) as [evs ok] eqn:EA; apply all_app; [exact (authorize_all _ _ _ _ _ _ Hn Hc EA)|];
      destruct ok; [|apply all_nil]; [exact (hand_over_all b c Hl) || exact (wait_dial_all c Hl)].
  Qed.

  Lemma quic_all c : q_cert c = NoCert -> incl (foreign (Quic c)) lib -> all (quic_events uni k c).
  Proof.
    intros Hc Hl. unfold quic_events. destruct (find_backend k (q_name c) [q_proto c]) as [e|b] eqn:E; [apply all_nil|].
    pose proof (find_in _ _ _ _ E) as Hn. apply all_app; [exact (staple_all _ _ Hn)|]. destruct (q_early c); [apply all_nil|].
    destruct (if b_auth b then _ else _) as [ev v] eqn:Ev. rewrite Hc in Ev. apply all_app.
    { destruct (b_auth b); [exact (verify_all _ _ _ _ Ev)|]. injection Ev as <- _. apply all_nil. }
    destruct v; try apply all_nil. destruct (q_late c); [apply all_nil|]. apply cons_all; [fx|].
    apply all_app; [|destruct (q_panic c); [apply all_one; fx|apply all_nil]].
    destruct (q_over c); [apply all_one; fx|]. destruct (negb (q_ip c)); [apply all_one; nm (q_name c) Hn|].
    cbn in Hl. destruct (q_wait c).
    - apply all_one. right. right. apply Hl. apply in_app_iff. right. now left.
    - apply all_app; [intros m I; right; right; apply Hl; apply in_app_iff; now left|].
      apply all_app; intros m I; apply repeat_spec in I; subst; fx.
  Qed.

  Lemma events_all h : anonymous h -> incl (foreign h) lib -> all (events_of uni k h).
  Proof.
    destruct h as [c|c|u ho ok| |n p ip al|kind]; cbn [anonymous events_of]; intros A Hl.
    - exact (tcp_all c A Hl).
    - exact (quic_all c A Hl).
    - destruct A.
    - apply all_one. fx.
    - destruct (find_backend k n [p]) as [e|b] eqn:E; [apply all_one; exact (v_err _ _ _ E)|].
      destruct (negb ip); [apply all_one; nm n (find_in _ _ _ _ E)|]. destruct (_ && _); [apply all_one; fx|apply all_nil].
    - apply all_one. right. right. apply Hl. now left.
  Qed.
End Vocab.

Lemma keys_bound : forall uni N lib hist,
  (forall k h, In (k, h) hist -> anonymous h /\ incl (names_of k) N /\ incl (foreign h) lib) ->
  forall m, In m (map fst (events_after uni hist)) -> vocab uni N lib m.
Proof.
  intros uni N lib hist H m I. unfold events_after in I. apply (proj1 (record_keys _ _)) in I. apply in_flat_map in I as ([k h] & I1 & I2).
  destruct (H k h I1) as (A & B & C). exact (events_all uni k N lib B h A C m I2).
Qed.

Lemma keys_count : forall uni N lib hist,
  (forall k h, In (k, h) hist -> anonymous h /\ incl (names_of k) N /\ incl (foreign h) lib) ->
  List.length (events_after uni hist) <= 16 + 4 * List.length N + List.length lib.
Proof.
  intros uni N lib hist H. pose proof (keys_bound uni N lib hist H) as K.
  assert (ND : NoDup (map fst (events_after uni hist))) by (apply record_nodup; constructor).
  assert (L : List.length (fixed_events ++ flat_map (events_with uni) N ++ lib) = 16 + 4 * List.length N + List.length lib).
  { rewrite !app_length. change (List.length fixed_events) with 16.
    assert (X : forall l, List.length (flat_map (events_with uni) l) = 4 * List.length l).
    { induction l as [|x l IH]; [reflexivity|]. cbn [flat_map List.length]. rewrite app_length, IH. cbn [List.length events_with]. lia. }
    rewrite X. lia. }
  rewrite <- L, <- (map_length fst). apply NoDup_incl_length; [exact ND|]. intros m I. apply in_app_iff.
  destruct (K m I) as [X|[(n & X & Y)|X]]; [now left|right; apply in_app_iff; left; apply in_flat_map; eauto|right; apply in_app_iff; now right].
Qed.

(** ** The number of connections *)
Lemma times_app : forall m a b, times m (a ++ b) = times m a + times m b.
Proof. intros. unfold times. apply count_occ_app. Qed.
Lemma times_not : forall m l, ~ In m l -> times m l = 0.
Proof. intros. unfold times. now apply count_occ_not_In. Qed.
Lemma times_one_not : forall m x, x <> m -> times m [x] = 0.
Proof. intros. apply times_not. intros [->|[]]. congruence. Qed.

Definition TC : str := lit "tcp connection".
Definition none (l : list str) : Prop := Forall (fun m => m <> TC) l.
Lemma none_times l : none l -> times TC l = 0.
Proof. intros H. apply times_not. intros I. exact (proj1 (Forall_forall _ _) H TC I eq_refl). Qed.
Lemma none_app l l' : none l -> none l' -> none (l ++ l').
Proof. intros. apply Forall_app. now split. Qed.
Ltac ne := let X := fresh in intros X; first [discriminate X|apply (f_equal (@List.length ascii)) in X; unfold check_ip_event in X; rewrite !app_length in X; cbn in X; lia].
Ltac one := constructor; [ne|constructor].

Lemma none_staple uni n b : none (staple_event uni n b).
Proof. destruct b; [one|constructor]. Qed.
Lemma none_verify uni k n p c : none (fst (verify_connection uni k n p c)).
Proof.
  unfold verify_connection. destruct (find_backend k n [p]); [constructor|]. destruct (negb _); [constructor|].
  destruct c as [|sum r o a]; [one|]. destruct r; [one|]. destruct o; [one|]. destruct (negb a); [one|]. cbn [fst].
  destruct (str_eqb sum []); [constructor|one].
Qed.
Lemma none_authorize uni k sni n b c : none (fst (authorize_tls uni k sni n b c)).
Proof.
  unfold authorize_tls. cbv zeta. pose proof (none_staple uni n (t_staple c)) as Hs.
  destruct (t_early c); [apply none_app; [exact Hs|one]|]. destruct (t_no_cert c); [apply none_app; [exact Hs|one]|].
  destruct (if b_auth b then _ else _) as [ev v] eqn:E.
  assert (He : none ev).
  { destruct (b_auth b); [|injection E as <- _; constructor]. pose proof (none_verify uni k sni (t_proto c) (t_cert c)) as X. rewrite E in X. exact X. }
  destruct v; repeat match goal with |- context [if ?b then _ else _] => destruct b end; cbn [fst];
    repeat apply none_app; try exact Hs; try exact He; try one.
Qed.
Lemma none_err k n ps e : find_backend k n ps = inl e -> e <> TC.
Proof.
  unfold find_backend. destruct (match first_key _ _ _ with Some b => Some b | None => _ end) as [b|]; [destruct (b_shutdown b); [|discriminate]|];
    intros [= <-]; discriminate.
Qed.
Lemma none_foreign l : ~ In TC l -> none l.
Proof. intros H. apply Forall_forall. intros x I ->. contradiction. Qed.
Lemma none_repeat m n : m <> TC -> none (repeat m n).
Proof. intros H. apply Forall_forall. intros x I. apply repeat_spec in I. congruence. Qed.

Lemma none_wait_dial c : ~ In TC (foreign (Tcp c)) -> none (wait_and_dial c).
Proof.
  intros H. cbn in H. rewrite in_app_iff in H. unfold wait_and_dial. destruct (t_wait c).
  - apply none_foreign. tauto.
  - apply none_app; [apply none_foreign; tauto|]. destruct (t_dial_ok c); [constructor|one].
Qed.
Lemma none_hand_over b c : ~ In TC (foreign (Tcp c)) -> none (wait_and_hand_over b c).
Proof.
  intros H. cbn in H. rewrite in_app_iff in H. unfold wait_and_hand_over. destruct (t_wait c).
  - apply none_foreign. tauto.
  - destruct (b_serving b); [constructor|one].
Qed.

Lemma tcp_once uni k c : ~ In TC (foreign (Tcp c)) -> times TC (tcp_events uni k c) = 1.
Proof.
  intros H. unfold tcp_events. unfold times. cbn [count_occ]. destruct (str_eq_dec (lit "tcp connection") TC) as [_|X]; [f_equal|destruct (X eq_refl)].
  apply none_times. apply none_app; [|destruct (t_panic c); [one|constructor]].
  destruct (t_over c); [one|]. destruct (t_hello c) as [[sni protos]|]; [|one]. cbv zeta.
  apply none_app; [destruct (str_eqb sni []); [one|constructor]|].
  set (name := if str_eqb sni [] then k_default k else sni).
  destruct (find_backend k name protos) as [e|b] eqn:E; [constructor; [exact (none_err _ _ _ _ E)|constructor]|].
  destruct (b_mode b).
  { destruct (t_ip c); [exact (none_wait_dial c H)|one]. }
  all: destruct (_ && negb _); [apply none_app; [apply none_staple|destruct (t_early c); [one|constructor]]|].
  3: constructor.
  all: destruct (negb (t_ip c)); [one|];
    pose proof (none_authorize uni k sni name b c) as HA; destruct (authorize_tls uni k sni name b c) as [evs ok];
    apply none_app; [exact HA|]; destruct ok; [|constructor]; [exact (none_hand_over b c H) || exact (none_wait_dial c H)].
Qed.

Lemma quic_none uni k c : ~ In TC (foreign (Quic c)) -> none (quic_events uni k c).
Proof.
  intros H. cbn in H. rewrite in_app_iff in H. unfold quic_events. destruct (find_backend k (q_name c) [q_proto c]) as [e|b]; [constructor|].
  apply none_app; [apply none_staple|]. destruct (q_early c); [constructor|]. destruct (if b_auth b then _ else _) as [ev v] eqn:Ev. apply none_app.
  { destruct (b_auth b); [|injection Ev as <- _; constructor]. pose proof (none_verify uni k (q_name c) (q_proto c) (q_cert c)) as X. rewrite Ev in X. exact X. }
  destruct v; try constructor. destruct (q_late c); [constructor|]. constructor; [ne|].
  apply none_app; [|destruct (q_panic c); [one|constructor]]. destruct (q_over c); [one|]. destruct (negb (q_ip c)); [one|].
  destruct (q_wait c); [apply none_foreign; tauto|].
  apply none_app; [apply none_foreign; tauto|]. apply none_app; apply none_repeat; discriminate.
Qed.

Lemma tcp_counted uni hist : (forall k h, In (k, h) hist -> ~ In TC (foreign h)) ->
  times TC (flat_map (fun x => events_of uni (fst x) (snd x)) hist) = List.length (filter (fun x => is_tcp (snd x)) hist).
Proof.
  induction hist as [|[k h] hist IH]; intros H; [reflexivity|]. cbn [flat_map filter fst snd]. rewrite times_app.
  rewrite IH by (intros k' h' I; apply (H k' h'); now right). specialize (H k h (or_introl eq_refl)).
  destruct h as [c|c|u ho ok| |n p ip al|kind]; cbn [is_tcp events_of].
  - rewrite tcp_once by exact H. reflexivity.
  - rewrite none_times by (apply quic_none; exact H). reflexivity.
  - rewrite none_times; [reflexivity|]. unfold sso_event. destruct ok; one.
  - reflexivity.
  - rewrite none_times; [reflexivity|]. destruct (find_backend k n [p]) as [e|b] eqn:E; [constructor; [exact (none_err _ _ _ _ E)|constructor]|].
    destruct (negb ip); [one|]. destruct (_ && _); [one|constructor].
  - rewrite none_times; [reflexivity|]. one.
Qed.

(** ** The counters *)
Lemma upd_length : forall {A} (f : A -> A) i l, List.length (upd f i l) = List.length l.
Proof. induction i as [|i IH]; intros [|x l]; cbn; auto. Qed.
Lemma upd_nth : forall {A} (f : A -> A) i l j, nth_error (upd f i l) j = if i =? j then option_map f (nth_error l j) else nth_error l j.
Proof.
  induction i as [|i IH]; intros [|x l] [|j]; cbn; try reflexivity.
  - destruct (i =? j); reflexivity.
  - apply IH.
Qed.

(** How much a list of connections adds. *)
Definition tally (l : list conn) (n : str) : row :=
  let l' := filter (fun c => attached c && str_eqb (c_name c) n) l in
  {| r_conns := List.length l'; r_sent := sum (map c_sent l'); r_recv := sum (map c_recv l') |}.
Definition plus_row (a b : row) : row :=
  {| r_conns := r_conns a + r_conns b; r_sent := r_sent a + r_sent b; r_recv := r_recv a + r_recv b |}.
Definition zero_row : row := {| r_conns := 0; r_sent := 0; r_recv := 0 |}.
Definition single (c : conn) (n : str) : row :=
  if attached c && str_eqb (c_name c) n then {| r_conns := 1; r_sent := c_sent c; r_recv := c_recv c |} else zero_row.

Lemma row_ext a b : r_conns a = r_conns b -> r_sent a = r_sent b -> r_recv a = r_recv b -> a = b.
Proof. destruct a, b; cbn; congruence. Qed.
Lemma tally_cons c l n : tally (c :: l) n = plus_row (single c n) (tally l n).
Proof.
  unfold tally, single, plus_row, zero_row. cbn [filter]. destruct (attached c && str_eqb (c_name c) n); apply row_ext; cbn; reflexivity.
Qed.
Lemma plus_assoc a b c : plus_row a (plus_row b c) = plus_row (plus_row a b) c.
Proof. apply row_ext; cbn; lia. Qed.
Lemma tally_app l l' n : tally (l ++ l') n = plus_row (tally l n) (tally l' n).
Proof.
  induction l as [|c l IH]; cbn [app]; [apply row_ext; reflexivity|]. rewrite !tally_cons, IH, plus_assoc. reflexivity.
Qed.

(** A connection is replaced. *)
Lemma tally_upd f i l c n : nth_error l i = Some c ->
  plus_row (tally (upd f i l) n) (single c n) = plus_row (tally l n) (single (f c) n).
Proof.
  revert i. induction l as [|x l IH]; intros [|i] H; cbn in H; try discriminate.
  - injection H as ->. cbn [upd]. rewrite !tally_cons. apply row_ext; cbn; lia.
  - cbn [upd]. rewrite !tally_cons. specialize (IH i H). pose proof (f_equal r_conns IH) as A. pose proof (f_equal r_sent IH) as B. pose proof (f_equal r_recv IH) as C.
    cbn in A, B, C. apply row_ext; cbn; lia.
Qed.

Record ok (s : state) : Prop := {
  ok_nodup : NoDup (map fst (s_metrics s));
  ok_inj : forall n n' r, assoc n (s_metrics s) = Some r -> assoc n' (s_metrics s) = Some r -> n = n';
  ok_row : forall n r, assoc n (s_metrics s) = Some r -> nth_error (s_rows s) r = Some (tally (s_conns s) n);
  ok_none : forall n, assoc n (s_metrics s) = None -> tally (s_conns s) n = zero_row;
  ok_att : forall c r, In c (s_conns s) -> c_place c = Attached r -> assoc (c_name c) (s_metrics s) = Some r;
  ok_begin : forall c, In c (s_conns s) -> attached c = false -> c_sent c = 0 /\ c_recv c = 0
}.

Lemma upd_in {A} (f : A -> A) i l c x : nth_error l i = Some c -> In x (upd f i l) -> x = f c \/ In x l.
Proof.
  revert i. induction l as [|y l IH]; intros [|i] H; cbn in *; try discriminate.
  - injection H as ->. intros [<-|I]; auto.
  - intros [<-|I]; auto. destruct (IH i H I); auto.
Qed.
Lemma single_other c n : c_name c <> n -> single c n = zero_row.
Proof. intros H. unfold single. apply str_eqb_neq in H. rewrite H, andb_false_r. reflexivity. Qed.
Lemma single_not c n : attached c = false -> single c n = zero_row.
Proof. intros H. unfold single. rewrite H. reflexivity. Qed.
Lemma single_self c : attached c = true -> single c (c_name c) = {| r_conns := 1; r_sent := c_sent c; r_recv := c_recv c |}.
Proof. intros H. unfold single. rewrite H, str_eqb_refl. reflexivity. Qed.
Lemma single_is c n : attached c = true -> c_name c = n -> single c n = {| r_conns := 1; r_sent := c_sent c; r_recv := c_recv c |}.
Proof. intros H <-. exact (single_self c H). Qed.
Lemma plus_zero a : plus_row a zero_row = a.
Proof. apply row_ext; cbn; lia. Qed.
Lemma plus_cancel a b c : plus_row a c = plus_row b c -> a = b.
Proof. intros H. pose proof (f_equal r_conns H) as A. pose proof (f_equal r_sent H) as B. pose proof (f_equal r_recv H) as C. cbn in *. apply row_ext; lia. Qed.

(** The tally after a connection has been replaced. *)
Lemma tally_upd_other f i l c n : nth_error l i = Some c -> c_name (f c) = c_name c -> c_name c <> n -> tally (upd f i l) n = tally l n.
Proof.
  intros H F N. pose proof (tally_upd f i l c n H) as T. rewrite !single_other, !plus_zero in T by congruence. exact T.
Qed.

(** A row is changed together with a connection of its name. *)
Lemma ok_change s i c f g r : ok s -> nth_error (s_conns s) i = Some c -> assoc (c_name c) (s_metrics s) = Some r ->
  c_name (f c) = c_name c -> c_place (f c) = Attached r ->
  plus_row (g (tally (s_conns s) (c_name c))) (single c (c_name c)) = plus_row (tally (s_conns s) (c_name c)) (single (f c) (c_name c)) ->
  ok {| s_metrics := s_metrics s; s_rows := upd g r (s_rows s); s_conns := upd f i (s_conns s) |}.
Proof.
  intros O H A Fn Fp G. constructor; cbn [s_metrics s_rows s_conns].
  - apply O.
  - apply O.
  - intros n r' A'. rewrite upd_nth. destruct (str_eq_dec (c_name c) n) as [<-|Ne].
    + assert (r' = r) by congruence. subst. rewrite Nat.eqb_refl, (ok_row s O _ _ A). cbn [option_map]. f_equal.
      pose proof (tally_upd f i (s_conns s) c (c_name c) H) as T. rewrite <- G in T. symmetry. exact (plus_cancel _ _ _ T).
    + destruct (r =? r') eqn:E; [apply Nat.eqb_eq in E; subst; destruct Ne; exact (ok_inj s O _ _ _ A A')|].
      rewrite (tally_upd_other f i _ c n H Fn Ne). exact (ok_row s O _ _ A').
  - intros n A'. assert (Ne : c_name c <> n) by congruence. rewrite (tally_upd_other f i _ c n H Fn Ne). exact (ok_none s O _ A').
  - intros x r' I P. destruct (upd_in f i _ c x H I) as [->|I']; [|exact (ok_att s O _ _ I' P)]. rewrite Fn. congruence.
  - intros x I P. destruct (upd_in f i _ c x H I) as [->|I']; [unfold attached in P; rewrite Fp in P; discriminate|exact (ok_begin s O _ I' P)].
Qed.

Lemma ok_act s a : ok s -> ok (act s a).
Proof.
  intros O. destruct a as [n|i|i|i m|i m]; cbn [act].
  - constructor; cbn [s_metrics s_rows s_conns]; try apply O.
    + intros n' r A. rewrite tally_app, tally_cons, single_not by reflexivity. rewrite (ok_row s O _ _ A). f_equal. apply row_ext; cbn; lia.
    + intros n' A. rewrite tally_app, tally_cons, single_not by reflexivity. rewrite (ok_none s O _ A). reflexivity.
    + intros c r I P. apply in_app_iff in I as [I|[<-|[]]]; [exact (ok_att s O _ _ I P)|discriminate].
    + intros c I P. apply in_app_iff in I as [I|[<-|[]]]; [exact (ok_begin s O _ I P)|auto].
  - destruct (nth_error (s_conns s) i) as [c|] eqn:H; [|exact O]. pose proof (nth_error_In _ _ H) as I.
    destruct (c_place c) eqn:P; try exact O. assert (NA : attached c = false) by (unfold attached; rewrite P; reflexivity).
    destruct (ok_begin s O c I NA) as [Z1 Z2]. destruct (assoc (c_name c) (s_metrics s)) as [r|] eqn:A.
    + apply (ok_change s i c _ _ r O H A); [reflexivity|reflexivity|].
      rewrite (single_not c) by exact NA. rewrite (single_is (move (Attached r) c)) by reflexivity.
      apply row_ext; cbn; lia.
    + assert (T : forall n, tally (upd (move Between) i (s_conns s)) n = tally (s_conns s) n).
      { intros n. pose proof (tally_upd (move Between) i _ c n H) as T. rewrite (single_not c n NA), (single_not (move Between c) n eq_refl), !plus_zero in T. exact T. }
      constructor; cbn [s_metrics s_rows s_conns]; try apply O.
      * intros n r' A'. rewrite T. exact (ok_row s O _ _ A').
      * intros n A'. rewrite T. exact (ok_none s O _ A').
      * intros x r' I' P'. destruct (upd_in _ i _ c x H I') as [->|I2]; [discriminate|exact (ok_att s O _ _ I2 P')].
      * intros x I' P'. destruct (upd_in _ i _ c x H I') as [->|I2]; [cbn; auto|exact (ok_begin s O _ I2 P')].
  - destruct (nth_error (s_conns s) i) as [c|] eqn:H; [|exact O]. pose proof (nth_error_In _ _ H) as I.
    destruct (c_place c) eqn:P; try exact O. assert (NA : attached c = false) by (unfold attached; rewrite P; reflexivity).
    destruct (ok_begin s O c I NA) as [Z1 Z2]. destruct (assoc (c_name c) (s_metrics s)) as [r|] eqn:A.
    + apply (ok_change s i c _ _ r O H A); [reflexivity|reflexivity|].
      rewrite (single_not c) by exact NA. rewrite (single_is (move (Attached r) c)) by reflexivity.
      apply row_ext; cbn; lia.
    + cbv zeta. set (r := List.length (s_rows s)). set (f := move (Attached r)).
      assert (Old : forall n r', assoc n (s_metrics s) = Some r' -> r' < r).
      { intros n r' A'. apply nth_error_Some. rewrite (ok_row s O _ _ A'). discriminate. }
      constructor; cbn [s_metrics s_rows s_conns].
      * apply assoc_set_nodup. apply O.
      * intros n n' r' A1 A2. destruct (str_eq_dec n (c_name c)) as [->|N1]; destruct (str_eq_dec n' (c_name c)) as [->|N2]; auto.
        -- rewrite assoc_set_eq in A1. rewrite assoc_set_neq in A2 by congruence. apply Old in A2. injection A1 as <-. lia.
        -- rewrite assoc_set_eq in A2. rewrite assoc_set_neq in A1 by congruence. apply Old in A1. injection A2 as <-. lia.
        -- rewrite assoc_set_neq in A1, A2 by congruence. exact (ok_inj s O _ _ _ A1 A2).
      * intros n r' A1. destruct (str_eq_dec n (c_name c)) as [->|N1].
        -- rewrite assoc_set_eq in A1. injection A1 as <-. unfold r. rewrite nth_error_app2, Nat.sub_diag by lia. cbn [nth_error]. f_equal.
           pose proof (tally_upd f i _ c (c_name c) H) as T. rewrite (single_not c _ NA), plus_zero, (ok_none s O _ A) in T.
           rewrite (single_is (f c) (c_name c)) in T by reflexivity. rewrite T. apply row_ext; cbn; lia.
        -- rewrite assoc_set_neq in A1 by congruence. rewrite nth_error_app1 by (eapply Old; eauto).
           rewrite (tally_upd_other f i _ c n H eq_refl) by congruence. exact (ok_row s O _ _ A1).
      * intros n A1. destruct (str_eq_dec n (c_name c)) as [->|N1]; [rewrite assoc_set_eq in A1; discriminate|].
        rewrite assoc_set_neq in A1 by congruence. rewrite (tally_upd_other f i _ c n H eq_refl) by congruence. exact (ok_none s O _ A1).
      * intros x r' I' P'. destruct (upd_in f i _ c x H I') as [->|I2].
        -- cbn in P'. injection P' as <-. cbn [c_name f move]. apply assoc_set_eq.
        -- pose proof (ok_att s O _ _ I2 P') as A2. destruct (str_eq_dec (c_name x) (c_name c)) as [E|N1]; [rewrite E in A2; congruence|].
           rewrite assoc_set_neq by congruence. exact A2.
      * intros x I' P'. destruct (upd_in f i _ c x H I') as [->|I2]; [discriminate|exact (ok_begin s O _ I2 P')].
  - destruct (nth_error (s_conns s) i) as [c|] eqn:H; [|exact O]. pose proof (nth_error_In _ _ H) as I.
    destruct (c_place c) as [| |r] eqn:P; try exact O. pose proof (ok_att s O c r I P) as A.
    apply (ok_change s i c _ _ r O H A); [reflexivity|cbn; exact P|].
    assert (Af : attached c = true) by (unfold attached; rewrite P; reflexivity).
    rewrite (single_self c Af). rewrite single_is by (exact Af || reflexivity). apply row_ext; cbn; lia.
  - destruct (nth_error (s_conns s) i) as [c|] eqn:H; [|exact O]. pose proof (nth_error_In _ _ H) as I.
    destruct (c_place c) as [| |r] eqn:P; try exact O. pose proof (ok_att s O c r I P) as A.
    apply (ok_change s i c _ _ r O H A); [reflexivity|cbn; exact P|].
    assert (Af : attached c = true) by (unfold attached; rewrite P; reflexivity).
    rewrite (single_self c Af). rewrite single_is by (exact Af || reflexivity). apply row_ext; cbn; lia.
Qed.

Lemma ok_acts l : ok (acts l).
Proof.
  unfold acts. assert (G : forall s, ok s -> ok (fold_left act l s)).
  { induction l as [|a l IH]; intros s O; [exact O|]. cbn. apply IH. now apply ok_act. }
  apply G. constructor; cbn; try discriminate; try tauto; try reflexivity; constructor.
Qed.

(** ** The rows of server names *)
Lemma totals_assoc uni s : NoDup (map fst (s_metrics s)) ->
  (forall n n', In n (map fst (s_metrics s)) -> In n' (map fst (s_metrics s)) -> uni n = uni n' -> n = n') ->
  forall u, assoc u (totals uni s) =
    match find (fun kv => str_eqb (uni (fst kv)) u) (s_metrics s) with
    | Some kv => Some (nth (snd kv) (s_rows s) zero_row)
    | None => None
    end.
Proof.
  intros ND Inj u. unfold totals. fold zero_row.
  assert (G : forall l t, NoDup (map fst l) ->
    (forall n n', In n (map fst l) -> In n' (map fst l) -> uni n = uni n' -> n = n') ->
    assoc u (fold_left (fun t kv => assoc_set (uni (fst kv)) (nth (snd kv) (s_rows s) zero_row) t) l t) =
    match find (fun kv => str_eqb (uni (fst kv)) u) l with
    | Some kv => Some (nth (snd kv) (s_rows s) zero_row)
    | None => assoc u t
    end).
  { clear ND Inj. induction l as [|[k r] l IH]; intros t ND Inj; [reflexivity|]. cbn [fold_left fst snd find map] in *. inversion ND; subst.
    rewrite IH; [|assumption|intros n n' I I'; apply Inj; now right].
    destruct (str_eqb (uni k) u) eqn:E.
    - apply str_eqb_spec in E. subst u. destruct (find _ l) as [[k' r']|] eqn:F; [|apply assoc_set_eq].
      apply find_some in F as [F1 F2]. cbn in F2. apply str_eqb_spec in F2. destruct H1.
      assert (k' = k) as <- by (apply Inj; [right; apply in_map_iff; exists (k', r'); auto|now left|exact F2]).
      apply in_map_iff. exists (k', r'). auto.
    - apply str_eqb_neq in E. destruct (find _ l) as [[k' r']|]; [reflexivity|]. rewrite assoc_set_neq by congruence. reflexivity. }
  rewrite G by assumption. destruct (find _ _); reflexivity.
Qed.

Lemma totals_nodup uni s : NoDup (map fst (totals uni s)).
Proof.
  unfold totals. assert (G : forall l t, NoDup (map fst t) -> NoDup (map fst (fold_left
    (fun t kv => assoc_set (uni (fst kv)) (nth (snd kv) (s_rows s) {| r_conns := 0; r_sent := 0; r_recv := 0 |}) t) l t))).
  { induction l as [|x l IH]; intros t H; [exact H|]. cbn. apply IH. now apply assoc_set_nodup. }
  apply G. constructor.
Qed.

(** ** The configuration *)
Lemma upd_app {A} (f : A -> A) i l l' : List.length l <= i -> upd f i (l ++ l') = l ++ upd f (i - List.length l) l'.
Proof.
  revert i. induction l as [|x l IH]; intros i H; cbn in *; [rewrite Nat.sub_0_r; reflexivity|].
  destruct i as [|i]; [lia|]. cbn. rewrite IH by lia. reflexivity.
Qed.
Lemma fold_upd_seq {A} (f : A -> A) l l' : fold_left (fun h p => upd f p h) (seq (List.length l) (List.length l')) (l ++ l') = l ++ map f l'.
Proof.
  revert l. induction l' as [|x l' IH]; intros l; cbn; [reflexivity|].
  rewrite upd_app, Nat.sub_diag by lia. cbn [upd]. change (l ++ f x :: l') with (l ++ [f x] ++ l'). rewrite app_assoc.
  replace (Datatypes.S (List.length l)) with (List.length (l ++ [f x])) by (rewrite app_length; cbn; lia). rewrite IH, <- app_assoc. reflexivity.
Qed.
Lemma map_nth_seq {A} (d : A) l l' l'' : map (fun p => nth p (l ++ l' ++ l'') d) (seq (List.length l) (List.length l')) = l'.
Proof.
  revert l. induction l' as [|x l' IH]; intros l; [reflexivity|]. cbn [List.length seq map]. f_equal.
  - rewrite app_nth2, Nat.sub_diag by lia. reflexivity.
  - change (l ++ (x :: l') ++ l'') with (l ++ [x] ++ (l' ++ l'')). rewrite app_assoc.
    replace (Datatypes.S (List.length l)) with (List.length (l ++ [x])) by (rewrite app_length; cbn; lia). apply IH.
Qed.

(** Only new objects are added. *)
Definition extends (h h' : heap) : Prop :=
  exists a b c, h_oidc h' = h_oidc h ++ a /\ h_client h' = h_client h ++ b /\ h_be h' = h_be h ++ c.
Lemma extends_refl h : extends h h.
Proof. exists [], [], []. rewrite !app_nil_r. auto. Qed.
Lemma extends_trans h1 h2 h3 : extends h1 h2 -> extends h2 h3 -> extends h1 h3.
Proof.
  intros (a & b & c & E1 & E2 & E3) (a' & b' & c' & F1 & F2 & F3). exists (a ++ a'), (b ++ b'), (c ++ c').
  rewrite F1, F2, F3, E1, E2, E3, !app_assoc. auto.
Qed.
Lemma marshal_be_extends h h' p : extends h h' -> p < List.length (h_be h) ->
  (forall l, e_clients (nth p (h_be h) no_be) = Some l -> Forall (fun q => q < List.length (h_client h)) l) ->
  marshal_be h' p = marshal_be h p.
Proof.
  intros (a & b & c & _ & E2 & E3) Hp Hc. unfold marshal_be. cbv zeta. rewrite E3, app_nth1 by exact Hp. f_equal.
  destruct (e_clients _) as [l|] eqn:E; [|reflexivity]. cbn. f_equal. specialize (Hc l eq_refl). apply map_ext_in. intros q I.
  rewrite E2. apply app_nth1. exact (proj1 (Forall_forall _ _) Hc q I).
Qed.
Lemma marshal_extends h h' c : extends h h' -> valid h c -> marshal h' c = marshal h c.
Proof.
  intros E [V1 V2]. pose proof E as (a & b & d & E1 & _). unfold marshal. f_equal.
  - apply map_ext_in. intros p I. rewrite E1. apply app_nth1. exact (proj1 (Forall_forall _ _) V1 p I).
  - apply map_ext_in. intros p I. destruct (proj1 (Forall_forall _ _) V2 p I). now apply marshal_be_extends.
Qed.
Lemma valid_extends h h' c : extends h h' -> valid h c -> valid h' c.
Proof.
  intros (a & b & d & E1 & E2 & E3) [V1 V2]. split.
  - rewrite E1, app_length. eapply Forall_impl; [|exact V1]. cbn. intros; lia.
  - rewrite E2, E3, !app_length. eapply Forall_impl; [|exact V2]. cbn. intros p [P1 P2]. split; [lia|]. rewrite app_nth1 by exact P1.
    intros l El. eapply Forall_impl; [|exact (P2 l El)]. cbn. intros; lia.
Qed.

(** The clone of the backends: where the objects are. *)
Fixpoint bes_layout (n : nat) (l : list btree) : list beobj :=
  match l with
  | [] => []
  | t :: l' =>
      let k := match v_clients t with Some cs => List.length cs | None => 0 end in
      {| e_rest := v_rest t; e_headers := v_headers t; e_clients := option_map (fun cs => seq n (List.length cs)) (v_clients t) |}
      :: bes_layout (n + k) l'
  end.
Definition clients_of (t : btree) : list client := match v_clients t with Some l => l | None => [] end.

Lemma unmarshal_bes_spec l : forall h, 
  unmarshal_bes h l =
  ({| h_oidc := h_oidc h; h_client := h_client h ++ flat_map clients_of l; h_be := h_be h ++ bes_layout (List.length (h_client h)) l |},
   seq (List.length (h_be h)) (List.length l)).
Proof.
  induction l as [|t l IH]; intros h; cbn [unmarshal_bes].
  - cbn. rewrite !app_nil_r. destruct h; reflexivity.
  - unfold unmarshal_be. rewrite IH. cbn [h_oidc h_client h_be flat_map bes_layout List.length seq]. f_equal; [f_equal|].
    + unfold clients_of at 2. rewrite app_assoc. reflexivity.
    + rewrite app_length, <- app_assoc. cbn [app]. f_equal. f_equal. destruct (v_clients t); reflexivity.
    + f_equal. rewrite app_length. cbn. f_equal. lia.
Qed.

Lemma fold_redact_oidc l : forall h, fold_left redact_oidc l h =
  {| h_oidc := fold_left (fun o p => upd (fun o => {| o_rest := o_rest o; o_secret := redacted |}) p o) l (h_oidc h); h_client := h_client h; h_be := h_be h |}.
Proof. induction l as [|p l IH]; intros h; [destruct h; reflexivity|]. cbn. rewrite IH. reflexivity. Qed.
Lemma fold_redact_client l : forall h, fold_left redact_client l h =
  {| h_oidc := h_oidc h; h_client := fold_left (fun o p => upd (fun o => {| l_rest := l_rest o; l_secret := redacted |}) p o) l (h_client h); h_be := h_be h |}.
Proof. induction l as [|p l IH]; intros h; [destruct h; reflexivity|]. cbn. rewrite IH. reflexivity. Qed.

Lemma fold_upd_mid {A} (f : A -> A) l l' l'' :
  fold_left (fun h p => upd f p h) (seq (List.length l) (List.length l')) (l ++ l' ++ l'') = l ++ map f l' ++ l''.
Proof.
  revert l. induction l' as [|x l' IH]; intros l; cbn; [reflexivity|].
  rewrite upd_app, Nat.sub_diag by lia. cbn [upd]. change (l ++ f x :: l' ++ l'') with (l ++ [f x] ++ (l' ++ l'')). rewrite app_assoc.
  replace (Datatypes.S (List.length l)) with (List.length (l ++ [f x])) by (rewrite app_length; cbn; lia). rewrite IH, <- app_assoc. reflexivity.
Qed.

(** Redacting the clones. *)
Lemma fold_redact_be l : forall o c0 be0 rest,
  fold_left redact_be (seq (List.length be0) (List.length l))
    {| h_oidc := o; h_client := c0 ++ flat_map clients_of l ++ rest; h_be := be0 ++ bes_layout (List.length c0) l |} =
  {| h_oidc := o; h_client := c0 ++ map hide_client (flat_map clients_of l) ++ rest; h_be := be0 ++ bes_layout (List.length c0) l |}.
Proof.
  induction l as [|t l IH]; intros o c0 be0 rest; [reflexivity|]. cbn [List.length seq fold_left flat_map bes_layout].
  rewrite map_app. set (b := {| e_rest := v_rest t; e_headers := _; e_clients := _ |}).
  assert (R : redact_be {| h_oidc := o; h_client := c0 ++ (clients_of t ++ flat_map clients_of l) ++ rest;
                           h_be := be0 ++ b :: bes_layout (List.length c0 + match v_clients t with Some cs => List.length cs | None => 0 end) l |} (List.length be0) =
              {| h_oidc := o; h_client := (c0 ++ map hide_client (clients_of t)) ++ flat_map clients_of l ++ rest;
                 h_be := (be0 ++ [b]) ++ bes_layout (List.length (c0 ++ map hide_client (clients_of t))) l |}).
  { unfold redact_be. cbn [h_be]. rewrite app_nth2, Nat.sub_diag by lia. cbn [nth]. unfold b at 1. cbn [e_clients].
    unfold clients_of. destruct (v_clients t) as [cs|] eqn:Ec; cbn [option_map].
    - rewrite fold_redact_client. cbn [h_oidc h_client h_be]. rewrite <- !app_assoc. rewrite fold_upd_mid.
      rewrite !app_length, map_length. cbn [app]. reflexivity.
    - cbn [map app]. rewrite !app_nil_r, Nat.add_0_r, <- !app_assoc. reflexivity. }
  rewrite R. replace (Datatypes.S (List.length be0)) with (List.length (be0 ++ [b])) by (rewrite app_length; cbn; lia).
  rewrite (IH o (c0 ++ map hide_client (clients_of t)) (be0 ++ [b]) rest). rewrite app_length, map_length, <- !app_assoc.
  unfold clients_of at 3. f_equal. f_equal. cbn [app]. f_equal. f_equal. destruct (v_clients t); reflexivity.
Qed.

(** Reading the clones. *)
Definition hide_be (b : btree) : btree := {| v_rest := v_rest b; v_headers := v_headers b; v_clients := option_map (map hide_client) (v_clients b) |}.
Lemma marshal_clones l : forall o c0 be0 be1 rest,
  map (marshal_be {| h_oidc := o; h_client := c0 ++ map hide_client (flat_map clients_of l) ++ rest; h_be := be0 ++ bes_layout (List.length c0) l ++ be1 |})
    (seq (List.length be0) (List.length l)) = map hide_be l.
Proof.
  induction l as [|t l IH]; intros o c0 be0 be1 rest; [reflexivity|]. cbn [List.length seq map flat_map bes_layout].
  set (b := {| e_rest := v_rest t; e_headers := _; e_clients := _ |}). f_equal.
  - unfold marshal_be. cbn [h_be h_client]. rewrite app_nth2, Nat.sub_diag by lia. cbn [nth app]. unfold b, hide_be. cbn [e_rest e_headers e_clients]. f_equal.
    unfold clients_of at 1. destruct (v_clients t) as [cs|]; [|reflexivity]. cbn [option_map]. f_equal.
    rewrite map_app, <- app_assoc. rewrite <- (map_length hide_client cs). apply map_nth_seq.
  - specialize (IH o (c0 ++ map hide_client (clients_of t)) (be0 ++ [b]) be1 rest).
    rewrite !app_length, map_length, <- !app_assoc in IH. cbn [List.length] in IH. rewrite Nat.add_1_r in IH.
    rewrite map_app, <- app_assoc. cbn [app] in *.
    replace (match v_clients t with Some cs => List.length cs | None => 0 end) with (List.length (clients_of t)) by (unfold clients_of; destruct (v_clients t); reflexivity).
    exact IH.
Qed.

Lemma show_spec enc h c : exists h', show_config enc h c = (h', enc (hide (marshal h c))) /\ extends h h'.
Proof.
  unfold show_config, clone, unmarshal. rewrite unmarshal_bes_spec. cbn [h_oidc h_client h_be g_oidc g_backends].
  set (t := marshal h c). rewrite fold_redact_oidc. cbn [h_oidc h_client h_be]. rewrite fold_upd_seq.
  pose proof (fold_redact_be (w_backends t) (h_oidc h ++ map (fun o => {| o_rest := o_rest o; o_secret := redacted |}) (w_oidc t)) (h_client h) (h_be h) []) as R.
  rewrite !app_nil_r in R. rewrite R. clear R. eexists. split; [f_equal; f_equal|].
  - unfold marshal. cbn [g_rest g_oidc g_backends]. unfold hide. f_equal.
    + cbn [h_oidc]. pose proof (map_nth_seq no_oidc (h_oidc h) (map (fun o => {| o_rest := o_rest o; o_secret := redacted |}) (w_oidc t)) []) as M.
      rewrite app_nil_r, map_length in M. exact M.
    + pose proof (marshal_clones (w_backends t) (h_oidc h ++ map (fun o => {| o_rest := o_rest o; o_secret := redacted |}) (w_oidc t)) (h_client h) (h_be h) [] []) as M.
      rewrite !app_nil_r in M. exact M.
  - eexists _, _, _. cbn. split; [reflexivity|]. split; reflexivity.
Qed.

Lemma hide_same a b : same_but_secrets a b -> hide a = hide b.
Proof.
  intros (E & F1 & F2). unfold hide. f_equal; [exact E| |].
  - induction F1 as [|x y l l' H F IH]; [reflexivity|]. cbn [map]. rewrite IH. unfold same_oidc in H. rewrite H. reflexivity.
  - induction F2 as [|x y l l' (H1 & H2 & H3) F IH]; [reflexivity|]. cbn [map]. rewrite IH, H1, H2. f_equal. f_equal.
    destruct (v_clients x) as [cx|], (v_clients y) as [cy|]; try contradiction; [|reflexivity]. cbn. f_equal.
    clear -H3. induction H3 as [|p q l l' H F IH]; [reflexivity|]. cbn [map]. rewrite IH. unfold hide_client, same_client in *. rewrite H. reflexivity.
Qed.
