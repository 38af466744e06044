From Coq Require Import ZArith List Bool Lia.
From Verif Require Import LimitModel LimitSpec LimitProofs ForwardModel ForwardSpec.
Import ListNotations.
Local Open Scope Z_scope.

Definition nq : nat -> bool := fun _ => false.

Definition tokens_of (p : kind -> bool) (x : fnote) : Z :=
  match x with Forwarded k => if p k then 1 else 0 | _ => 0 end.

Lemma forwarded_cons : forall p t x out, forwarded p ((t, x) :: out) = tokens_of p x + forwarded p out.
Proof. intros p t x out. destruct x; reflexivity. Qed.

(** Connections that were let in and have a request free. *)
Definition free (c : conn) : Z :=
  match cKind c with H3 => if cIn c && negb (cFlag c) then 1 else 0 | _ => 0 end.
Fixpoint credit (l : list conn) : Z :=
  match l with [] => 0 | c :: l => free c + credit l end.

Lemma credit_app : forall a b, credit (a ++ b) = credit a + credit b.
Proof. induction a as [|x a IH]; intros b; cbn [credit app]; [lia|]. rewrite IH. lia. Qed.

Lemma set_nth : forall (l : list conn) c x y, nth_error l c = Some x ->
  l = firstn c l ++ x :: skipn (S c) l /\
  forall z, In z (firstn c l ++ y :: skipn (S c) l) -> z = y \/ In z l.
Proof.
  induction l as [|a l IH]; intros c x y H; destruct c as [|c]; cbn [nth_error] in H; try discriminate.
  - injection H as ->. split; [reflexivity|]. intros z Hz. cbn in Hz.
    destruct Hz as [->|Hz]; [left; reflexivity|right; right; exact Hz].
  - destruct (IH c x y H) as [A B]. split.
    + cbn [firstn app skipn]. f_equal. exact A.
    + intros z Hz. cbn [firstn app] in Hz. destruct Hz as [->|Hz]; [right; left; reflexivity|].
      change (skipn (S (S c)) (a :: l)) with (skipn (S c) l) in Hz.
      destruct (B z Hz) as [->|Q]; [left; reflexivity|right; right; exact Q].
Qed.

Lemma credit_set : forall l c x y, nth_error l c = Some x ->
  credit (firstn c l ++ y :: skipn (S c) l) = credit l - free x + free y.
Proof.
  intros l c x y H. destruct (set_nth l c x y H) as [A _].
  rewrite A at 3. rewrite !credit_app. cbn [credit]. lia.
Qed.

(** Requests that found the flag unset: under [one_at_a_time], it still is. *)
Definition wf (s : fw) : Prop :=
  Forall (fun c => cLook c <> 0%nat -> cIn c = true /\ cFlag c = false) (conns s).

Definition idle (s : fw) : Prop := Forall (fun c => (cLook c <= 1)%nat) (conns s).

Lemma wf_set : forall s g c x y, wf s -> nth_error (conns s) c = Some x ->
  (cLook y <> 0%nat -> cIn y = true /\ cFlag y = false) -> wf (set_conn s g c y).
Proof.
  intros s g c x y W N Y. unfold wf, set_conn. cbn [conns]. apply Forall_forall.
  intros z Hz. destruct (set_nth (conns s) c x y N) as [_ B].
  destruct (B z Hz) as [->|Q]; [exact Y|]. unfold wf in W. rewrite Forall_forall in W. apply W. exact Q.
Qed.

Lemma wf_app : forall s g j y, wf s -> (cLook y <> 0%nat -> cIn y = true /\ cFlag y = false) ->
  wf {| gate := g; conns := conns s ++ [y]; jobs := j |}.
Proof.
  intros s g j y W Y. unfold wf. cbn [conns]. apply Forall_app. split; [exact W|].
  constructor; [exact Y|constructor].
Qed.

(** Only the requests of annotated connections look at a flag. *)
Definition kinds (s : fw) : Prop :=
  Forall (fun c => cLook c <> 0%nat -> annotated (cKind c) = true) (conns s).

Lemma kinds_set : forall s g c x y, kinds s -> nth_error (conns s) c = Some x ->
  (cLook y <> 0%nat -> annotated (cKind y) = true) -> kinds (set_conn s g c y).
Proof.
  intros s g c x y W N Y. unfold kinds, set_conn. cbn [conns]. apply Forall_forall.
  intros z Hz. destruct (set_nth (conns s) c x y N) as [_ B].
  destruct (B z Hz) as [->|Q]; [exact Y|]. unfold kinds in W. rewrite Forall_forall in W. apply W. exact Q.
Qed.

Lemma kinds_app : forall s g j y, kinds s -> (cLook y <> 0%nat -> annotated (cKind y) = true) ->
  kinds {| gate := g; conns := conns s ++ [y]; jobs := j |}.
Proof.
  intros s g j y W Y. unfold kinds. cbn [conns]. apply Forall_app. split; [exact W|].
  constructor; [exact Y|constructor].
Qed.

Lemma kinds_step : forall s t e s' x, fstep s t e = Some (s', x) -> kinds s -> kinds s'.
Proof.
  intros s t e s' x H K.
  assert (Nth : forall c y, nth_error (conns s) c = Some y -> cLook y <> 0%nat -> annotated (cKind y) = true).
  { intros c y Y. unfold kinds in K. rewrite Forall_forall in K. apply K. apply (nth_error_In _ _ Y). }
  destruct e as [k|j|j|c|c|c]; cbn [fstep] in H.
  - destruct (ask s t (Call (List.length (jobs s)) 1)) as [[g [i act|i|i k0|i|]]|];
      destruct k; try discriminate; injection H as <- <-; try exact K;
      apply kinds_app; [exact K|cbn; congruence|exact K|cbn; congruence|exact K|cbn; congruence
        |exact K|cbn; congruence|exact K|cbn; congruence|exact K|cbn; congruence].
  - destruct (ask s t (Move j 1)) as [[g n]|]; [|discriminate].
    destruct (nth_error (jobs s) j) as [[c|c]|]; [| |discriminate].
    + destruct (nth_error (conns s) c) as [y|] eqn:Y; [|discriminate]. injection H as <- <-.
      apply (kinds_set s g c y); [exact K|exact Y|]. cbn. apply (Nth c y Y).
    + destruct (nth_error (conns s) c); [|discriminate]. injection H as <- <-. exact K.
  - destruct (ask s t (CloseConn j)) as [[g n]|]; [|discriminate].
    destruct (nth_error (jobs s) j); [|discriminate]. injection H as <- <-. exact K.
  - destruct (nth_error (conns s) c) as [y|] eqn:Y; [|discriminate].
    destruct (cIn y); cbn [negb] in H; [|discriminate].
    destruct (cKind y); cbn [annotated negb] in H; try discriminate.
    1: (injection H as <- <-; exact K).
    all: destruct (cFlag y); cbn [negb] in H;
      [destruct (ask s t (Call (List.length (jobs s)) 1)) as [[g [i act|i|i k0|i|]]|];
        try discriminate; injection H as <- <-; exact K
      |injection H as <- <-; apply (kinds_set s _ c y); [exact K|exact Y|reflexivity]].
  - destruct (nth_error (conns s) c) as [y|] eqn:Y; [|discriminate].
    destruct (cLook y) as [|n] eqn:L; [discriminate|]. injection H as <- <-.
    apply (kinds_set s _ c y); [exact K|exact Y|]. cbn. intros _. apply (Nth c y Y). lia.
  - destruct (nth_error (conns s) c) as [y|] eqn:Y; [|discriminate].
    destruct (cIn y); cbn [negb] in H; [|discriminate].
    destruct (cKind y); try discriminate; injection H as <- <-; [exact K|].
    apply kinds_app; [exact K|cbn; congruence].
Qed.

(** What an event does with the limiter. *)
Lemma gate_step : forall s t e s' x, fstep s t e = Some (s', x) -> kinds s ->
  (gate s' = gate s /\ tokens_of connections x <= 0 /\ x <> Abandoned /\
   (wf s -> idle s -> wf s' /\
      tokens_of connections_and_h3 x + credit (conns s') <= credit (conns s))) \/
  (exists ev n, step nq (gate s) t ev = Some (gate s', n) /\
     (quiet n \/ x = Abandoned) /\
     tokens_of connections x <= bytes_of n /\
     (wf s -> idle s -> wf s' /\
        tokens_of connections_and_h3 x + credit (conns s') <= bytes_of n + credit (conns s))).
Proof.
  intros s t e s' x H Kd. destruct e as [k|j|j|c|c|c]; cbn [fstep] in H.
  - destruct (ask s t (Call (List.length (jobs s)) 1)) as [[g n]|] eqn:A.
    2:{ destruct k; discriminate. }
    assert (K : k <> StreamHttp) by (intros ->; discriminate).
    assert (H' : match n with
      | Let _ act => Some ({| gate := g;
           conns := conns s ++ [{| cKind := k; cIn := false; cFlag := false; cLook := 0 |}];
           jobs := jobs s ++ [JConn (List.length (conns s))] |}, Waits act)
      | _ => Some (s, Denied) end = Some (s', x)).
    { destruct k; try exact H. destruct (K eq_refl). }
    clear H. destruct n as [i act|i|i k0|i|].
    2,3,4,5: (injection H' as <- <-; left; cbn [tokens_of]; (split; [reflexivity|split; [lia|split; [discriminate|intros W Id; split; [exact W|lia]]]])).
    injection H' as <- <-. right. unfold ask in A. exists (Call (List.length (jobs s)) 1), (Let i act).
    cbn [gate tokens_of bytes_of conns]. split; [exact A|]. split; [left; exact I|]. split; [lia|].
    intros W Id. split; [apply wf_app; [exact W|cbn; congruence]|].
    rewrite credit_app. cbn [credit]. unfold free. cbn [cKind cIn cFlag andb]. destruct k; lia.
  - destruct (ask s t (Move j 1)) as [[g n]|] eqn:A; [|discriminate].
    assert (N : n = Moved j 1).
    { unfold ask in A. cbn [step] in A. destruct (find_waiter j (waiting (gate s))) as [w|]; [|discriminate].
      destruct ((wAct w <=? t) && (0 <=? 1) && (1 <=? wSize w)); [|discriminate]. injection A as _ <-. reflexivity. }
    subst n. right. exists (Move j 1), (Moved j 1). cbn [bytes_of].
    destruct (nth_error (jobs s) j) as [[c|c]|]; [| |discriminate].
    + destruct (nth_error (conns s) c) as [y|] eqn:Y; [|discriminate]. injection H as <- <-.
      unfold set_conn at 1. cbn [gate]. split; [exact A|]. split; [left; exact I|].
      split. { destruct (cKind y); cbn; lia. }
      intros W Id. split.
      * apply (wf_set s g c y); [exact W|exact Y|]. cbn [cLook cIn cFlag]. intros L.
        unfold wf in W. rewrite Forall_forall in W. destruct (W y (nth_error_In _ _ Y) L) as [_ Q].
        split; [reflexivity|exact Q].
      * unfold set_conn. cbn [conns]. rewrite (credit_set _ c y _ Y). unfold free. cbn [cKind cIn cFlag].
        destruct (cKind y), (cIn y), (cFlag y); cbn [tokens_of connections_and_h3 forwards_at_once andb negb]; lia.
    + destruct (nth_error (conns s) c) as [y|] eqn:Y; [|discriminate]. injection H as <- <-. cbn [gate conns].
      split; [exact A|]. split; [left; exact I|]. split; [destruct (cKind y); cbn; lia|].
      intros W Id. split; [exact W|]. destruct (cKind y); cbn [tokens_of connections_and_h3]; lia.
  - destruct (ask s t (CloseConn j)) as [[g n]|] eqn:A; [|discriminate].
    destruct (nth_error (jobs s) j); [|discriminate]. injection H as <- <-.
    right. exists (CloseConn j), n. cbn [gate conns]. split; [exact A|].
    assert (N : bytes_of n = 0).
    { unfold ask in A. cbn [step] in A. injection A as A. unfold end_context in A.
      destruct (find_waiter j (waiting (gate s))) as [w|]; [destruct (wAct w <=? t)|]; injection A as _ <-; reflexivity. }
    rewrite N. split; [destruct n; (left; exact I) || (right; reflexivity)|].
    split; [destruct n; cbn; lia|]. intros W Id. split; [exact W|]. destruct n; cbn [tokens_of]; lia.
  - destruct (nth_error (conns s) c) as [y|] eqn:Y; [|discriminate].
    destruct (cIn y) eqn:In1; cbn [negb] in H; [|discriminate].
    assert (Ann : forall k, cKind y = k -> annotated k = true ->
      (if negb (cFlag y) then
         Some (set_conn s (gate s) c {| cKind := k; cIn := true; cFlag := false; cLook := S (cLook y) |}, Nothing)
       else match ask s t (Call (List.length (jobs s)) 1) with
            | Some (g, Let _ act) => Some ({| gate := g; conns := conns s; jobs := jobs s ++ [JReq c] |}, Waits act)
            | Some (g, _) => Some (s, Denied)
            | None => None
            end) = Some (s', x) ->
      (gate s' = gate s /\ tokens_of connections x <= 0 /\ x <> Abandoned /\
       (wf s -> idle s -> wf s' /\
          tokens_of connections_and_h3 x + credit (conns s') <= credit (conns s))) \/
      (exists ev n, step nq (gate s) t ev = Some (gate s', n) /\
         (quiet n \/ x = Abandoned) /\
         tokens_of connections x <= bytes_of n /\
         (wf s -> idle s -> wf s' /\
            tokens_of connections_and_h3 x + credit (conns s') <= bytes_of n + credit (conns s)))).
    { intros k Ek Ak Hx. destruct (cFlag y) eqn:Fl; cbn [negb] in Hx.
      - destruct (ask s t (Call (List.length (jobs s)) 1)) as [[g n]|] eqn:A; [|discriminate].
        destruct n as [i act|i|i k0|i|].
        2,3,4,5: (injection Hx as <- <-; left; cbn [tokens_of]; (split; [reflexivity|split; [lia|split; [discriminate|intros W Id; split; [exact W|lia]]]])).
        injection Hx as <- <-. right. exists (Call (List.length (jobs s)) 1), (Let i act).
        cbn [gate conns tokens_of bytes_of]. split; [exact A|]. split; [left; exact I|]. split; [lia|].
        intros W Id. split; [exact W|lia].
      - injection Hx as <- <-. left. unfold set_conn at 1. cbn [gate tokens_of].
        split; [reflexivity|]. split; [lia|]. split; [discriminate|].
        intros W Id. split.
        + apply (wf_set s _ c y); [exact W|exact Y|]. cbn. intros _. split; reflexivity.
        + unfold set_conn. cbn [conns]. rewrite (credit_set _ c y _ Y). unfold free. cbn [cKind cIn cFlag].
          rewrite Ek, In1, Fl. lia. }
    destruct (cKind y) eqn:Ky; cbn [annotated negb] in H; try discriminate.
    + injection H as <- <-. left. cbn. split; [reflexivity|split; [lia|split; [discriminate|intros W Id; split; [exact W|lia]]]].
    + apply (Ann H3 eq_refl eq_refl H).
    + apply (Ann StreamHttp eq_refl eq_refl H).
  - destruct (nth_error (conns s) c) as [y|] eqn:Y; [|discriminate].
    destruct (cLook y) as [|n] eqn:L; [discriminate|]. injection H as <- <-. left.
    unfold set_conn at 1. cbn [gate]. split; [reflexivity|].
    assert (An : annotated (cKind y) = true).
    { unfold kinds in Kd. rewrite Forall_forall in Kd. apply (Kd y (nth_error_In _ _ Y)). lia. }
    split; [destruct (cKind y); cbn in *; try discriminate; lia|]. split; [discriminate|].
    intros W Id.
    assert (Q : cIn y = true /\ cFlag y = false).
    { unfold wf in W. rewrite Forall_forall in W. apply (W y (nth_error_In _ _ Y)). lia. }
    assert (N0 : n = 0%nat).
    { unfold idle in Id. rewrite Forall_forall in Id. specialize (Id y (nth_error_In _ _ Y)). lia. }
    destruct Q as [Q1 Q2]. split.
    + apply (wf_set s _ c y); [exact W|exact Y|]. cbn. intros K. lia.
    + unfold set_conn. cbn [conns]. rewrite (credit_set _ c y _ Y). unfold free. cbn [cKind cIn cFlag].
      rewrite Q1, Q2. clear - An. destruct (cKind y); cbn [annotated] in An; try discriminate; cbn [tokens_of connections_and_h3 andb negb]; lia.
  - destruct (nth_error (conns s) c) as [y|] eqn:Y; [|discriminate].
    destruct (cIn y) eqn:In1; cbn [negb] in H; [|discriminate].
    destruct (cKind y) eqn:Ky; try discriminate; injection H as <- <-; left; cbn [gate conns tokens_of connections connections_and_h3].
    + split; [reflexivity|split; [lia|split; [discriminate|intros W Id; split; [exact W|lia]]]].
    + split; [reflexivity|]. split; [lia|]. split; [discriminate|]. intros W Id.
      split; [apply wf_app; [exact W|cbn; congruence]|]. rewrite credit_app. cbn [credit]. unfold free. cbn [cKind]. lia.
Qed.

Lemma in_order_earlier : forall A (h : list (Z * A)) a b, a <= b -> in_order b h -> in_order a h.
Proof. intros A [|[t e] h] a b L H; [exact H|]. destruct H as [H1 H2]. split; [lia|exact H2]. Qed.

(** The history of the limiter. *)
Lemma gate_run : forall h s s' out, frun s h = Some (s', out) -> kinds s ->
  exists gh gout, run nq (gate s) gh = Some (gate s', gout) /\
    (forall t0, in_order t0 h -> in_order t0 gh) /\ (forall T, until T h -> until T gh) /\
    (all_wait out -> patient gout) /\
    forwarded connections out <= moved gout /\
    (wf s -> one_at_a_time s h ->
       forwarded connections_and_h3 out + credit (conns s') <= moved gout + credit (conns s)).
Proof.
  induction h as [|[t e] h IH]; intros s s' out H Kd; cbn [frun] in H.
  - injection H as <- <-. exists [], []. repeat split; try constructor; cbn [forwarded moved]; try lia.
  - destruct (fstep s t e) as [[s1 x]|] eqn:E; [|discriminate].
    destruct (frun s1 h) as [[s2 out']|] eqn:E2; [|discriminate]. injection H as <- <-.
    destruct (IH s1 s2 out' E2 (kinds_step _ _ _ _ _ E Kd)) as [gh [gout [G1 [G2 [G3 [G4 [G5 G6]]]]]]].
    destruct (gate_step s t e s1 x E Kd) as [[A1 [A2 [A3 A4]]]|[ev [n [A1 [A2 [A3 A4]]]]]].
    + exists gh, gout. rewrite A1 in G1. split; [exact G1|].
      split. { intros t0 [O1 O2]. apply (in_order_earlier _ _ t0 t O1). apply G2. exact O2. }
      split. { intros T U. inversion U; subst. apply G3. assumption. }
      split. { intros P. inversion P; subst. apply G4. assumption. }
      rewrite !forwarded_cons. split; [lia|].
      intros W [Id On]. rewrite E in On. destruct (A4 W Id) as [W' C]. specialize (G6 W' On). lia.
    + exists ((t, ev) :: gh), ((t, n) :: gout). split.
      { cbn [run]. rewrite A1, G1. reflexivity. }
      split. { intros t0 [O1 O2]. split; [exact O1|apply G2; exact O2]. }
      split. { intros T U. inversion U; subst. constructor; [assumption|apply G3; assumption]. }
      split. { intros P. inversion P as [|? ? P1 P2]; subst. cbn [snd] in P1. constructor; [|apply G4; exact P2].
               destruct A2 as [A2|A2]; [exact A2|destruct (P1 A2)]. }
      rewrite !forwarded_cons, !moved_cons. split; [lia|].
      intros W [Id On]. rewrite E in On. destruct (A4 W Id) as [W' C]. specialize (G6 W' On). lia.
Qed.

Lemma kinds_run : forall h s s' out, frun s h = Some (s', out) -> kinds s -> kinds s'.
Proof.
  induction h as [|[t e] h IH]; intros s s' out H Kd; cbn [frun] in H.
  - injection H as <- <-. exact Kd.
  - destruct (fstep s t e) as [[s1 x]|] eqn:E; [|discriminate].
    destruct (frun s1 h) as [[s2 out']|] eqn:E2; [|discriminate]. injection H as <- <-.
    apply (IH s1 s2 out' E2). apply (kinds_step _ _ _ _ _ E Kd).
Qed.

Lemma credit_nonneg : forall l, 0 <= credit l.
Proof.
  induction l as [|c l IH]; cbn [credit]; [lia|]. unfold free.
  destruct (cKind c); try lia. destruct (cIn c && negb (cFlag c)); lia.
Qed.

Lemma new_gate : forall r, 0 < r -> gate (new_backend r) = start_with r r.
Proof.
  intros r Hr. unfold new_backend. replace (r =? 0) with false; [reflexivity|].
  symmetry. apply Z.eqb_neq. lia.
Qed.

Lemma new_kinds : forall r, kinds (new_backend r) /\ wf (new_backend r).
Proof. intros r. split; constructor. Qed.

Lemma served_inv : forall r t h s out, 0 < r -> served r t h s out -> all_wait out ->
  inv r r t (gate s) /\ kinds s.
Proof.
  intros r t h s out Hr [A0 [A1 [A2 A3]]] P.
  destruct (gate_run h _ _ _ A3 (proj1 (new_kinds r))) as [gh [gout [G1 [G2 [G3 [G4 _]]]]]].
  rewrite new_gate in G1 by exact Hr.
  pose proof (inv_run r r nq gh 0 _ _ _ Hr (inv_start r r Hr ltac:(lia)) (G2 0 A1) G1 (G4 P)) as J.
  split.
  - apply (inv_later r r _ t _ (last_time_until gh 0 t A0 (G3 t A2)) J).
  - apply (kinds_run h _ _ _ A3). apply new_kinds.
Qed.

(** * The numbers of the jobs *)

Definition ids (s : fw) : Prop :=
  Forall (fun w => (wConn w < List.length (jobs s))%nat) (waiting (gate s)) /\
  Forall (fun i => (i < List.length (jobs s))%nat) (done (gate s)).

Lemma ids_more : forall (w : list waiter) (d : list nat) n m, (n <= m)%nat ->
  Forall (fun x => (wConn x < n)%nat) w /\ Forall (fun i => (i < n)%nat) d ->
  Forall (fun x => (wConn x < m)%nat) w /\ Forall (fun i => (i < m)%nat) d.
Proof.
  intros w d n m L [A B]. split; eapply Forall_impl; try eassumption; cbn; intros; lia.
Qed.

Lemma ids_call : forall s t g i act, ids s -> ask s t (Call (List.length (jobs s)) 1) = Some (g, Let i act) ->
  forall x, Forall (fun w => (wConn w < List.length (jobs s ++ [x]))%nat) (waiting g) /\
            Forall (fun j => (j < List.length (jobs s ++ [x]))%nat) (done g).
Proof.
  intros s t g i act [D1 D2] A x. unfold ask in A. cbn [step] in A.
  destruct (find_waiter (List.length (jobs s)) (waiting (gate s))); [discriminate|].
  change (1 <? 0) with false in A. cbv iota in A.
  destruct (burst (lim (gate s)) <? 1); [discriminate|].
  destruct (existsb (Nat.eqb (List.length (jobs s))) (done (gate s))); [discriminate|].
  destruct (reserve (lim (gate s)) t 1) as [[l a]|]; [|discriminate]. injection A as <- _ _.
  cbn [waiting done]. rewrite app_length. cbn [List.length].
  assert (L : (List.length (jobs s) <= List.length (jobs s) + 1)%nat) by lia.
  destruct (ids_more _ _ _ _ L (conj D1 D2)) as [E1 E2].
  split; [constructor; [cbn; lia|exact E1]|exact E2].
Qed.

Lemma ids_step : forall s t e s' x, fstep s t e = Some (s', x) -> ids s -> ids s'.
Proof.
  intros s t e s' x H D. pose proof D as [D1 D2].
  destruct e as [k|j|j|c|c|c]; cbn [fstep] in H.
  - destruct (ask s t (Call (List.length (jobs s)) 1)) as [[g [i act|i|i k0|i|]]|] eqn:A;
      destruct k; try discriminate; injection H as <- <-; try exact D;
      apply (ids_call s t g i act D A).
  - destruct (ask s t (Move j 1)) as [[g n]|] eqn:A; [|discriminate].
    assert (G : waiting g = drop_waiter j (waiting (gate s)) /\ done g = done (gate s)).
    { unfold ask in A. cbn [step] in A. destruct (find_waiter j (waiting (gate s))) as [w|]; [|discriminate].
      destruct ((wAct w <=? t) && (0 <=? 1) && (1 <=? wSize w)); [|discriminate].
      injection A as <- _. split; reflexivity. }
    destruct G as [G1 G2].
    assert (R : Forall (fun w => (wConn w < List.length (jobs s))%nat) (waiting g) /\
                Forall (fun i => (i < List.length (jobs s))%nat) (done g)).
    { rewrite G1, G2. split; [|exact D2]. apply Forall_forall. intros w Hw.
      rewrite Forall_forall in D1. apply D1. apply drop_in in Hw. exact Hw. }
    destruct (nth_error (jobs s) j) as [[c|c]|]; [| |discriminate];
      (destruct (nth_error (conns s) c) as [y|]; [|discriminate]; injection H as <- <-; exact R).
  - destruct (ask s t (CloseConn j)) as [[g n]|] eqn:A; [|discriminate].
    destruct (nth_error (jobs s) j) as [jb|] eqn:N; [|discriminate]. injection H as <- <-.
    assert (L : (j < List.length (jobs s))%nat) by (apply nth_error_Some; congruence).
    unfold ask in A. cbn [step] in A. injection A as A.
    assert (G : done g = j :: done (gate s) /\
      (waiting g = waiting (gate s) \/ waiting g = drop_waiter j (waiting (gate s)))).
    { unfold end_context in A. destruct (find_waiter j (waiting (gate s))) as [w|];
        [destruct (wAct w <=? t)|]; injection A as <- _; cbn [done waiting]; split; try reflexivity;
        [right|right|left]; reflexivity. }
    destruct G as [G1 G2]. unfold ids. cbn [gate jobs]. split.
    + destruct G2 as [-> | ->]; [exact D1|]. apply Forall_forall. intros w Hw.
      rewrite Forall_forall in D1. apply D1. apply drop_in in Hw. exact Hw.
    + rewrite G1. constructor; [exact L|exact D2].
  - destruct (nth_error (conns s) c) as [y|] eqn:Y; [|discriminate].
    destruct (cIn y); cbn [negb] in H; [|discriminate].
    destruct (cKind y); cbn [annotated negb] in H; try discriminate.
    1: (injection H as <- <-; exact D).
    all: destruct (cFlag y); cbn [negb] in H;
      [destruct (ask s t (Call (List.length (jobs s)) 1)) as [[g [i act|i|i k0|i|]]|] eqn:A;
        try discriminate; injection H as <- <-; try exact D; apply (ids_call s t g i act D A)
      |injection H as <- <-; exact D].
  - destruct (nth_error (conns s) c) as [y|]; [|discriminate].
    destruct (cLook y); [discriminate|]. injection H as <- <-. exact D.
  - destruct (nth_error (conns s) c) as [y|]; [|discriminate].
    destruct (cIn y); cbn [negb] in H; [|discriminate].
    destruct (cKind y); try discriminate; injection H as <- <-; exact D.
Qed.

Lemma ids_run : forall h s s' out, frun s h = Some (s', out) -> ids s -> ids s'.
Proof.
  induction h as [|[t e] h IH]; intros s s' out H D; cbn [frun] in H.
  - injection H as <- <-. exact D.
  - destruct (fstep s t e) as [[s1 x]|] eqn:E; [|discriminate].
    destruct (frun s1 h) as [[s2 out']|] eqn:E2; [|discriminate]. injection H as <- <-.
    apply (IH s1 s2 out' E2). apply (ids_step _ _ _ _ _ E D).
Qed.

Lemma ids_free : forall s, ids s -> find_waiter (List.length (jobs s)) (waiting (gate s)) = None /\
  ~ In (List.length (jobs s)) (done (gate s)).
Proof.
  intros s [D1 D2]. split.
  - apply find_none. intros x Hx. rewrite Forall_forall in D1. apply (D1 x Hx).
  - intros H. rewrite Forall_forall in D2. specialize (D2 _ H). cbn in D2. lia.
Qed.

(** * One connection and what it can do at once *)

Definition opened (g : state) (k : kind) (f : bool) (n : nat) : fw :=
  {| gate := g; conns := [{| cKind := k; cIn := true; cFlag := f; cLook := n |}]; jobs := [JConn 0] |}.

Lemma open_run : forall r k, 0 < r -> k <> StreamHttp -> exists g x,
  frun (new_backend r) [(0, Arrive k); (0, Pass 0)] = Some (opened g k false 0, [(0, Waits 0); (0, x)]) /\
  x <> Abandoned.
Proof.
  intros r k Hr K.
  assert (A : exists g, fstep (new_backend r) 0 (Arrive k) =
    Some ({| gate := g; conns := [{| cKind := k; cIn := false; cFlag := false; cLook := 0 |}]; jobs := [JConn 0] |}, Waits 0) /\
    waiting g = [{| wConn := 0; wSize := 1; wAct := 0 |}]).
  { destruct (reserve (lim (gate (new_backend r))) 0 1) as [[l act]|] eqn:R.
    - assert (Act : act = 0).
      { rewrite new_gate in R by exact Hr. unfold reserve in R. cbn [start_with new_limiter lim burst rate] in R.
        replace (r <? 1) with false in R by (symmetry; apply Z.ltb_ge; lia).
        replace (r =? 0) with false in R by (symmetry; apply Z.eqb_neq; lia).
        cbv zeta in R. rewrite advance_later in R by (cbn; lia).
        cbn [burst rate tokens last new_limiter] in R.
        replace (Z.min (r * giga) (r * giga + r * (0 - 0)) - 1 * giga <? 0) with false in R.
        - injection R as _ <-. reflexivity.
        - symmetry. apply Z.ltb_ge. unfold giga. lia. }
      subst act. exists {| lim := l; waiting := [{| wConn := 0; wSize := 1; wAct := 0 |}]; done := [] |}.
      split; [|reflexivity].
      assert (St : ask (new_backend r) 0 (Call 0 1) =
        Some ({| lim := l; waiting := [{| wConn := 0; wSize := 1; wAct := 0 |}]; done := [] |}, Let 0 0)).
      { unfold ask. cbn [step]. rewrite R. rewrite new_gate by exact Hr.
        cbn [start_with new_limiter lim burst waiting done find_waiter existsb].
        change (1 <? 0) with false. replace (r <? 1) with false by (symmetry; apply Z.ltb_ge; lia). reflexivity. }
      assert (Jb : jobs (new_backend r) = [] /\ conns (new_backend r) = []) by (split; reflexivity).
      destruct Jb as [Jb Cn]. cbn [fstep]. rewrite Jb, Cn. cbn [List.length app]. rewrite St.
      destruct k; try reflexivity. destruct (K eq_refl).
    - exfalso. rewrite new_gate in R by exact Hr. unfold reserve in R. cbn [start_with new_limiter lim burst rate] in R.
      replace (r <? 1) with false in R by (symmetry; apply Z.ltb_ge; lia).
      destruct (r =? 0); discriminate. }
  destruct A as [g [A W]]. cbn [frun]. rewrite A. cbn [fstep]. unfold ask. cbn [gate step]. rewrite W.
  cbn [find_waiter wConn Nat.eqb wAct wSize]. change ((0 <=? 0) && (0 <=? 1) && (1 <=? 1)) with true.
  cbv iota. cbn [jobs nth_error conns cKind set_conn firstn skipn app].
  eexists. eexists. split; [reflexivity|]. destruct (forwards_at_once k); discriminate.
Qed.

Lemma frun_app : forall h1 h2 s s1 s2 o1 o2,
  frun s h1 = Some (s1, o1) -> frun s1 h2 = Some (s2, o2) -> frun s (h1 ++ h2) = Some (s2, o1 ++ o2).
Proof.
  induction h1 as [|[t e] h1 IH]; intros h2 s s1 s2 o1 o2 H1 H2; cbn [frun app] in *.
  - injection H1 as <- <-. exact H2.
  - destruct (fstep s t e) as [[sx x]|]; [|discriminate].
    destruct (frun sx h1) as [[sy ox]|] eqn:E; [|discriminate].
    injection H1 as <- <-. rewrite (IH h2 sx sy s2 ox o2 E H2). reflexivity.
Qed.

Lemma forwarded_app : forall p a b, forwarded p (a ++ b) = forwarded p a + forwarded p b.
Proof.
  intros p a b. induction a as [|[t x] a IH]; [reflexivity|]. cbn [app]. rewrite !forwarded_cons, IH. lia.
Qed.

Lemma again_run : forall s e k n, fstep s 0 e = Some (s, Forwarded k) ->
  frun s (repeat (0, e) n) = Some (s, repeat (0, Forwarded k) n).
Proof.
  intros s e k n H. induction n as [|n IH]; [reflexivity|]. cbn [repeat frun]. rewrite H, IH. reflexivity.
Qed.

Lemma again_count : forall k n, forwarded anything (repeat (0, Forwarded k) n) = Z.of_nat n.
Proof.
  intros k n. induction n as [|n IH]; [reflexivity|]. cbn [repeat]. rewrite forwarded_cons, IH.
  cbn [tokens_of anything]. lia.
Qed.

Lemma again_wait : forall k n, all_wait (repeat (0, Forwarded k) n).
Proof. intros k n. induction n as [|n IH]; constructor; [discriminate|exact IH]. Qed.

Lemma zero_times : forall (l : list fevent), in_order 0 (map (pair 0) l) /\ until 0 (map (pair 0) l).
Proof.
  induction l as [|e l [A B]]; [split; constructor|]. split; [split; [lia|exact A]|].
  constructor; [cbn; lia|exact B].
Qed.

Lemma repeat_map : forall e n, repeat (0, e) n = map (pair 0) (repeat e n) :> list (Z * fevent).
Proof. intros e n. induction n as [|n IH]; [reflexivity|]. cbn [repeat map]. rewrite IH. reflexivity. Qed.

Lemma repeat_times : forall (e : fevent) n, in_order 0 (repeat (0, e) n) /\ until 0 (repeat (0, e) n).
Proof. intros e n. rewrite repeat_map. apply zero_times. Qed.

(** Requests that race for the flag. *)
Lemma look_run : forall g n m, frun (opened g H3 false m) (repeat (0, Req 0) n) =
  Some (opened g H3 false (n + m), repeat (0, Nothing) n).
Proof.
  intros g n. induction n as [|n IH]; intros m; [reflexivity|]. cbn [repeat frun].
  change (fstep (opened g H3 false m) 0 (Req 0)) with (Some (opened g H3 false (S m), Nothing)).
  cbv iota beta. rewrite IH. replace (n + S m)%nat with (S n + m)%nat by lia. reflexivity.
Qed.

Lemma mark_run : forall g n f, frun (opened g H3 f n) (repeat (0, Mark 0) n) =
  Some (opened g H3 (match n with O => f | _ => true end) 0, repeat (0, Forwarded H3) n).
Proof.
  intros g n. induction n as [|n IH]; intros f; [reflexivity|]. cbn [repeat frun].
  change (fstep (opened g H3 f (S n)) 0 (Mark 0)) with (Some (opened g H3 true n, Forwarded H3)).
  cbv iota beta. rewrite IH. destruct n; reflexivity.
Qed.
