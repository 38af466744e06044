From Verif Require Import Base ConnModel ConnSpec.

(** Unread input of a connection. *)
Definition unread (c : conn) : str := peekBuf c ++ wire c.

Lemma os_read_split w want got b w' : os_read w want got = (b, w') -> b ++ w' = w.
Proof. unfold os_read. intros H. injection H as <- <-. apply firstn_skipn. Qed.

Lemma peek_unread c want got c' b ok :
  peek c want got = (c', b, ok) ->
  unread c' = unread c /\ received c' = received c /\
  (exists t, unread c = b ++ t) /\
  (ok = true <-> List.length b = want) /\ List.length b <= want.
Proof.
  unfold peek, unread. intros H.
  destruct (List.length (peekBuf c) <? want) eqn:Hlt.
  - destruct (os_read (wire c) (want - List.length (peekBuf c)) got) as [bb w'] eqn:Hr.
    injection H as <- <- <-. simpl.
    apply os_read_split in Hr.
    assert (Hl : List.length (firstn want (peekBuf c ++ bb)) <= want)
      by (rewrite firstn_length; lia).
    repeat split; try assumption.
    + rewrite <- app_assoc, Hr. reflexivity.
    + exists (skipn want (peekBuf c ++ bb) ++ w').
      rewrite app_assoc, firstn_skipn, <- app_assoc, Hr. reflexivity.
    + intros Hb. apply negb_true_iff, Nat.ltb_ge in Hb. lia.
    + intros Hb. apply negb_true_iff, Nat.ltb_ge. lia.
  - injection H as <- <- <-.
    assert (Hl : List.length (firstn want (peekBuf c)) <= want)
      by (rewrite firstn_length; lia).
    repeat split; try assumption.
    + exists (skipn want (peekBuf c) ++ wire c).
      rewrite app_assoc, firstn_skipn. reflexivity.
    + intros Hb. apply negb_true_iff, Nat.ltb_ge in Hb. lia.
    + intros Hb. apply negb_true_iff, Nat.ltb_ge. lia.
Qed.

Lemma skipn_firstn_length {A} n (l : list A) :
  skipn (List.length (firstn n l)) l = skipn n l.
Proof.
  destruct (Nat.le_gt_cases n (List.length l)) as [H|H].
  - rewrite firstn_length_le by exact H. reflexivity.
  - rewrite firstn_all2 by lia. rewrite skipn_all, skipn_all2 by lia. reflexivity.
Qed.

Lemma read_unread c le want got c' b :
  read c le want got = (c', b) ->
  unread c = b ++ unread c' /\ received c' = received c + List.length b /\
  List.length b <= want.
Proof.
  unfold read, unread. destruct le.
  { intros H. injection H as <- <-. simpl. repeat split; lia. }
  destruct (peekBuf c) as [|x p] eqn:Hp.
  - destruct (os_read (wire c) want got) as [out w'] eqn:Hr.
    intros H. injection H as <- <-. simpl.
    assert (Hl : List.length out <= want).
    { unfold os_read in Hr. injection Hr as <- <-. rewrite firstn_length. lia. }
    apply os_read_split in Hr. rewrite Hr. repeat split; try reflexivity. exact Hl.
  - intros H. injection H as <- <-. cbn [peekBuf wire received].
    rewrite skipn_firstn_length.
    repeat split.
    + rewrite app_assoc, firstn_skipn. reflexivity.
    + rewrite firstn_length. lia.
Qed.

Lemma conn_run_stream ops : forall c c' outs,
  conn_run c ops = (c', outs) ->
  unread c = delivered outs ++ unread c' /\
  received c' = received c + List.length (delivered outs).
Proof.
  induction ops as [|o ops IH]; simpl; intros c c' outs H.
  - injection H as <- <-. simpl. split; [reflexivity|lia].
  - destruct (conn_step c o) as [c1 x] eqn:Hs.
    destruct (conn_run c1 ops) as [c2 xs] eqn:Hr.
    injection H as <- <-.
    apply IH in Hr as [Hr1 Hr2].
    destruct o as [want got|le want got]; unfold conn_step in Hs.
    + destruct (peek c want got) as [[cp b] ok] eqn:Hp. injection Hs as <- <-.
      apply peek_unread in Hp as (Hu & Hrec & _). simpl.
      rewrite <- Hu, <- Hrec. split; [exact Hr1|exact Hr2].
    + destruct (read c le want got) as [cr b] eqn:Hp. injection Hs as <- <-.
      apply read_unread in Hp as (Hu & Hrec & _). simpl.
      rewrite Hu, Hr1, Hr2, Hrec, app_length, app_assoc. split; [reflexivity|lia].
Qed.

(** Every peek shows the first unread bytes, at whatever moment it happens. *)
Lemma conn_run_peek ops1 want got ops2 c c' outs1 c1 b ok outs2 :
  conn_run c ops1 = (c1, outs1) ->
  conn_run c (ops1 ++ OPeek want got :: ops2) = (c', outs1 ++ OutPeek b ok :: outs2) ->
  exists t, unread c1 = b ++ t.
Proof.
  revert c outs1. induction ops1 as [|o ops1 IH]; cbn [conn_run app]; intros c outs1 H1 H2.
  - injection H1 as <- <-. unfold conn_step in H2.
    destruct (peek c want got) as [[cp bb] okk] eqn:Hp.
    destruct (conn_run cp ops2) as [c2 xs]. injection H2 as <- <- <- <-.
    apply peek_unread in Hp as (_ & _ & Hx & _). exact Hx.
  - destruct (conn_step c o) as [cs x].
    destruct (conn_run cs ops1) as [cr xs] eqn:Hr. injection H1 as <- <-.
    destruct (conn_run cs (ops1 ++ OPeek want got :: ops2)) as [c2 ys] eqn:Hr2.
    injection H2 as <- Heq. eapply IH; [exact Hr|]. rewrite <- Heq. exact Hr2.
Qed.

Lemma C01_reads_lemma : forall stream ops c' outs,
  conn_run (fresh_conn stream) ops = (c', outs) ->
  exists rest, stream = delivered outs ++ rest /\
               received c' = List.length (delivered outs).
Proof.
  intros stream ops c' outs H. apply conn_run_stream in H as [H1 H2].
  exists (unread c'). split; [exact H1|exact H2].
Qed.

Lemma C01_peek_lemma : forall stream before want got c1 outs c2 b ok,
  conn_run (fresh_conn stream) before = (c1, outs) ->
  conn_step c1 (OPeek want got) = (c2, OutPeek b ok) ->
  (exists rest, stream = delivered outs ++ b ++ rest) /\
  (ok = true <-> List.length b = want).
Proof.
  intros stream before want got c1 outs c2 b ok H Hp.
  apply conn_run_stream in H as [H1 _]. unfold conn_step in Hp.
  destruct (peek c1 want got) as [[cp bb] okk] eqn:E. injection Hp as <- <- <-.
  apply peek_unread in E as (_ & _ & [t Ht] & Hok & _).
  split; [|exact Hok]. exists t. rewrite <- Ht. exact H1.
Qed.

Lemma C01_no_byte_lost_lemma : forall stream ops c' outs n,
  conn_run (fresh_conn stream) ops = (c', outs) ->
  List.length stream <= n ->
  exists c'' a b,
    conn_run c' [ORead false n n; ORead false n n] = (c'', [OutRead a; OutRead b]) /\
    delivered outs ++ a ++ b = stream.
Proof.
  intros stream ops c' outs n H Hn.
  apply conn_run_stream in H as [H1 _].
  assert (Hu : unread (fresh_conn stream) = stream) by reflexivity.
  rewrite Hu in H1.
  assert (Hl : List.length (unread c') <= n).
  { apply (f_equal (@List.length ascii)) in H1. rewrite app_length in H1. lia. }
  unfold unread in Hl. rewrite app_length in Hl.
  destruct c' as [p w r]. unfold unread in H1. cbn [peekBuf wire] in *.
  cbn [conn_run conn_step]. unfold read at 1. cbn [peekBuf wire received].
  destruct p as [|x p].
  - unfold os_read at 1. rewrite Nat.min_id, firstn_all2, skipn_all2 by (simpl in Hl; lia).
    unfold read. cbn [peekBuf wire]. unfold os_read.
    rewrite firstn_nil, skipn_nil. eexists _, _, _. split; [reflexivity|].
    rewrite app_nil_r. symmetry. exact H1.
  - rewrite firstn_all2 by lia. rewrite skipn_all.
    unfold read. cbn [peekBuf wire]. unfold os_read.
    rewrite Nat.min_id, firstn_all2, skipn_all2 by lia.
    eexists _, _, _. split; [reflexivity|]. symmetry. exact H1.
Qed.
