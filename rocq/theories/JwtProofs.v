(** Proofs about tokens as text. *)
From Verif Require Import Base TokenModel ScriptModel ScriptSpec ScriptProofs ScriptProofs4 JwtModel JwtSpec.
From Verif Require JwksModel OcspGetModel ProxyHdrModel ProxyHdrProofs ConsoleModel ConsoleProofs ScriptProofs2.
Require Import Lia Permutation.
Open Scope list_scope.
Open Scope Z_scope.

(** ** base64url *)

Definition six (b : bool * bool * bool * bool * bool * bool) : list bool :=
  match b with (b5, b4, b3, b2, b1, b0) => [b5; b4; b3; b2; b1; b0] end.
Definition index (c : ascii) : nat :=
  match OcspGetModel.url_bits c with
  | Some (b5, b4, b3, b2, b1, b0) => N.to_nat (N_of_ascii (Ascii b0 b1 b2 b3 b4 b5 false false))
  | None => O
  end.
Lemma letter_bits : forall c b, letter c b <-> exists t, OcspGetModel.url_bits c = Some t /\ b = six t.
Proof.
  intros c b. split.
  - intros (n & E & -> ).
    do 64 (destruct n as [|n]; [cbn in E; injection E as <-; eexists; split; [vm_compute; reflexivity|vm_compute; reflexivity]|]).
    cbn in E. destruct n; discriminate.
  - intros (t & E & -> ). exists (index c).
    destruct c as [[] [] [] [] [] [] [] []]; vm_compute in E; try discriminate; injection E as <-; vm_compute; split; reflexivity.
Qed.
Lemma byte_bits : forall a0 a1 a2 a3 a4 a5 a6 a7, bits 8 (N_of_ascii (Ascii a0 a1 a2 a3 a4 a5 a6 a7)) = [a7; a6; a5; a4; a3; a2; a1; a0].
Proof. intros [] [] [] [] [] [] [] []; reflexivity. Qed.
Definition byte_list (s : str) : list bool := List.concat (map (fun c => bits 8 (N_of_ascii c)) s).
Lemma byte_list_length : forall s, List.length (byte_list s) = (8 * List.length s)%nat.
Proof. induction s as [|c s IH]; [reflexivity|]. unfold byte_list in *. cbn [map List.concat]. rewrite app_length, IH. destruct c. rewrite byte_bits. cbn [List.length]. lia. Qed.

Lemma four_ind : forall (P : str -> Prop), P [] -> (forall a, P [a]) -> (forall a b, P [a; b]) -> (forall a b c, P [a; b; c]) ->
  (forall a b c d r, P r -> P (a :: b :: c :: d :: r)) -> forall s, P s.
Proof.
  intros P H0 H1 H2 H3 H4 s. assert (forall n s, (List.length s <= n)%nat -> P s) as G.
  { induction n as [|n IH]; intros [|a [|b [|c [|d r]]]] L; auto; cbn in L; try lia. apply H4, IH. lia. }
  exact (G _ s (le_n _)).
Qed.
Lemma decode4_sound : forall s bytes, OcspGetModel.decode4 s = Some bytes ->
  exists bb rest, Forall2 letter s bb /\ List.concat bb = byte_list bytes ++ rest /\ (List.length rest < 6)%nat.
Proof.
  intros s. induction s as [|a|a b|a b c|a b c d r IH] using four_ind; intros bytes H; cbn [OcspGetModel.decode4] in H.
  - injection H as <-. exists [], []. repeat split; [constructor|cbn; lia].
  - discriminate.
  - destruct (OcspGetModel.url_bits a) as [[[[[[a5 a4] a3] a2] a1] a0]|] eqn:A; [|discriminate].
    destruct (OcspGetModel.url_bits b) as [[[[[[b5 b4] b3] b2] b1] b0]|] eqn:B; [|discriminate]. injection H as <-.
    exists [[a5;a4;a3;a2;a1;a0];[b5;b4;b3;b2;b1;b0]], [b3;b2;b1;b0].
    split; [|unfold byte_list; cbn [map List.concat]; rewrite byte_bits; split; [reflexivity|cbn; lia]].
    repeat constructor; apply letter_bits; eexists; split; try eassumption; reflexivity.
  - destruct (OcspGetModel.url_bits a) as [[[[[[a5 a4] a3] a2] a1] a0]|] eqn:A; [|discriminate].
    destruct (OcspGetModel.url_bits b) as [[[[[[b5 b4] b3] b2] b1] b0]|] eqn:B; [|discriminate].
    destruct (OcspGetModel.url_bits c) as [[[[[[c5 c4] c3] c2] c1] c0]|] eqn:C; [|discriminate]. injection H as <-.
    exists [[a5;a4;a3;a2;a1;a0];[b5;b4;b3;b2;b1;b0];[c5;c4;c3;c2;c1;c0]], [c1;c0].
    split; [|unfold byte_list; cbn [map List.concat]; rewrite !byte_bits; split; [reflexivity|cbn; lia]].
    repeat constructor; apply letter_bits; eexists; split; try eassumption; reflexivity.
  - destruct (OcspGetModel.url_bits a) as [[[[[[a5 a4] a3] a2] a1] a0]|] eqn:A; [|discriminate].
    destruct (OcspGetModel.url_bits b) as [[[[[[b5 b4] b3] b2] b1] b0]|] eqn:B; [|discriminate].
    destruct (OcspGetModel.url_bits c) as [[[[[[c5 c4] c3] c2] c1] c0]|] eqn:C; [|discriminate].
    destruct (OcspGetModel.url_bits d) as [[[[[[d5 d4] d3] d2] d1] d0]|] eqn:D; [|discriminate].
    destruct (OcspGetModel.decode4 r) as [t|] eqn:R; [|discriminate]. injection H as <-.
    destruct (IH t eq_refl) as (bb & rest & F & E & L).
    exists ([a5;a4;a3;a2;a1;a0]::[b5;b4;b3;b2;b1;b0]::[c5;c4;c3;c2;c1;c0]::[d5;d4;d3;d2;d1;d0]::bb), rest.
    split; [|split; [|exact L]].
    + repeat constructor; try exact F; apply letter_bits; eexists; split; try eassumption; reflexivity.
    + unfold byte_list in *. cbn [map List.concat]. rewrite !byte_bits, E. reflexivity.
Qed.
Lemma decode4_complete : forall s bytes bb rest, Forall2 letter s bb -> List.concat bb = byte_list bytes ++ rest -> (List.length rest < 6)%nat ->
  OcspGetModel.decode4 s = Some bytes.
Proof.
  assert (LL : forall bytes rest n, List.length (byte_list bytes ++ rest) = n -> (8 * List.length bytes + List.length rest = n)%nat)
    by (intros bytes rest n H; rewrite app_length, byte_list_length in H; exact H).
  assert (B : forall c r, byte_list (c :: r) = bits 8 (N_of_ascii c) ++ byte_list r) by reflexivity.
  intros s. induction s as [|a|a b|a b c|a b c d r IH] using four_ind; intros bytes bb rest F E L;
    repeat match goal with H : Forall2 letter (_ :: _) _ |- _ => inversion H; clear H; subst end;
    try match goal with H : Forall2 letter [] _ |- _ => inversion H; clear H; subst end;
    repeat match goal with H : letter _ _ |- _ => apply letter_bits in H; destruct H as ([[[[[? ?] ?] ?] ?] ?] & ? & ->) end.
  - cbn in E. destruct bytes as [|[] bytes]; [reflexivity|]. rewrite B, byte_bits in E. discriminate.
  - exfalso. assert (X := f_equal (@List.length bool) E). cbn in X. symmetry in X. apply LL in X. lia.
  - assert (X := f_equal (@List.length bool) E). cbn in X. symmetry in X. apply LL in X.
    destruct bytes as [|[] [|y bytes]]; cbn [List.length] in X; try lia. rewrite B, byte_bits in E. cbn in E. injection E as -> -> -> -> -> -> -> -> E.
    cbn [OcspGetModel.decode4]. repeat match goal with H : OcspGetModel.url_bits _ = _ |- _ => rewrite H; clear H end. reflexivity.
  - assert (X := f_equal (@List.length bool) E). cbn in X. symmetry in X. apply LL in X.
    destruct bytes as [|[] [|[] [|z bytes]]]; cbn [List.length] in X; try lia. rewrite !B, !byte_bits in E. cbn in E. injection E as -> -> -> -> -> -> -> -> -> -> -> -> -> -> -> -> E.
    cbn [OcspGetModel.decode4]. repeat match goal with H : OcspGetModel.url_bits _ = _ |- _ => rewrite H; clear H end. reflexivity.
  - assert (X := f_equal (@List.length bool) E). cbn [List.concat six app List.length] in X. symmetry in X. apply LL in X.
    destruct bytes as [|[] [|[] [|[] bytes]]]; cbn [List.length] in X; try lia. rewrite !B, !byte_bits in E. cbn [List.concat six app] in E.
    injection E; intros; subst.
    cbn [OcspGetModel.decode4]. repeat match goal with H : OcspGetModel.url_bits _ = _ |- _ => rewrite H; clear H end.
    erewrite IH; [reflexivity| | |]; eassumption.
Qed.
Lemma raw_url_spec : forall s bytes, OcspGetModel.raw_url_decode s = Some bytes <-> b64url s bytes.
Proof.
  intros s bytes. unfold OcspGetModel.raw_url_decode, b64url. split.
  - intro H. apply decode4_sound in H. destruct H as (bb & rest & F & E & L). eexists _, bb, rest. split; [reflexivity|auto].
  - intros (s' & bb & rest & -> & F & E & L). eapply decode4_complete; eassumption.
Qed.

Lemma b64u_chars : forall s, forallb (fun c => negb (Ascii.eqb c ".") && token_char c) (JwksModel.b64u s) = true.
Proof.
  assert (C : forall b5 b4 b3 b2 b1 b0, (fun c => negb (Ascii.eqb c ".") && token_char c) (JwksModel.b64u_char b5 b4 b3 b2 b1 b0) = true)
    by (intros [] [] [] [] [] []; reflexivity). cbv beta in C.
  intros s. assert (G : forall n s, (List.length s <= n)%nat -> forallb (fun c => negb (Ascii.eqb c ".") && token_char c) (JwksModel.b64u s) = true).
  { induction n as [|n IH]; intros [|[] [|[] [|[] r]]] L; cbn [JwksModel.b64u forallb List.length] in *; try lia; rewrite ?C; try reflexivity.
    cbn [andb]. apply IH. lia. }
  exact (G _ s (le_n _)).
Qed.
