(** Property C111: tokens that are signed by the TPM verify like any other. *)
From Verif Require Import Base SigModel SigSpec SigProofs.
Open Scope N_scope.

(** For any signature that the TPM can make, the token has the same two numbers, in the form that
    every verifier expects: nothing is lost with leading zero bytes or with the zero byte
    that DER puts before a large number. *)
Theorem C111_token_signature_partial : forall bits r s sig, bits mod 8 = 0 ->
  der_signature (Z.of_N r) (Z.of_N s) sig -> N.of_nat (List.length sig) < 2147483648 -> r < 2 ^ bits -> s < 2 ^ bits ->
  exists out, sign bits bits (Some sig) = Signature out /\ token_signature bits out r s.
Proof.
  intros bits r s sig M D L R S. unfold sign. rewrite N.eqb_refl. cbn [negb].
  rewrite <- (app_nil_r sig). rewrite (unmarshal_complete _ _ _ _ D L). cbv zeta. rewrite !N2Z.id || rewrite !Zabs2N.id.
  assert (B : 256 ^ N.of_nat (N.to_nat (bits / 8)) = 2 ^ bits).
  { rewrite N2Nat.id. change 256 with (2 ^ 8). rewrite <- N.pow_mul_r.
    pose proof (N.div_mod bits 8 ltac:(discriminate)) as Q. rewrite M, N.add_0_r in Q. rewrite <- Q. reflexivity. }
  assert (O : N.to_nat (bits / 8) = octets bits).
  { unfold octets. f_equal. pose proof (N.div_mod bits 8 ltac:(discriminate)) as Q. rewrite M, N.add_0_r in Q.
    rewrite Q at 2. rewrite N.mul_comm, N.add_comm, N.div_add by discriminate. reflexivity. }
  destruct (fill_some (N.to_nat (bits / 8)) r) as [a A]; [rewrite B; exact R|].
  destruct (fill_some (N.to_nat (bits / 8)) s) as [b Q]; [rewrite B; exact S|].
  rewrite A, Q. exists (a ++ b). split; [reflexivity|]. apply fill_sound in A, Q. exists a, b.
  rewrite <- O. intuition.
Qed.
Print Assumptions C111_token_signature_partial.

(** There is only one such form: two tokens with the same numbers have the same signature, and
    a verifier reads no other numbers. *)
Theorem C111_one_reading : forall bits sig r s r' s',
  token_signature bits sig r s -> token_signature bits sig r' s' -> r = r' /\ s = s'.
Proof.
  intros bits sig r s r' s' (a & b & E & A & B & R & S) (a' & b' & E' & A' & B' & R' & S').
  assert (Q : a = a' /\ b = b').
  { subst sig. clear - A A' E'. rewrite <- A' in A. clear A'. revert a' A E'. induction a as [|x a IH]; intros [|x' a'] A E; try discriminate A.
    - auto.
    - injection E as <- E. injection A as A. destruct (IH a' A E) as [-> ->]. auto. }
  destruct Q as [-> ->]. split; congruence.
Qed.
Print Assumptions C111_one_reading.

(** Whatever the bytes that come from the TPM: a token is made only of a signature that they
    begin with, in DER. *)
Theorem C111_sound : forall bits key_bits tpm out, sign bits key_bits tpm = Signature out ->
  bits = key_bits /\ exists sig e rest r s, tpm = Some sig /\ sig = e ++ rest /\ der_signature r s e /\
  exists a b, out = a ++ b /\ List.length a = N.to_nat (bits / 8) /\ List.length b = N.to_nat (bits / 8) /\
    number a = Z.abs_N r /\ number b = Z.abs_N s.
Proof.
  intros bits kb tpm out H. unfold sign in H. destruct (N.eqb_spec bits kb) as [<-|]; [|discriminate]. cbn [negb] in H.
  split; [reflexivity|]. destruct tpm as [sig|]; [|discriminate].
  destruct (unmarshal sig) as [[|r [|s [|? ?]]]|] eqn:U; try discriminate. cbv zeta in H.
  destruct (fill_bytes _ (Z.abs_N r)) as [a|] eqn:A; [|discriminate]. destruct (fill_bytes _ (Z.abs_N s)) as [b|] eqn:B; [|discriminate].
  injection H as <-. destruct (unmarshal_sound _ _ _ U) as (e & rest & D & ->). apply fill_sound in A, B.
  exists (e ++ rest), e, rest, r, s. split; [reflexivity|]. split; [reflexivity|]. split; [exact D|]. exists a, b. intuition.
Qed.
Print Assumptions C111_sound.

(** A key of another curve than the one of the method is refused, and so is a failure of the
    TPM: there is no token without a signature. *)
Theorem C111_refused : forall bits key_bits tpm, bits <> key_bits \/ tpm = None -> sign bits key_bits tpm = Refused.
Proof.
  intros bits kb tpm H. unfold sign. destruct (N.eqb_spec bits kb) as [->|]; [|reflexivity]. cbn [negb].
  destruct H as [H| ->]; [contradiction|reflexivity].
Qed.
Print Assumptions C111_refused.

(** With P-256, the curve of the keys that the proxy makes, no answer of the TPM that is a
    signature makes the program panic. *)
Theorem C111_no_panic : forall r s sig rest, der_signature (Z.of_N r) (Z.of_N s) sig ->
  N.of_nat (List.length sig) < 2147483648 -> r < 2 ^ 256 -> s < 2 ^ 256 -> sign 256 256 (Some (sig ++ rest)) <> Panics.
Proof.
  intros r s sig rest D L R S. unfold sign. change (256 =? 256) with true. cbn [negb].
  rewrite (unmarshal_complete _ _ _ _ D L). cbv zeta. rewrite !Zabs2N.id. change (N.to_nat (256 / 8)) with 32%nat.
  assert (E : 256 ^ N.of_nat 32 = 2 ^ 256) by reflexivity.
  destruct (fill_some 32 r) as [a ->]; [rewrite E; exact R|]. destruct (fill_some 32 s) as [b ->]; [rewrite E; exact S|]. discriminate.
Qed.
Print Assumptions C111_no_panic.

(** FINDING: the size of the numbers is rounded down, so with P-521 (65 bytes instead of 66) the
    program panics for half of all numbers, and the signatures of the others are too short for any
    verifier.  The keys that the proxy makes today are all P-256. *)
Theorem C111_p521_refuted : forall r s sig, der_signature (Z.of_N r) (Z.of_N s) sig ->
  N.of_nat (List.length sig) < 2147483648 ->
  (2 ^ 520 <= r -> sign 521 521 (Some sig) = Panics) /\
  (forall out, sign 521 521 (Some sig) = Signature out -> forall r' s', ~ token_signature 521 out r' s').
Proof.
  intros r s sig D L. unfold sign. change (521 =? 521) with true. cbn [negb].
  rewrite <- (app_nil_r sig). rewrite (unmarshal_complete _ _ _ _ D L). cbv zeta. rewrite !Zabs2N.id.
  assert (K : N.to_nat (521 / 8) = 65%nat) by reflexivity. rewrite K. split.
  - intros R. rewrite (fill_none 65 r); [reflexivity|]. replace (256 ^ N.of_nat 65) with (2 ^ 520) by reflexivity. exact R.
  - intros out H r' s' (a & b & -> & A & B & _).
    destruct (fill_bytes 65 r) as [x|] eqn:X; [|discriminate]. destruct (fill_bytes 65 s) as [y|] eqn:Y; [|discriminate].
    injection H as H. apply fill_sound in X, Y. apply (f_equal (@List.length _)) in H. rewrite !app_length, A, B in H.
    destruct X as [X _], Y as [Y _]. rewrite X, Y in H. discriminate H.
Qed.
Print Assumptions C111_p521_refuted.

(** ** Examples *)

(** A small R, for which DER needs one byte, and an S with the highest bit set, for which DER
    needs 33. *)
Definition ex_s : str := "128"%char :: repeat "001"%char 31.
Definition ex_sig : str := ["048"; "038"; "002"; "001"; "007"; "002"; "033"; "000"]%char ++ ex_s.
Example ex_der : der_signature 7 (Z.of_N (number ex_s)) ex_sig.
Proof.
  exists ["007"%char], ("000"%char :: ex_s), ["002"; "001"; "007"]%char, (["002"; "033"; "000"]%char ++ ex_s).
  split; [split; [reflexivity|exact I]|]. split.
  { split; [vm_compute; reflexivity|]. split; intros [H1 H2]; vm_compute in H1, H2; congruence. }
  split; [exists ["001"%char]; split; [left; split; reflexivity|reflexivity]|].
  split; [exists ["033"%char]; split; [left; split; reflexivity|reflexivity]|].
  exists ["038"%char]. split; [left; split; reflexivity|reflexivity].
Qed.
Example ex_signature : sign 256 256 (Some ex_sig) = Signature (repeat "000"%char 31 ++ "007"%char :: ex_s).
Proof. vm_compute. reflexivity. Qed.
Example ex_bounds : number ex_s < 2 ^ 256 /\ N.of_nat (List.length ex_sig) < 2147483648.
Proof. vm_compute. split; reflexivity. Qed.
(** One for P-521: 2^520 takes 66 bytes. *)
Definition ex_r521 : str := "001"%char :: repeat "000"%char 65.
Definition ex_sig521 : str := ["048"; "071"; "002"; "066"]%char ++ ex_r521 ++ ["002"; "001"; "005"]%char.
Example ex_der521 : der_signature (Z.of_N (2 ^ 520)) 5 ex_sig521.
Proof.
  exists ex_r521, ["005"%char], (["002"; "066"]%char ++ ex_r521), ["002"; "001"; "005"]%char.
  split. { split; [vm_compute; reflexivity|]. split; intros [H1 H2]; vm_compute in H1, H2; congruence. }
  split; [split; [reflexivity|exact I]|].
  split; [exists ["066"%char]; split; [left; split; reflexivity|reflexivity]|].
  split; [exists ["001"%char]; split; [left; split; reflexivity|reflexivity]|].
  exists ["071"%char]. split; [left; split; reflexivity|reflexivity].
Qed.
Example ex_panics : sign 521 521 (Some ex_sig521) = Panics.
Proof. apply (proj1 (C111_p521_refuted (2 ^ 520) 5 _ ex_der521 eq_refl)). apply N.le_refl. Qed.
