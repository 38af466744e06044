From Verif Require Import Base SettingsModel.
Local Open Scope Z_scope.

(** ** C53 *)

(** The setting of a filter for a class of events. *)
Definition setting (f : logFilter) (t : logType) : option bool :=
  match t with
  | logConnection => lfConnections f
  | logRequest => lfRequests f
  | logError => lfErrors f
  end.

(** For every class: the backend's setting, or the global one, or yes. *)
Theorem C53_most_specific_setting :
  forall global be t,
    let logs := be_logs (reconfigure_log global be) t in
    (forall b, setting be t = Some b -> logs = b) /\
    (forall b, setting be t = None -> setting global t = Some b -> logs = b) /\
    (setting be t = None -> setting global t = None -> logs = true).
Proof.
  intros [gc gr ge] [bc br be] []; cbn; repeat split; intros; subst; try reflexivity;
    repeat match goal with H : _ = Some _ |- _ => rewrite H; clear H end; reflexivity.
Qed.
Print Assumptions C53_most_specific_setting.

(** The settings of one class do not matter for another. *)
Theorem C53_classes_are_independent :
  forall global be global' be' t,
    setting global t = setting global' t -> setting be t = setting be' t ->
    be_logs (reconfigure_log global be) t = be_logs (reconfigure_log global' be') t.
Proof.
  intros [gc gr ge] [bc br be] [gc' gr' ge'] [bc' br' be'] []; cbn; intros -> ->; reflexivity.
Qed.
Print Assumptions C53_classes_are_independent.

(** What the proxy itself logs: the global setting, or yes; without any
    configuration errors are logged and connections are not. *)
Theorem C53_proxy_setting :
  forall t,
    (forall f b, setting f t = Some b -> proxy_logs (Some f) t = b) /\
    (forall f, setting f t = None -> proxy_logs (Some f) t = true) /\
    proxy_logs None t = match t with logConnection => false | _ => true end.
Proof.
  intros []; repeat split; try (intros [c r e]; cbn; intros; subst; reflexivity);
    intros [c r e] b; cbn; intros ->; reflexivity.
Qed.
Print Assumptions C53_proxy_setting.

Example C53_case :
  let global := {| lfConnections := Some false; lfRequests := None; lfErrors := Some false |} in
  let be := {| lfConnections := Some true; lfRequests := None; lfErrors := None |} in
  be_logs (reconfigure_log global be) logConnection = true /\
  be_logs (reconfigure_log global be) logRequest = true /\
  be_logs (reconfigure_log global be) logError = false.
Proof. vm_compute. auto. Qed.

(** ** C54 *)

(** The number that decimal digits mean. *)
Fixpoint decimal (ds : list Z) : Z :=
  match ds with
  | [] => 0
  | d :: ds' => d * 10 ^ Z.of_nat (List.length ds') + decimal ds'
  end.

Definition char_of_digit (d : Z) : ascii := ascii_of_nat (Z.to_nat (48 + d)).

Lemma digit_inv c d : digit c = Some d -> 0 <= d <= 9 /\ c = char_of_digit d.
Proof.
  unfold digit. destruct (_ && _) eqn:E; [|discriminate]. intros H.
  apply andb_true_iff in E as (A & B). apply Z.leb_le in A. apply Z.leb_le in B.
  assert (D : d = Z.of_nat (nat_of_ascii c) - 48) by congruence. split; [lia|].
  unfold char_of_digit. replace (Z.to_nat (48 + d)) with (nat_of_ascii c) by lia.
  symmetry. apply ascii_nat_embedding.
Qed.

Lemma digit_char d : 0 <= d <= 9 -> digit (char_of_digit d) = Some d.
Proof.
  intros H. assert (X : d = 0 \/ d = 1 \/ d = 2 \/ d = 3 \/ d = 4 \/ d = 5 \/ d = 6 \/ d = 7 \/ d = 8 \/ d = 9)
    by lia.
  repeat (destruct X as [-> | X]; [reflexivity|]). subst. reflexivity.
Qed.

Lemma parse_digits_sound s acc v :
  parse_digits s acc = Some v ->
  exists ds, s = map char_of_digit ds /\ (forall d, In d ds -> 0 <= d <= 9) /\
    v = acc * 10 ^ Z.of_nat (List.length ds) + decimal ds.
Proof.
  revert acc; induction s as [|c s IH]; intros acc H; cbn [parse_digits] in H.
  - assert (v = acc) by congruence. subst v. exists []. repeat split; try contradiction. cbn. lia.
  - destruct (digit c) as [d|] eqn:D; [|discriminate].
    apply digit_inv in D as (R & ->).
    destruct (IH _ H) as (ds & -> & A & ->). exists (d :: ds). split; [reflexivity|]. split.
    + intros x [<- | X]; auto.
    + cbn [List.length decimal]. rewrite Nat2Z.inj_succ, Z.pow_succ_r by lia. lia.
Qed.

Lemma parse_digits_complete ds acc :
  (forall d, In d ds -> 0 <= d <= 9) ->
  parse_digits (map char_of_digit ds) acc = Some (acc * 10 ^ Z.of_nat (List.length ds) + decimal ds).
Proof.
  revert acc; induction ds as [|d ds IH]; intros acc H; cbn [map parse_digits].
  - cbn [List.length decimal]. cbn. f_equal. lia.
  - rewrite digit_char by (apply H; left; auto). rewrite IH by (intros; apply H; right; auto).
    cbn [List.length decimal]. rewrite Nat2Z.inj_succ, Z.pow_succ_r by lia. f_equal. lia.
Qed.

Lemma decimal_nonneg ds : (forall d, In d ds -> 0 <= d <= 9) -> 0 <= decimal ds.
Proof.
  induction ds as [|d ds IH]; intros H; cbn [decimal]; [lia|].
  specialize (IH (fun x X => H x (or_intror X))).
  pose proof (H d (or_introl eq_refl)). pose proof (Z.pow_nonneg 10 (Z.of_nat (List.length ds))). nia.
Qed.

Lemma char_not_sign d s' : 0 <= d <= 9 ->
  Ascii.eqb (char_of_digit d) "+" = false /\ Ascii.eqb (char_of_digit d) "-" = false \/ s' = @nil ascii.
Proof.
  intros H. left. assert (X : d = 0 \/ d = 1 \/ d = 2 \/ d = 3 \/ d = 4 \/ d = 5 \/ d = 6 \/ d = 7 \/ d = 8 \/ d = 9)
    by lia.
  repeat (destruct X as [-> | X]; [split; reflexivity|]). subst. split; reflexivity.
Qed.

(** Exactly these are accepted: nothing, which means no header; or a v, an optional
    sign and a decimal number from -128 to 127, of which the low eight bits count. *)
Theorem C54_accepted_values_partial :
  forall s b,
    validate_version s = Some b <->
    (s = [] /\ b = 0) \/
    exists sign ds,
      s = ("v"%char :: sign) ++ map char_of_digit ds /\
      ds <> [] /\ (forall d, In d ds -> 0 <= d <= 9) /\
      ((sign = [] \/ sign = ["+"%char]) /\ decimal ds <= 127 /\ b = decimal ds \/
       sign = ["-"%char] /\ decimal ds <= 128 /\ b = (- decimal ds) mod 256).
Proof.
  intros s b. split.
  - intros H. destruct s as [|c s]; [left; cbn in H; split; congruence|]. right.
    unfold validate_version in H.
    destruct (List.length (c :: s) <? 2)%nat eqn:L; cbn [orb] in H; [discriminate|].
    destruct (Ascii.eqb c "v") eqn:C; cbn [negb] in H; [|discriminate].
    apply Ascii.eqb_eq in C. subst c.
    destruct (parse_int8 s) as [v|] eqn:P; [|discriminate].
    assert (B : b = v mod 256) by congruence. clear H.
    unfold parse_int8 in P.
    assert (X : exists neg sign s', s = sign ++ s' /\
       (neg = false /\ (sign = [] \/ sign = ["+"%char]) \/ neg = true /\ sign = ["-"%char]) /\
       match parse_uint s' with
       | None => None
       | Some v =>
           if negb neg && (128 <=? v) then None
           else if neg && (128 <? v) then None else Some (if neg then - v else v)
       end = Some v).
    { destruct s as [|c s].
      { exists false, [], []. split; [reflexivity|]. split; [auto|]. exact P. }
      destruct (Ascii.eqb c "+") eqn:E1.
      { apply Ascii.eqb_eq in E1. subst c. exists false, ["+"%char], s. split; [reflexivity|]. split; [auto|]. exact P. }
      destruct (Ascii.eqb c "-") eqn:E2.
      { apply Ascii.eqb_eq in E2. subst c. exists true, ["-"%char], s. split; [reflexivity|]. split; [auto|]. exact P. }
      exists false, [], (c :: s). split; [reflexivity|]. split; [auto|]. exact P. }
    clear P. destruct X as (neg & sign & s' & -> & SG & P).
    destruct s' as [|c s']; [discriminate|]. unfold parse_uint in P.
    destruct (parse_digits (c :: s') 0) as [w|] eqn:D; [|discriminate].
    apply parse_digits_sound in D as (ds & E & R & W). rewrite Z.mul_0_l, Z.add_0_l in W. subst w.
    exists sign, ds. rewrite E. split; [reflexivity|].
    split; [intros ->; discriminate|]. split; [exact R|].
    pose proof (decimal_nonneg ds R).
    destruct SG as [(-> & SG)|(-> & ->)]; cbn [negb andb] in P.
    + left. destruct (Z.leb_spec 128 (decimal ds)); [discriminate|].
      assert (v = decimal ds) by congruence. subst v. repeat split; auto; [lia|].
      rewrite B. apply Z.mod_small. lia.
    + right. destruct (Z.ltb_spec 128 (decimal ds)); [discriminate|].
      assert (v = - decimal ds) by congruence. subst v. auto.
  - intros [(-> & ->)|(sign & ds & -> & NE & R & H)]; [reflexivity|].
    destruct ds as [|d ds]; [congruence|].
    pose proof (parse_digits_complete (d :: ds) 0 R) as P.
    rewrite Z.mul_0_l, Z.add_0_l in P. cbn [map] in P.
    pose proof (decimal_nonneg (d :: ds) R) as NN.
    set (v := decimal (d :: ds)) in *. cbn [map app].
    destruct (char_not_sign d ["x"%char] (R d (or_introl eq_refl))) as [(N1 & N2)|]; [|discriminate].
    unfold validate_version.
    destruct H as [([-> | ->] & L & ->)|(-> & L & ->)]; cbn [app List.length Nat.ltb Nat.leb orb Ascii.eqb].
    + cbn [negb Bool.eqb]. unfold parse_int8. rewrite N1, N2. unfold parse_uint. rewrite P.
      cbn [negb andb]. destruct (Z.leb_spec 128 v); [lia|]. rewrite Z.mod_small by lia. reflexivity.
    + cbn [negb Bool.eqb]. unfold parse_int8. cbn [Ascii.eqb Bool.eqb]. unfold parse_uint. rewrite P.
      cbn [negb andb]. destruct (Z.leb_spec 128 v); [lia|]. rewrite Z.mod_small by lia. reflexivity.
    + cbn [negb Bool.eqb]. unfold parse_int8. cbn [Ascii.eqb Bool.eqb]. unfold parse_uint. rewrite P.
      cbn [negb andb]. destruct (Z.ltb_spec 128 v); [lia|]. reflexivity.
Qed.
Print Assumptions C54_accepted_values_partial.

(** Both versions that exist can be configured and a header of that version is
    then due; without a setting none is due. *)
Theorem C54_real_versions :
  (exists b, validate_version !"v1" = Some b /\ header_version b = Some 1) /\
  (exists b, validate_version !"v2" = Some b /\ header_version b = Some 2) /\
  (exists b, validate_version [] = Some b /\ header_version b = None).
Proof. repeat split; eexists; split; vm_compute; reflexivity. Qed.
Print Assumptions C54_real_versions.

(** A header is due exactly when the accepted byte is not zero, and it is of that version. *)
Theorem C54_header_due :
  forall s b, validate_version s = Some b ->
    (forall v, header_version b = Some v <-> b <> 0 /\ v = b).
Proof.
  intros s b H v.
  assert (0 <= b).
  { apply C54_accepted_values_partial in H as [(_ & ->)|(sg & ds & _ & _ & R & [(_ & _ & ->)|(_ & _ & ->)])]; [lia| |].
    - apply decimal_nonneg; exact R.
    - apply Z.mod_pos_bound. lia. }
  unfold header_version. destruct (Z.ltb_spec 0 b).
  - split; [intros E; split; [lia|congruence]|intros (_ & ->); reflexivity].
  - split; [discriminate|intros (N & _); lia].
Qed.
Print Assumptions C54_header_due.

(** Versions that do not exist are accepted, and a header of that version is then due. *)
Theorem C54_other_versions_refuted :
  (validate_version !"v3" = Some 3 /\ header_version 3 = Some 3) /\
  (validate_version !"v-1" = Some 255 /\ header_version 255 = Some 255) /\
  (validate_version !"v0" = Some 0 /\ header_version 0 = None).
Proof. vm_compute. auto. Qed.
Print Assumptions C54_other_versions_refuted.

Example C54_case :
  validate_version !"v1" = Some 1 /\ validate_version !"v2" = Some 2 /\
  validate_version !"2" = None /\ validate_version !"v" = None /\ validate_version !"v128" = None /\
  validate_version !"v2 " = None /\ validate_version !"V2" = None /\ validate_version !"v+002" = Some 2.
Proof. vm_compute. repeat split. Qed.
