(** More proofs about tokens as text: numbers, maps, and whole tokens. *)
From Coq Require Import DecimalString DecimalN DecimalFacts.
From Verif Require Import Base TokenModel ScriptModel ScriptSpec ScriptProofs ScriptProofs4 JwtModel JwtSpec JwtProofs.
From Verif Require JwksModel OcspGetModel ProxyHdrModel ProxyHdrProofs ConsoleModel ConsoleProofs ScriptProofs2 TokenProofs.
Require Import Lia Permutation.
Open Scope list_scope.
Open Scope Z_scope.

(** ** Numbers *)

Lemma digits_dec : forall n, digits (ProxyHdrModel.dec n).
Proof. intro n. apply Forall_forall. intros c H. exact (ProxyHdrProofs.dec_digits n c H). Qed.
Lemma dec_number : forall n, ProxyHdrModel.dec n = lit "0" \/ exists c r, ProxyHdrModel.dec n = c :: r /\ (49 <= N_of_ascii c <= 57)%N /\ digits r.
Proof.
  intros n. pose proof (digits_dec n) as D. unfold ProxyHdrModel.dec in *.
  assert (U : N.to_uint n = Decimal.unorm (N.to_uint n)).
  { rewrite <- DecimalN.Unsigned.to_of. rewrite DecimalN.Unsigned.of_to. reflexivity. }
  unfold Decimal.unorm in U. destruct (Decimal.nzhead (N.to_uint n)) as [|u|u|u|u|u|u|u|u|u|u] eqn:Z; rewrite U in *; cbn in D |- *;
    try (right; eexists _, _; split; [reflexivity|]; split; [cbn; lia|inversion D; assumption]).
  - left. reflexivity.
  - exfalso. exact (nzhead_nonzero _ _ Z).
Qed.
Lemma zdec_number : forall n, number_text (zdec n).
Proof.
  intros n. unfold zdec. destruct (n <? 0).
  - exists (lit "-"), (ProxyHdrModel.dec (Z.to_N (- n))), [], []. rewrite !app_nil_r. split; [reflexivity|]. split; [auto|]. split; [apply dec_number|auto].
  - exists [], (ProxyHdrModel.dec (Z.to_N n)), [], []. rewrite !app_nil_r. split; [reflexivity|]. split; [auto|]. split; [apply dec_number|auto].
Qed.
Lemma zdec_valid : forall n, valid (JNum (zdec n)) = true.
Proof. intro n. cbn [valid]. rewrite (proj2 (number_spec _) (zdec_number n)), number_chars by apply zdec_number. reflexivity. Qed.

(** ** Maps *)

Lemma json_of_valid : forall v, valid (json_of v) = true.
Proof. intros [s|n|l|b]; [reflexivity|apply zdec_valid|apply ScriptProofs2.strings_valid|reflexivity]. Qed.
Lemma claims_valid : forall c, valid (claims_json c) = true.
Proof.
  intro c. unfold claims_json. cbn [valid]. apply forallb_forall. intros kv H. apply in_map_iff in H. destruct H as (k & <- & _). cbn [snd].
  destruct (assoc k c); [apply json_of_valid|reflexivity].
Qed.
Lemma header_valid : forall t id, valid (header_json t id) = true.
Proof. reflexivity. Qed.

Lemma read_segment : forall v, valid v = true -> forall l, v = JObj l -> read_map (segment v) = Some (rev l).
Proof.
  intros v V l E. unfold read_map, segment. rewrite ScriptProofs2.b64u_raw, parse_print0 by (auto; right; reflexivity). rewrite E. reflexivity.
Qed.
Lemma assoc_map {A B : Type} : forall (f : A -> B) k (l : list (str * A)), assoc k (map (fun kv => (fst kv, f (snd kv))) l) = option_map f (assoc k l).
Proof. intros f k l. induction l as [|[k' v] l IH]; [reflexivity|]. cbn. destruct (str_eqb k k'); [reflexivity|exact IH]. Qed.
Lemma assoc_keys {A : Type} : forall (f : str -> A) k l, assoc k (map (fun x => (x, f x)) l) = if mem k l then Some (f k) else None.
Proof.
  intros f k l. induction l as [|x l IH]; [reflexivity|]. cbn [map assoc mem existsb]. destruct (str_eqb k x) eqn:E.
  - apply str_eqb_spec in E. subst. reflexivity.
  - exact IH.
Qed.
Lemma assoc_last {A : Type} : forall (l : list (str * A)) k v, assoc k (rev l) = Some v <-> exists l1 l2, l = l1 ++ (k, v) :: l2 /\ ~ In k (map fst l2).
Proof.
  intros l k v. split.
  - induction l as [|[k' v'] l IH]; [discriminate|]. cbn [rev]. rewrite TokenProofs.assoc_app. intro H.
    destruct (assoc k (rev l)) as [w|] eqn:E.
    + destruct (IH H) as (l1 & l2 & -> & N). exists ((k', v') :: l1), l2. auto.
    + cbn in H. destruct (str_eqb k k') eqn:K; [|discriminate]. injection H as ->. apply str_eqb_spec in K. subst k'.
      exists [], l. split; [reflexivity|]. apply assoc_None in E. rewrite map_rev in E. rewrite <- in_rev in E. exact E.
  - intros (l1 & l2 & -> & N). rewrite rev_app_distr. cbn [rev]. rewrite <- app_assoc, TokenProofs.assoc_app.
    replace (assoc k (rev l2)) with (@None A); [cbn; rewrite str_eqb_refl; reflexivity|].
    symmetry. apply assoc_None. rewrite map_rev, <- in_rev. exact N.
Qed.
Lemma assoc_rev_nodup {A : Type} : forall (l : list (str * A)) k, NoDup (map fst l) -> assoc k (rev l) = assoc k l.
Proof.
  intros l k N. destruct (assoc k l) as [v|] eqn:E.
  - apply assoc_last. apply assoc_In in E. apply in_split in E. destruct E as (l1 & l2 & -> ). exists l1, l2. split; [reflexivity|].
    rewrite map_app in N. cbn [map fst] in N. apply NoDup_remove_2 in N. intro X. apply N, in_or_app. auto.
  - apply assoc_None. apply assoc_None in E. rewrite map_rev, <- in_rev. exact E.
Qed.

Definition claim_names (c : claims) : list str := ConsoleModel.sort_strs (nodup (list_eq_dec Ascii.ascii_dec) (map fst c)).
Lemma names_nodup : forall c, NoDup (claim_names c).
Proof. intro c. unfold claim_names. eapply Permutation_NoDup; [apply ConsoleProofs.sort_perm|apply NoDup_nodup]. Qed.
Lemma names_in : forall c k, mem k (claim_names c) = true <-> In k (map fst c).
Proof.
  intros c k. rewrite mem_spec. unfold claim_names. rewrite <- (nodup_In (list_eq_dec Ascii.ascii_dec) (map fst c)). split; apply Permutation_in.
  - apply Permutation_sym, ConsoleProofs.sort_perm.
  - apply ConsoleProofs.sort_perm.
Qed.

Section Num.
Variable num : str -> Z.
Hypothesis num_dec : forall n, - 2 ^ 53 <= n <= 2 ^ 53 -> num (zdec n) = n.

Lemma strings_all : forall l, all_of (fun x => match x with JStr s => Some s | _ => None end) (map JStr l) = Some l.
Proof. induction l as [|s l IH]; [reflexivity|]. cbn [map all_of]. rewrite IH. reflexivity. Qed.
Lemma cval_json : forall v, (forall n, v = VNum n -> - 2 ^ 53 <= n <= 2 ^ 53) -> cval_of num (json_of v) = v.
Proof.
  intros [s|n|l|b] H; [reflexivity| | |reflexivity].
  - cbn. rewrite num_dec; auto.
  - cbn -[all_of]. rewrite strings_all. reflexivity.
Qed.
Lemma claims_read : forall c, exact c -> same_claims (claims_of_map num (rev (map (fun k => (k, match assoc k c with Some v => json_of v | None => JNull end)) (claim_names c)))) c.
Proof.
  intros c X k. unfold claims_of_map. rewrite assoc_map. rewrite assoc_rev_nodup by (rewrite map_map, map_id; apply names_nodup).
  rewrite assoc_keys. destruct (assoc k c) as [v|] eqn:E.
  - replace (mem k (claim_names c)) with true. 2:{ symmetry. apply names_in. apply assoc_In in E. apply in_map_iff. exists (k, v). auto. }
    cbn [option_map]. rewrite cval_json; [reflexivity|]. intros n ->. exact (X k n E).
  - replace (mem k (claim_names c)) with false; [reflexivity|]. symmetry. apply not_true_iff_false. rewrite names_in. apply assoc_None. exact E.
Qed.
End Num.

(** ** Whole tokens *)

Lemma b64u_no_dot : forall s, ~ In "."%char (JwksModel.b64u s).
Proof.
  intros s H. pose proof (b64u_chars s) as F. rewrite forallb_forall in F. specialize (F _ H). discriminate.
Qed.
Lemma b64u_token : forall s, forallb token_char (JwksModel.b64u s) = true.
Proof.
  intros s. pose proof (b64u_chars s) as F. rewrite forallb_forall in F |- *. intros c H. specialize (F c H). apply andb_true_iff in F. tauto.
Qed.
Lemma split_three : forall text a b d, split_on "." text = [a; b; d] <-> text = a ++ "."%char :: b ++ "."%char :: d /\ ~ In "."%char (a ++ b ++ d).
Proof.
  intros text a b d. split.
  - intro H. split.
    + rewrite <- (join_split "." text), H. reflexivity.
    + pose proof (split_on_no_sep "." text) as F. rewrite H in F. inversion F as [|? ? F1 F2]; subst. inversion F2 as [|? ? F3 F4]; subst. inversion F4; subst.
      rewrite !in_app_iff. tauto.
  - intros (-> & N). rewrite !in_app_iff in N. rewrite split_on_app, split_on_app, split_on_no_char by tauto. reflexivity.
Qed.
Lemma signed_split : forall t id c sig, split_on "." (signing_text t id c ++ "."%char :: JwksModel.b64u sig) =
  [segment (header_json t id); segment (claims_json c); JwksModel.b64u sig].
Proof.
  intros. apply split_three. split; [unfold signing_text; rewrite <- app_assoc; reflexivity|].
  unfold segment. rewrite !in_app_iff. intros [H|[H|H]]; eapply b64u_no_dot; exact H.
Qed.
Lemma b64u_nonempty : forall v, valid v = true -> segment v <> [].
Proof.
  intros v V E. unfold segment in E. pose proof (ScriptProofs2.b64u_raw (print go_escape v)) as R. rewrite E in R. cbn in R. injection R as R.
  destruct (print_head go_escape v V) as (c & r & P & _). congruence.
Qed.
Lemma method_name : forall t, method (alg_name t) = Some t.
Proof. intros []; reflexivity. Qed.
Lemma method_spec : forall alg t, method alg = Some t <-> In (alg, t) algorithms.
Proof.
  intros alg t. unfold method. cbn [find]. split.
  - destruct (str_eqb alg (alg_name EC)) eqn:E1; [apply str_eqb_spec in E1; intro H; injection H as <-; left; subst; reflexivity|].
    destruct (str_eqb alg (alg_name RSA)) eqn:E2; [apply str_eqb_spec in E2; intro H; injection H as <-; right; left; subst; reflexivity|].
    destruct (str_eqb alg (alg_name ED)) eqn:E3; [apply str_eqb_spec in E3; intro H; injection H as <-; right; right; left; subst; reflexivity|discriminate].
  - intros [H|[H|[H|[]]]]; injection H as <- <-; reflexivity.
Qed.
Lemma read_map_spec : forall s m, read_map s = Some m <-> exists l, part s l /\ m = rev l.
Proof.
  intros s m. unfold read_map, part. split.
  - destruct (OcspGetModel.raw_url_decode s) as [b|] eqn:E; [|discriminate]. apply raw_url_spec in E.
    destruct (parse_json b) as [v|] eqn:P; [|discriminate]. apply parse_spec in P.
    destruct v; try discriminate; intro H; injection H as <-.
    + exists []. split; [|reflexivity]. exists b, JNull. auto.
    + eexists. split; [|reflexivity]. exists b. eexists. split; [exact E|]. split; [exact P|]. auto.
  - intros (l & (b & v & E & P & H) & -> ). apply raw_url_spec in E. apply parse_spec in P. rewrite E, P. destruct H as [-> |[-> -> ]]; reflexivity.
Qed.
Lemma time_spec : forall c now, exp_ok c now && nbf_ok c now = true <-> in_time c now.
Proof.
  intros c now. unfold exp_ok, nbf_ok, in_time. rewrite andb_true_iff. split.
  - intros [E N]. split; intros v H; rewrite H in *; destruct v as [s|n|l|b]; try discriminate; exists n; split; auto; apply orb_true_iff in E || apply orb_true_iff in N.
    + destruct E as [E|E]; [left|right]; lia.
    + destruct N as [N|N]; [left|right]; lia.
  - intros [E N]. split.
    + destruct (assoc (lit "exp") c) as [v|]; [|reflexivity]. destruct (E v eq_refl) as (n & -> & H). apply orb_true_iff. lia.
    + destruct (assoc (lit "nbf") c) as [v|]; [|reflexivity]. destruct (N v eq_refl) as (n & -> & H). apply orb_true_iff. lia.
Qed.
