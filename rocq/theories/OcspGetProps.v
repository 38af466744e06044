(** C62: OCSP requests by GET and POST. *)
From Verif Require Import Base XfccModel XfccProofs OcspGetModel.

(** The four ways of RFC 4648 to write bytes: standard or URL-safe, padded or not. *)
Record way := { url_safe : bool; padded : bool }.
Definition url_char (c : ascii) : ascii := if Ascii.eqb c "+" then "-"%char else if Ascii.eqb c "/" then "_"%char else c.
Definition write (w : way) (b : str) : str :=
  let s := base64 b in
  let s := if url_safe w then map url_char s else s in
  if padded w then s else filter (fun c => negb (Ascii.eqb c "=")) s.

Ltac by_byte c := destruct c as [[] [] [] [] [] [] [] []].

Lemma url_bits_char b5 b4 b3 b2 b1 b0 : url_bits (std_to_url (b64_char b5 b4 b3 b2 b1 b0)) = Some (b5, b4, b3, b2, b1, b0).
Proof. destruct b5, b4, b3, b2, b1, b0; reflexivity. Qed.
Lemma std_url_char c : std_to_url (url_char c) = std_to_url c.
Proof. by_byte c; reflexivity. Qed.
Lemma map_std_url s : map std_to_url (map url_char s) = map std_to_url s.
Proof. induction s as [|c s IH]; cbn; [reflexivity|]. rewrite std_url_char, IH. reflexivity. Qed.
Lemma std_equal c : Ascii.eqb (std_to_url c) "=" = Ascii.eqb c "=".
Proof. by_byte c; reflexivity. Qed.
Lemma filter_map_equal s : filter (fun c => negb (Ascii.eqb c "=")) (map std_to_url s) = map std_to_url (filter (fun c => negb (Ascii.eqb c "=")) s).
Proof. induction s as [|c s IH]; cbn; [reflexivity|]. rewrite std_equal. destruct (Ascii.eqb c "="); cbn; rewrite IH; reflexivity. Qed.
Lemma url_equal c : Ascii.eqb (url_char c) "=" = Ascii.eqb c "=".
Proof. by_byte c; reflexivity. Qed.

Lemma trim_none s : (forall c, In c s -> Ascii.eqb c "=" = false) -> trim_equals s = s.
Proof.
  induction s as [|c s IH]; intros H; [reflexivity|]. cbn. rewrite IH by (intros; apply H; right; assumption).
  destruct s; [|reflexivity]. rewrite H by (left; reflexivity). reflexivity.
Qed.
Lemma trim_app s t : (forall c, In c s -> Ascii.eqb c "=" = false) -> trim_equals t = [] -> trim_equals (s ++ t) = s.
Proof.
  intros H T. induction s as [|c s IH]; [exact T|]. cbn. rewrite IH by (intros; apply H; right; assumption).
  destruct s; [|reflexivity]. rewrite H by (left; reflexivity). reflexivity.
Qed.

(** The text without padding, and the padding *)
Lemma base64_split b : exists s t, base64 b = s ++ t /\ (forall c, In c s -> Ascii.eqb c "=" = false) /\ (t = [] \/ t = lit "=" \/ t = lit "==") /\
  raw_url_decode (map std_to_url s) = Some b.
Proof.
  assert (E : forall b5 b4 b3 b2 b1 b0, Ascii.eqb (b64_char b5 b4 b3 b2 b1 b0) "=" = false) by (intros [] [] [] [] [] []; reflexivity).
  assert (F : forall b5 b4 b3 b2 b1 b0, (fun c => negb (Ascii.eqb c "010") && negb (Ascii.eqb c "013")) (std_to_url (b64_char b5 b4 b3 b2 b1 b0)) = true) by (intros [] [] [] [] [] []; reflexivity).
  unfold raw_url_decode.
  induction b as [|a|a b|a b c r IH] using base64_cases.
  - exists [], []. cbn. repeat split; auto. intros c [].
  - destruct a. cbn [base64]. match goal with |- context[[?x; ?y; equal; equal]] => exists [x; y], (lit "==") end. split; [reflexivity|].
    split; [intros c [<-|[<-|[]]]; apply E|]. split; [auto|]. cbn [map filter]. rewrite !F. cbn [decode4]. rewrite !url_bits_char. reflexivity.
  - destruct a, b. cbn [base64]. match goal with |- context[[?x; ?y; ?z; equal]] => exists [x; y; z], (lit "=") end. split; [reflexivity|].
    split; [intros c [<-|[<-|[<-|[]]]]; apply E|]. split; [auto|]. cbn [map filter]. rewrite !F. cbn [decode4]. rewrite !url_bits_char. reflexivity.
  - destruct IH as (s & t & B & H & T & D). destruct a, b, c. cbn [base64]. rewrite B.
    match goal with |- context[?x :: ?y :: ?z :: ?u :: s ++ t] => exists (x :: y :: z :: u :: s), t end. split; [reflexivity|].
    split; [intros c [<-|[<-|[<-|[<-|I]]]]; [apply E..|apply H; exact I]|]. split; [exact T|].
    cbn [map filter]. rewrite !F. cbn [decode4]. rewrite !url_bits_char, D. reflexivity.
Qed.

Lemma filter_all {A : Type} (f : A -> bool) l : (forall x, In x l -> f x = true) -> filter f l = l.
Proof. induction l as [|x l IH]; cbn; intros H; [reflexivity|]. rewrite H, IH by auto. reflexivity. Qed.

Lemma write_read w b : raw_url_decode (trim_equals (map std_to_url (write w b))) = Some b.
Proof.
  destruct (base64_split b) as (s & t & B & H & T & D).
  assert (X : map std_to_url (write w b) = map std_to_url (if padded w then s ++ t else s)).
  { unfold write. rewrite B.
    assert (Fs : filter (fun c => negb (Ascii.eqb c "=")) s = s) by (apply filter_all; intros x I; rewrite H by exact I; reflexivity).
    assert (Ft : filter (fun c => negb (Ascii.eqb c "=")) t = []) by (destruct T as [->|[->| ->]]; reflexivity).
    destruct (url_safe w), (padded w); try reflexivity.
    - apply map_std_url.
    - rewrite <- filter_map_equal, map_std_url, filter_map_equal, filter_app, Fs, Ft, app_nil_r. reflexivity.
    - rewrite filter_app, Fs, Ft, app_nil_r. reflexivity. }
  assert (H' : forall c, In c (map std_to_url s) -> Ascii.eqb c "=" = false).
  { intros c I. apply in_map_iff in I as (x & <- & I). rewrite std_equal. apply H. exact I. }
  rewrite X. destruct (padded w).
  - rewrite map_app, trim_app; [exact D|exact H'|]. destruct T as [->|[->| ->]]; reflexivity.
  - rewrite trim_none; [exact D|exact H'].
Qed.

Lemma unescape_plain s : ~ In "%"%char s -> unescape s = Some s.
Proof.
  induction s as [|c s IH]; intros H; [reflexivity|]. cbn. destruct (Ascii.eqb c "%") eqn:E; [apply Ascii.eqb_eq in E; subst; destruct H; left; reflexivity|].
  rewrite IH by (intros X; apply H; right; exact X). reflexivity.
Qed.
Lemma write_chars w b c : In c (write w b) -> exists x, In x (base64 b) /\ (c = x \/ c = url_char x).
Proof.
  unfold write. intros H.
  assert (K : In c (if url_safe w then map url_char (base64 b) else base64 b)) by (destruct (padded w); [exact H|apply filter_In in H; apply H]).
  destruct (url_safe w); [|exists c; auto]. apply in_map_iff in K as (x & <- & K). exists x. auto.
Qed.
Lemma write_no_percent w b : ~ In "%"%char (write w b).
Proof.
  intros H. apply write_chars in H as (x & I & E). apply base64_chars in I. destruct E as [<-|E]; [discriminate|].
  revert I E. by_byte x; discriminate.
Qed.
Lemma after_last p s : ~ In "/"%char s -> after_last_slash (p ++ "/"%char :: s) = Some s.
Proof.
  intros H. induction p as [|c p IH]; cbn.
  - assert (E : after_last_slash s = None).
    { clear - H. induction s as [|c s IH]; [reflexivity|]. cbn. rewrite IH by (intros X; apply H; right; exact X).
      destruct (Ascii.eqb c "/") eqn:E; [|reflexivity]. apply Ascii.eqb_eq in E. subst. destruct H. left. reflexivity. }
    rewrite E. reflexivity.
  - rewrite IH. reflexivity.
Qed.

(** A request that is written in one of the four ways, after a slash, with any characters
    percent-encoded, is read as it was written, unless there is a slash in it. *)
Theorem C62_get_understood_partial :
  forall w b prefix raw,
  unescape raw = Some (prefix ++ "/"%char :: write w b) ->
  ~ In "/"%char (write w b) ->
  ocsp_get raw = Some b.
Proof.
  intros w b p raw U N. unfold ocsp_get. rewrite U, after_last by exact N. rewrite unescape_plain by apply write_no_percent. apply write_read.
Qed.

(** The URL-safe ways have no slash. *)
Theorem C62_url_safe_understood :
  forall w b prefix raw,
  url_safe w = true -> unescape raw = Some (prefix ++ "/"%char :: write w b) -> ocsp_get raw = Some b.
Proof.
  intros w b p raw W U. apply (C62_get_understood_partial w b p raw U). intros H. unfold write in H. rewrite W in H.
  assert (K : In "/"%char (map url_char (base64 b))) by (destruct (padded w); [exact H|apply filter_In in H; apply H]).
  apply in_map_iff in K as (x & E & _). revert E. by_byte x; discriminate.
Qed.

Example C62_example :
  let raw := lit "/ocsp/%2B%2Bw%3d" in
  unescape raw = Some (lit "/ocsp" ++ "/"%char :: write {| url_safe := false; padded := true |} ["251"; "236"]%char) /\ ocsp_get raw = Some ["251"; "236"]%char.
Proof. split; vm_compute; reflexivity. Qed.

(** A slash is an ordinary character of standard base64.  Everything up to it is lost, even
    when it is percent-encoded. *)
Theorem C62_standard_base64_refuted :
  ~ (forall w b prefix raw, unescape raw = Some (prefix ++ "/"%char :: write w b) -> ocsp_get raw = Some b).
Proof.
  intros H. specialize (H {| url_safe := false; padded := true |} ["255"; "255"; "255"; "000"; "000"; "000"]%char (lit "/ocsp") (lit "/ocsp/%2F%2F%2F%2FAAAA") ltac:(vm_compute; reflexivity)).
  vm_compute in H. discriminate.
Qed.

(** The characters of base64, standard and URL-safe (RFC 4648, tables 1 and 2). *)
Definition base64_alphabet : str := lit "ABCDEFGHIJKLMNOPQRSTUVWXYZabcdefghijklmnopqrstuvwxyz0123456789+/-_".

Lemma url_bits_alphabet : forall c, ~ In c base64_alphabet -> c <> "="%char -> url_bits c = None.
Proof.
  intros c H N. destruct (url_bits c) eqn:E; [exfalso|reflexivity]. apply H. clear H. revert E.
  by_byte c; try discriminate; intros _; cbv; tauto.
Qed.

Lemma decode4_bad : forall s c, In c s -> url_bits c = None -> decode4 s = None.
Proof.
  intros s c I B. assert (G : forall n s, (List.length s <= n)%nat -> In c s -> decode4 s = None); [|exact (G _ s (le_n _) I)].
  clear s I. induction n as [|n IH]; intros s L I; [destruct s; [destruct I|cbn in L; lia]|].
  destruct s as [|x1 [|x2 [|x3 [|x4 r]]]]; cbn [decode4]; [destruct I|reflexivity| | |].
  - destruct I as [->|[->|[]]]; rewrite B; [reflexivity|]. destruct (url_bits x1) as [[[[[[? ?] ?] ?] ?] ?]|]; reflexivity.
  - destruct I as [->|[->|[->|[]]]]; rewrite B; try reflexivity; destruct (url_bits x1) as [[[[[[? ?] ?] ?] ?] ?]|]; try reflexivity.
    destruct (url_bits x2) as [[[[[[? ?] ?] ?] ?] ?]|]; reflexivity.
  - assert (J : url_bits x1 = None \/ url_bits x2 = None \/ url_bits x3 = None \/ url_bits x4 = None \/ decode4 r = None).
    { destruct I as [->|[->|[->|[->|I]]]]; auto. do 4 right. apply IH; [cbn in L; lia|exact I]. }
    destruct J as [->|[->|[->|[->| ->]]]]; try reflexivity;
      repeat match goal with |- context [match ?e with Some _ => _ | None => _ end] => destruct e as [[[[[[? ?] ?] ?] ?] ?]|]; try reflexivity end.
Qed.

Lemma trim_equals_in : forall s c, In c s -> c <> "="%char -> In c (trim_equals s).
Proof.
  induction s as [|x s IH]; intros c I N; [destruct I|]. cbn [trim_equals]. destruct I as [->|I].
  - destruct (trim_equals s); [|now left]. destruct (Ascii.eqb c "=") eqn:E; [apply Ascii.eqb_eq in E; contradiction|now left].
  - specialize (IH c I N). destruct (trim_equals s); [destruct IH|now right].
Qed.

(** Anything else is refused: any other character, in the last part of the path, but for
    those that take the place of base64 characters (the space that a plus sign becomes, the
    padding) and line ends. *)
Theorem C62_other_characters_refused : forall raw prefix part data c,
  unescape raw = Some (prefix ++ "/"%char :: part) -> ~ In "/"%char part -> unescape part = Some data ->
  In c data -> ~ In c base64_alphabet -> ~ In c [" "; "="; "010"; "013"]%char ->
  ocsp_get raw = None.
Proof.
  intros raw prefix part data c U N U2 I A O. unfold ocsp_get. rewrite U, after_last by exact N. rewrite U2.
  unfold raw_url_decode.
  assert (E : std_to_url c = c).
  { unfold std_to_url. destruct (Ascii.eqb c " ") eqn:E1; [apply Ascii.eqb_eq in E1; subst; destruct O; now left|].
    destruct (Ascii.eqb c "+") eqn:E2; [apply Ascii.eqb_eq in E2; subst; destruct A; cbv; tauto|].
    destruct (Ascii.eqb c "/") eqn:E3; [apply Ascii.eqb_eq in E3; subst; destruct A; cbv; tauto|reflexivity]. }
  assert (Ne : c <> "="%char) by (intros ->; apply O; cbv; tauto).
  apply (decode4_bad _ c); [|exact (url_bits_alphabet c A Ne)].
  apply filter_In. split.
  - apply trim_equals_in; [|exact Ne]. rewrite <- E. apply in_map. exact I.
  - destruct (Ascii.eqb c "010") eqn:E1; [apply Ascii.eqb_eq in E1; subst; destruct O; cbv; tauto|].
    destruct (Ascii.eqb c "013") eqn:E2; [apply Ascii.eqb_eq in E2; subst; destruct O; cbv; tauto|reflexivity].
Qed.
Example C62_example_refused : ocsp_get (lit "/ocsp/AA*A") = None /\ ocsp_get (lit "/ocsp/AAAA") <> None.
Proof. split; [reflexivity|discriminate]. Qed.

(** By POST every request of less than 4096 bytes is understood, and nothing else is. *)
Theorem C62_post_understood :
  forall ct b, ocsp_post ct (Some b) = (if str_eqb ct (lit "application/ocsp-request") && (List.length b <? 4096)%nat then Some b else None).
Proof.
  intros ct b. unfold ocsp_post. destruct (str_eqb ct _); [|reflexivity]. cbn [andb]. rewrite firstn_length.
  destruct (List.length b <? 4096)%nat eqn:L.
  - apply Nat.ltb_lt in L. rewrite Nat.min_r by lia. destruct (List.length b =? 4096)%nat eqn:Q; [apply Nat.eqb_eq in Q; lia|]. rewrite firstn_all2 by lia. reflexivity.
  - apply Nat.ltb_ge in L. rewrite Nat.min_l by lia. rewrite Nat.eqb_refl. reflexivity.
Qed.

Print Assumptions C62_get_understood_partial.
Print Assumptions C62_url_safe_understood.
Print Assumptions C62_standard_base64_refuted.
Print Assumptions C62_post_understood.
Print Assumptions C62_other_characters_refused.
