From Verif Require Import Base XfccModel XfccSpec.

Ltac by_byte c := destruct c as [b0 b1 b2 b3 b4 b5 b6 b7]; destruct b0, b1, b2, b3, b4, b5, b6, b7.

(** * Reading back what encode wrote *)
Lemma read_quoted k v acc r : read (Quoted k acc false) (escape v ++ quote :: r) = read (Closed k (rev v ++ acc)) r.
Proof.
  revert acc. induction v as [|c v IH]; intro acc; [reflexivity|]. cbn [escape rev].
  destruct (Ascii.eqb c bslash || Ascii.eqb c quote) eqn:E.
  - cbn [app read]. change (Ascii.eqb bslash quote) with false. change (Ascii.eqb bslash bslash) with true. cbv iota.
    rewrite IH, <- app_assoc. reflexivity.
  - apply orb_false_elim in E. destruct E as [E1 E2]. cbn [app read]. rewrite E1, E2, IH, <- app_assoc. reflexivity.
Qed.

Lemma escape_special v : existsb special (escape v) = existsb special v.
Proof.
  induction v as [|c v IH]; [reflexivity|]. cbn [escape existsb]. destruct (_ || _) eqn:E.
  - cbn [existsb]. rewrite IH. reflexivity.
  - cbn [existsb]. rewrite IH. reflexivity.
Qed.

Lemma read_bare k v acc r : existsb special v = false ->
  read (Bare k acc false) (escape v ++ r) = read (Bare k (rev v ++ acc) false) r.
Proof.
  revert acc. induction v as [|c v IH]; intros acc H; [reflexivity|]. cbn [existsb] in H. apply orb_false_elim in H. destruct H as [H1 H2].
  cbn [escape rev]. destruct (Ascii.eqb c bslash || Ascii.eqb c quote) eqn:E.
  - cbn [app read]. change (Ascii.eqb bslash semi) with false. change (Ascii.eqb bslash bslash) with true. cbv iota.
    rewrite IH, <- app_assoc by exact H2. reflexivity.
  - apply orb_false_elim in E. destruct E as [E1 E2]. cbn [app read].
    assert (S : Ascii.eqb c semi = false) by (unfold special in H1; apply orb_false_elim in H1; destruct H1 as [H1 _]; apply orb_false_elim in H1; tauto).
    rewrite S, E1, H1, E2. cbn [orb]. rewrite IH, <- app_assoc by exact H2. reflexivity.
Qed.

(** After a value: the end of the header, or a semicolon and more. *)
Definition after (k v : str) (r : str) (rest : option (list (str * str))) : Prop :=
  (r = [] /\ rest = Some []) \/ (exists r', r' <> [] /\ r = semi :: r' /\ rest = read (InKey []) r').

Lemma read_value k v r rest : after k v r rest -> read (Start k) (encode v ++ r) = option_map (cons (k, v)) rest.
Proof.
  intro H. unfold encode. rewrite escape_special. destruct (existsb special v) eqn:E.
  - cbn [app read]. rewrite Ascii.eqb_refl. rewrite <- app_assoc. cbn [app]. rewrite read_quoted, app_nil_r.
    destruct H as [[-> ->]|(r' & Hr & -> & ->)].
    + cbn [read]. rewrite rev_involutive. reflexivity.
    + cbn [read]. rewrite Ascii.eqb_refl, rev_involutive. destruct r'; [congruence|reflexivity].
  - assert (B : read (Bare k [] false) (escape v ++ r) = option_map (cons (k, v)) rest).
    { rewrite read_bare, app_nil_r by exact E. destruct H as [[-> ->]|(r' & Hr & -> & ->)].
      + cbn [read]. rewrite rev_involutive. reflexivity.
      + cbn [read]. rewrite Ascii.eqb_refl, rev_involutive. destruct r'; [congruence|reflexivity]. }
    rewrite <- B. destruct v as [|c v]; cbn [escape app].
    + destruct H as [[-> ->]|(r' & Hr & -> & ->)]; cbn [read]; [reflexivity|]. change (Ascii.eqb semi quote) with false. rewrite Ascii.eqb_refl. reflexivity.
    + cbn [existsb] in E. apply orb_false_elim in E. destruct E as [E1 _].
      assert (S : Ascii.eqb c semi = false) by (unfold special in E1; apply orb_false_elim in E1; destruct E1 as [E1 _]; apply orb_false_elim in E1; tauto).
      destruct (Ascii.eqb c bslash || Ascii.eqb c quote) eqn:Eq.
      * cbn [app read]. reflexivity.
      * apply orb_false_elim in Eq. destruct Eq as [E2 E3]. cbn [app read]. rewrite E3, S, E2, E1. reflexivity.
Qed.

Definition key_ok (k : str) : Prop := forall c, In c k -> special c || Ascii.eqb c quote || Ascii.eqb c bslash = false.
Lemma read_key k acc r : key_ok k -> read (InKey acc) (k ++ equal :: r) = read (Start (rev acc ++ k)) r.
Proof.
  revert acc. induction k as [|c k IH]; intros acc H.
  - cbn [app read]. rewrite Ascii.eqb_refl, app_nil_r. reflexivity.
  - cbn [app read]. assert (Hc := H c (or_introl eq_refl)).
    assert (E : Ascii.eqb c equal = false). { apply orb_false_elim in Hc. destruct Hc as [Hc _]. apply orb_false_elim in Hc. destruct Hc as [Hc _]. unfold special in Hc. apply orb_false_elim in Hc. tauto. }
    rewrite E, Hc, IH by (intros d Hd; apply H; right; exact Hd). cbn [rev]. rewrite <- app_assoc. reflexivity.
Qed.

Lemma read_fields fs : Forall (fun kv => key_ok (fst kv)) fs ->
  read_header (join semi (map (fun kv => fst kv ++ equal :: encode (snd kv)) fs)) = Some fs.
Proof.
  unfold read_header. induction fs as [|[k v] fs IH]; intro H; [reflexivity|].
  assert (H1 := Forall_inv H). assert (H2 := Forall_inv_tail H). cbn [fst] in H1. specialize (IH H2).
  destruct fs as [|kv2 fs].
  - cbn [map join fst snd]. rewrite read_key by exact H1. cbn [rev app]. replace (encode v) with (encode v ++ []) by apply app_nil_r.
    rewrite (read_value k v [] (Some [])); [reflexivity|]. left. auto.
  - cbn [map] in IH |- *. cbn [fst snd]. rewrite join_cons by discriminate. rewrite <- app_assoc. cbn [app].
    rewrite read_key by exact H1. cbn [rev app].
    rewrite (read_value k v _ (Some (kv2 :: fs))); [reflexivity|]. right. eexists. split; [|split; [reflexivity|symmetry; exact IH]].
    intro X. destruct kv2 as [k2 v2]. cbn [fst snd] in X. destruct fs as [|kv3 fs].
    + cbn [map join] in X. apply app_eq_nil in X. destruct X; discriminate.
    + cbn [map] in X. rewrite join_cons in X by discriminate. apply app_eq_nil in X. destruct X as [X _]. apply app_eq_nil in X. destruct X; discriminate.
Qed.

(** * The subject is split exactly between its relative names *)
Lemma escape_rune_parts f l c cur r : subject_parts false cur (escape_rune f l c ++ r) = subject_parts false (rev (escape_rune f l c) ++ cur) r.
Proof.
  unfold escape_rune. destruct (_ || _) eqn:E.
  - cbn [app subject_parts rev]. change (Ascii.eqb bslash ",") with false. change (Ascii.eqb bslash bslash) with true. cbn [negb andb].
    rewrite andb_false_r. reflexivity.
  - apply orb_false_elim in E. destruct E as [E _]. apply orb_false_elim in E. destruct E as [E _].
    assert (A : Ascii.eqb c "," = false /\ Ascii.eqb c bslash = false).
    { unfold always_escaped in E. apply has_char_false in E. split; apply Ascii.eqb_neq; intros ->; apply E; vm_compute; tauto. }
    destruct A as [A1 A2]. cbn [app subject_parts rev]. rewrite A1, A2. reflexivity.
Qed.
Lemma escape_value_parts v f cur r : subject_parts false cur (escape_value f v ++ r) = subject_parts false (rev (escape_value f v) ++ cur) r.
Proof.
  revert f cur. induction v as [|c v IH]; intros f cur; [reflexivity|]. cbn [escape_value]. rewrite <- app_assoc, escape_rune_parts, IH.
  rewrite rev_app_distr, <- app_assoc. reflexivity.
Qed.

Definition calm (s : str) : Prop := forall c, In c s -> c <> ","%char /\ c <> bslash.
Lemma calm_parts s cur r : calm s -> subject_parts false cur (s ++ r) = subject_parts false (rev s ++ cur) r.
Proof.
  revert cur. induction s as [|c s IH]; intros cur H; [reflexivity|]. destruct (H c (or_introl eq_refl)) as [H1 H2].
  apply Ascii.eqb_neq in H1, H2. cbn [app subject_parts]. rewrite H1, H2. cbn [negb andb rev]. rewrite IH by (intros d Hd; apply H; right; exact Hd).
  rewrite <- app_assoc. reflexivity.
Qed.
Lemma unreserved_calm c : unreserved c = true -> c <> ","%char /\ c <> bslash.
Proof. intro H. by_byte c; try (vm_compute in H; discriminate H); split; discriminate. Qed.
Lemma word_calm s : word s -> calm s.
Proof. intros [_ H] c Hc. apply unreserved_calm. auto. Qed.
Lemma hex_calm s : calm (hex s).
Proof.
  intros c Hc. unfold hex in Hc. apply in_concat in Hc. destruct Hc as (l & Hl & Hc). apply in_map_iff in Hl. destruct Hl as (x & <- & _).
  revert Hc. by_byte x; vm_compute; intros [<-|[<-|[]]]; split; discriminate.
Qed.

Lemma attribute_parts a cur r : attribute_ok a ->
  subject_parts false cur (attribute_string a ++ r) = subject_parts false (rev (attribute_string a) ++ cur) r.
Proof.
  intro H. destruct a as [n v|o d]; cbn [attribute_string].
  - change (n ++ equal :: escape_value true v) with (n ++ [equal] ++ escape_value true v). rewrite !app_assoc, <- (app_assoc (n ++ [equal])).
    rewrite calm_parts.
    + rewrite escape_value_parts. rewrite !rev_app_distr, <- !app_assoc. reflexivity.
    + intros c Hc. apply in_app_iff in Hc. destruct Hc as [Hc|[<-|[]]]; [|split; discriminate]. apply (word_calm n H c Hc).
  - change (o ++ equal :: "#"%char :: hex d) with (o ++ [equal; "#"%char] ++ hex d). apply calm_parts.
    intros c Hc. apply in_app_iff in Hc. destruct Hc as [Hc|Hc]; [exact (word_calm o H c Hc)|].
    apply in_app_iff in Hc. destruct Hc as [[<-|[<-|[]]]|Hc]; [split; discriminate..|]. exact (hex_calm d c Hc).
Qed.

Lemma rdn_parts r cur rest : Forall attribute_ok r ->
  subject_parts false cur (rdn_string r ++ rest) = subject_parts false (rev (rdn_string r) ++ cur) rest.
Proof.
  unfold rdn_string. revert cur. induction r as [|a r IH]; intros cur H; [reflexivity|].
  destruct r as [|b r].
  - cbn [map join]. apply attribute_parts. exact (Forall_inv H).
  - cbn [map] in IH |- *. rewrite join_cons by discriminate. rewrite <- !app_assoc, attribute_parts by exact (Forall_inv H).
    rewrite <- app_comm_cons. cbn [subject_parts]. change (Ascii.eqb plus ",") with false. change (Ascii.eqb plus bslash) with false. cbn [andb negb].
    rewrite IH by exact (Forall_inv_tail H). rewrite rev_app_distr. cbn [rev]. rewrite <- !app_assoc. reflexivity.
Qed.

Lemma rdn_string_ne r : r <> [] -> Forall attribute_ok r -> rdn_string r <> [].
Proof.
  intros H H1. destruct r as [|a r]; [congruence|]. unfold rdn_string.
  assert (A : attribute_string a <> []) by (destruct a; cbn; intro X; apply app_eq_nil in X; destruct X; discriminate).
  destruct r as [|b r]; cbn [map join]; [exact A|]. intro X. apply app_eq_nil in X. tauto.
Qed.

Lemma parts_list l : Forall (fun r => r <> [] /\ Forall attribute_ok r) l ->
  subject_parts false [] (join "," (map rdn_string l)) = map rdn_string l.
Proof.
  induction l as [|r l IH]; intro H; [reflexivity|]. destruct (Forall_inv H) as [H1 H2]. assert (H3 := Forall_inv_tail H).
  destruct l as [|r2 l].
  - cbn [map join]. replace (rdn_string r) with (rdn_string r ++ []) at 1 by apply app_nil_r. rewrite rdn_parts, app_nil_r by exact H2.
    cbn [subject_parts]. assert (N := rdn_string_ne r H1 H2). destruct (rev (rdn_string r)) eqn:E.
    + exfalso. apply N. rewrite <- (rev_involutive (rdn_string r)), E. reflexivity.
    + rewrite <- E, rev_involutive. reflexivity.
  - cbn [map] in IH |- *. rewrite join_cons by discriminate. rewrite rdn_parts, app_nil_r by exact H2.
    cbn [subject_parts]. change (Ascii.eqb "," ",") with true. cbn [andb negb]. rewrite rev_involutive, IH by exact H3. reflexivity.
Qed.

Lemma subject_split rdns : subject_ok rdns -> subject_parts false [] (name_string rdns) = map rdn_string (rev rdns).
Proof.
  intro H. unfold name_string. apply parts_list. apply Forall_forall. intros r Hr. apply H. apply in_rev. exact Hr.
Qed.

(** * The whole header *)
Section Hash.
Variable sha256 : str -> str.
Lemma header_says which p : subject_ok (c_subject (p_leaf p)) ->
  header_fields sha256 p which = map (fun kv => fst kv ++ equal :: encode (snd kv)) (says sha256 p which).
Proof.
  intro H. unfold header_fields, says. cbv zeta.
  destruct (str_eqb _ (lit "cert")); [reflexivity|]. destruct (str_eqb _ (lit "chain")); [rewrite map_map; reflexivity|].
  destruct (str_eqb _ (lit "hash")); [reflexivity|].
  destruct (str_eqb _ (lit "subject")). { cbn [map fst snd]. unfold encode_subject. rewrite subject_split by exact H. reflexivity. }
  destruct (str_eqb _ (lit "uri")); [rewrite map_map; reflexivity|].
  destruct (str_eqb _ (lit "dns")); [rewrite map_map; reflexivity|]. reflexivity.
Qed.
Lemma says_keys which p : Forall (fun kv => key_ok (fst kv)) (says sha256 p which).
Proof.
  assert (K : forall k, In k [lit "Cert"; lit "Chain"; lit "Hash"; lit "Subject"; lit "URI"; lit "DNS"] -> key_ok k).
  { intros k Hk. repeat (destruct Hk as [<-|Hk]; [intros c Hc; vm_compute in Hc; repeat (destruct Hc as [<-|Hc]; [reflexivity|]); destruct Hc|]). destruct Hk. }
  unfold says. cbv zeta.
  repeat match goal with |- Forall _ (if ?b then _ else _) => destruct b end;
  apply Forall_forall; intros kv Hkv; try (apply in_map_iff in Hkv; destruct Hkv as (x & <- & _)); try (destruct Hkv as [<-|[]]); try destruct Hkv;
  cbn [fst]; apply K; repeat (first [left; reflexivity|right]).
Qed.

Lemma header_reads which p : subject_ok (c_subject (p_leaf p)) ->
  read_header (header sha256 which p) = Some (List.concat (map (says sha256 p) which)).
Proof.
  intro H. unfold header.
  replace (List.concat (map (header_fields sha256 p) which)) with
    (map (fun kv => fst kv ++ equal :: encode (snd kv)) (List.concat (map (says sha256 p) which))).
  - apply read_fields. induction which as [|w which IH]; cbn; [constructor|]. apply Forall_app. split; [apply says_keys|exact IH].
  - induction which as [|w which IH]; cbn [map List.concat]; [reflexivity|]. rewrite map_app, IH, header_says by exact H. reflexivity.
Qed.
End Hash.

(** * QueryEscape, hex, base64 and PEM lose nothing *)
Lemma unescape_byte c r : query_unescape (escape_byte c ++ r) = c :: query_unescape r.
Proof. by_byte c; reflexivity. Qed.
Lemma query_roundtrip s : query_unescape (query_escape s) = s.
Proof.
  unfold query_escape. induction s as [|c s IH]; [reflexivity|]. cbn [map List.concat]. rewrite unescape_byte, IH. reflexivity.
Qed.
Lemma query_injective a b : query_escape a = query_escape b -> a = b.
Proof. intro H. rewrite <- (query_roundtrip a), <- (query_roundtrip b), H. reflexivity. Qed.

Lemma hex_pair_inj a b : hex_digit false (N_of_ascii a / 16) = hex_digit false (N_of_ascii b / 16) ->
  hex_digit false (N_of_ascii a mod 16) = hex_digit false (N_of_ascii b mod 16) -> a = b.
Proof.
  assert (V : forall n, (n < 16)%N -> hex_value (hex_digit false n) = n).
  { intros n Hn. assert (In n (map N.of_nat (seq 0 16))).
    { apply in_map_iff. exists (N.to_nat n). rewrite N2Nat.id. split; [reflexivity|]. apply in_seq. lia. }
    cbn in H. repeat (destruct H as [<-|H]; [reflexivity|]). destruct H. }
  assert (Hb : forall c, (N_of_ascii c < 256)%N) by apply N_ascii_bounded.
  intros H1 H2.
  assert (A : (N_of_ascii a / 16 = N_of_ascii b / 16)%N).
  { rewrite <- (V (N_of_ascii a / 16)%N), <- (V (N_of_ascii b / 16)%N), H1; [reflexivity|..]; apply N.div_lt_upper_bound; try lia; apply Hb. }
  assert (B : (N_of_ascii a mod 16 = N_of_ascii b mod 16)%N).
  { rewrite <- (V (N_of_ascii a mod 16)%N), <- (V (N_of_ascii b mod 16)%N), H2; [reflexivity|..]; apply N.mod_lt; lia. }
  rewrite <- (ascii_N_embedding a), <- (ascii_N_embedding b). f_equal.
  rewrite (N.div_mod (N_of_ascii a) 16), (N.div_mod (N_of_ascii b) 16), A, B by lia. reflexivity.
Qed.
Lemma hex_injective a b : hex a = hex b -> a = b.
Proof.
  unfold hex. revert b. induction a as [|x a IH]; intros [|y b] H; try discriminate; [reflexivity|].
  cbn [map List.concat app] in H. injection H as H1 H2 H3. f_equal; [apply hex_pair_inj; assumption|]. apply IH. exact H3.
Qed.

(** The six bits of a base64 character. *)
Definition bits_of (c : ascii) : list bool :=
  let n := N_of_ascii c in
  let v := (if (65 <=? n) && (n <=? 90) then n - 65 else if (97 <=? n) && (n <=? 122) then n - 71
            else if (48 <=? n) && (n <=? 57) then n + 4 else if n =? 43 then 62 else 63)%N in
  match ascii_of_N v with Ascii b0 b1 b2 b3 b4 b5 _ _ => [b5; b4; b3; b2; b1; b0] end.
Lemma bits_of_char b5 b4 b3 b2 b1 b0 : bits_of (b64_char b5 b4 b3 b2 b1 b0) = [b5; b4; b3; b2; b1; b0].
Proof. destruct b5, b4, b3, b2, b1, b0; reflexivity. Qed.
Lemma b64_inj a5 a4 a3 a2 a1 a0 b5 b4 b3 b2 b1 b0 : b64_char a5 a4 a3 a2 a1 a0 = b64_char b5 b4 b3 b2 b1 b0 ->
  [a5; a4; a3; a2; a1; a0] = [b5; b4; b3; b2; b1; b0].
Proof. intro H. rewrite <- bits_of_char, H. apply bits_of_char. Qed.
Lemma b64_not_equal b5 b4 b3 b2 b1 b0 : b64_char b5 b4 b3 b2 b1 b0 <> equal.
Proof. destruct b5, b4, b3, b2, b1, b0; discriminate. Qed.

Lemma base64_cases (P : str -> Prop) : P [] -> (forall a, P [a]) -> (forall a b, P [a; b]) ->
  (forall a b c r, P r -> P (a :: b :: c :: r)) -> forall s, P s.
Proof.
  intros H0 H1 H2 H3 s. enough (A : P s /\ (forall a, P (a :: s)) /\ (forall a b, P (a :: b :: s))) by tauto.
  induction s as [|x s (I1 & I2 & I3)]; repeat split; auto.
Qed.
Lemma base64_injective a b : base64 a = base64 b -> a = b.
Proof.
  revert b. induction a as [|a1|a1 a2|a1 a2 a3 r IH] using base64_cases; intros [|b1 [|b2 [|b3 t]]] H;
    try destruct a1; try destruct a2; try destruct a3; try destruct b1; try destruct b2; try destruct b3;
    cbn [base64] in H; try discriminate; try reflexivity;
    repeat match goal with
    | H : _ :: _ = _ :: _ |- _ => let A := fresh in let B := fresh in injection H as A B
    | H : equal = b64_char _ _ _ _ _ _ |- _ => symmetry in H; exfalso; revert H; apply b64_not_equal
    | H : b64_char _ _ _ _ _ _ = equal |- _ => exfalso; revert H; apply b64_not_equal
    | H : b64_char _ _ _ _ _ _ = b64_char _ _ _ _ _ _ |- _ => apply b64_inj in H
    end.
  all: try congruence.
  match goal with H : base64 r = base64 t |- _ => apply IH in H end. congruence.
Qed.

Lemma lines_content n s : ~ In newline s -> filter (fun c => negb (Ascii.eqb c newline)) (lines n s) = s.
Proof.
  revert n. induction s as [|c s IH]; intros n H; cbn [lines].
  - destruct (n =? 64)%nat; reflexivity.
  - assert (Hc : Ascii.eqb c newline = false) by (apply Ascii.eqb_neq; intro E; apply H; left; exact E).
    assert (Hs : ~ In newline s) by (intro X; apply H; right; exact X).
    destruct n as [|[|n]]; cbn [filter]; rewrite Hc; cbn [negb]; rewrite IH; auto.
Qed.
Lemma lines_chars n s c : In c (lines n s) -> c = newline \/ In c s.
Proof.
  revert n. induction s as [|x s IH]; intros n H; cbn [lines] in H.
  - destruct (n =? 64)%nat; [destruct H|]. destruct H as [<-|[]]. auto.
  - destruct n as [|[|n]]; cbn [In] in H |- *; repeat destruct H as [H|H]; auto; apply IH in H; tauto.
Qed.
Definition b64ish (c : ascii) : bool := unreserved c && negb (has_char c (lit "-_.~")) || has_char c (lit "+/=").
Lemma base64_chars s c : In c (base64 s) -> b64ish c = true.
Proof.
  assert (B : forall b5 b4 b3 b2 b1 b0, b64ish (b64_char b5 b4 b3 b2 b1 b0) = true) by (intros [] [] [] [] [] []; reflexivity).
  induction s as [|[]|[] []|[] [] [] r IH] using base64_cases; cbn [base64 In]; intro H;
    repeat (destruct H as [H|H]; [subst; first [apply B|reflexivity]|]); try destruct H; auto.
Qed.
Lemma base64_no c s : b64ish c = false -> ~ In c (base64 s).
Proof. intros H Hin. apply base64_chars in Hin. congruence. Qed.

Lemma first_char_split {A : Type} (c : A) a b a' b' : ~ In c a -> ~ In c a' -> a ++ c :: b = a' ++ c :: b' -> a = a' /\ b = b'.
Proof.
  revert a'. induction a as [|x a IH]; intros [|y a'] H1 H2 E; cbn [app] in E.
  - injection E as E. auto.
  - injection E as <- _. exfalso. apply H2. left. reflexivity.
  - injection E as -> _. exfalso. apply H1. left. reflexivity.
  - injection E as -> E. destruct (IH a') as [I1 I2]; [intro X; apply H1; right; exact X|intro X; apply H2; right; exact X|exact E|]. subst. auto.
Qed.

Lemma pem_app_injective a b r r' : pem a ++ r = pem b ++ r' -> a = b /\ r = r'.
Proof.
  unfold pem. rewrite <- !app_assoc. intro H. apply app_inv_head in H. apply app_inv_head in H.
  change (lit "-----END CERTIFICATE-----") with ("-"%char :: lit "----END CERTIFICATE-----") in H. rewrite <- !app_comm_cons in H.
  assert (N : forall s, ~ In "-"%char (lines 64 (base64 s))).
  { intros s X. apply lines_chars in X. destruct X as [X|X]; [discriminate X|]. revert X. apply base64_no. reflexivity. }
  apply first_char_split in H; [|apply N..]. destruct H as [H1 H2]. apply app_inv_head in H2. cbn [app] in H2. injection H2 as H2. split; [|exact H2].
  apply base64_injective. rewrite <- (lines_content 64 (base64 a)), <- (lines_content 64 (base64 b)), H1; [reflexivity|apply base64_no; reflexivity..].
Qed.
Lemma pem_injective a b : pem a = pem b -> a = b.
Proof. intro H. apply (pem_app_injective a b [] []). rewrite !app_nil_r. exact H. Qed.
Lemma pem_chain_injective l l' : List.concat (map (fun c => pem (c_raw c)) l) = List.concat (map (fun c => pem (c_raw c)) l') -> map c_raw l = map c_raw l'.
Proof.
  revert l'. induction l as [|a l IH]; intros [|b l'] H; cbn [map List.concat] in *; try reflexivity.
  - exfalso. symmetry in H. apply app_eq_nil in H. destruct H as [H _]. discriminate H.
  - exfalso. apply app_eq_nil in H. destruct H as [H _]. discriminate H.
  - apply pem_app_injective in H. destruct H as [H1 H2]. f_equal; auto.
Qed.

(** * Subjects without slashes can be told apart *)
Fixpoint unescape (v : str) : str :=
  match v with
  | [] => []
  | c :: r => if Ascii.eqb c bslash then match r with d :: r' => d :: unescape r' | [] => [] end else c :: unescape r
  end.
Lemma unescape_value v f : unescape (escape_value f v) = v.
Proof.
  revert f. induction v as [|c v IH]; intro f; [reflexivity|]. cbn [escape_value]. unfold escape_rune at 1.
  destruct (_ || _) eqn:E; cbn [app unescape].
  - rewrite Ascii.eqb_refl, IH. reflexivity.
  - apply orb_false_elim in E. destruct E as [E _]. apply orb_false_elim in E. destruct E as [E _].
    replace (Ascii.eqb c bslash) with false; [rewrite IH; reflexivity|]. symmetry. apply Ascii.eqb_neq. intros ->. discriminate E.
Qed.
Lemma escape_value_first v r : escape_value true v <> "#"%char :: r.
Proof.
  destruct v as [|c v]; cbn [escape_value]; [discriminate|]. unfold escape_rune. destruct (_ || _) eqn:E; [discriminate|].
  intro H. cbn [app] in H. injection H as -> _. discriminate E.
Qed.
Lemma word_no_equal n : word n -> ~ In equal n.
Proof. intros [_ H] Hin. apply H in Hin. discriminate Hin. Qed.
Lemma attribute_injective a b : attribute_ok a -> attribute_ok b -> attribute_string a = attribute_string b -> a = b.
Proof.
  destruct a as [n v|o d], b as [n' v'|o' d']; cbn [attribute_ok attribute_string]; intros H1 H2 H;
    apply first_char_split in H; try (apply word_no_equal; assumption); destruct H as [-> H].
  - rewrite <- (unescape_value v true), <- (unescape_value v' true), H. reflexivity.
  - exfalso. exact (escape_value_first _ _ H).
  - exfalso. symmetry in H. exact (escape_value_first _ _ H).
  - injection H as H. apply hex_injective in H. congruence.
Qed.

(** Splitting a relative name at the plus signs that are not escaped. *)
Fixpoint plus_parts (esc : bool) (cur : str) (s : str) : list str :=
  match s with
  | [] => [rev cur]
  | c :: r => if Ascii.eqb c plus && negb esc then rev cur :: plus_parts false [] r
              else plus_parts (negb esc && Ascii.eqb c bslash) (c :: cur) r
  end.
Lemma plus_rune f l c cur r : plus_parts false cur (escape_rune f l c ++ r) = plus_parts false (rev (escape_rune f l c) ++ cur) r.
Proof.
  unfold escape_rune. destruct (_ || _) eqn:E.
  - cbn [app plus_parts rev]. change (Ascii.eqb bslash plus) with false. change (Ascii.eqb bslash bslash) with true. cbn [negb andb].
    rewrite andb_false_r. reflexivity.
  - apply orb_false_elim in E. destruct E as [E _]. apply orb_false_elim in E. destruct E as [E _].
    assert (A : Ascii.eqb c plus = false /\ Ascii.eqb c bslash = false).
    { unfold always_escaped in E. apply has_char_false in E. split; apply Ascii.eqb_neq; intros ->; apply E; vm_compute; tauto. }
    destruct A as [A1 A2]. cbn [app plus_parts rev]. rewrite A1, A2. reflexivity.
Qed.
Lemma plus_value v f cur r : plus_parts false cur (escape_value f v ++ r) = plus_parts false (rev (escape_value f v) ++ cur) r.
Proof.
  revert f cur. induction v as [|c v IH]; intros f cur; [reflexivity|]. cbn [escape_value]. rewrite <- app_assoc, plus_rune, IH.
  rewrite rev_app_distr, <- app_assoc. reflexivity.
Qed.
Definition plus_calm (s : str) : Prop := forall c, In c s -> c <> plus /\ c <> bslash.
Lemma plus_calm_parts s cur r : plus_calm s -> plus_parts false cur (s ++ r) = plus_parts false (rev s ++ cur) r.
Proof.
  revert cur. induction s as [|c s IH]; intros cur H; [reflexivity|]. destruct (H c (or_introl eq_refl)) as [H1 H2].
  apply Ascii.eqb_neq in H1, H2. cbn [app plus_parts]. rewrite H1, H2. cbn [negb andb rev]. rewrite IH by (intros d Hd; apply H; right; exact Hd).
  rewrite <- app_assoc. reflexivity.
Qed.
Lemma word_plus_calm s : word s -> plus_calm s.
Proof. intros [_ H] c Hc. apply H in Hc. split; intros ->; discriminate Hc. Qed.
Lemma hex_plus_calm s : plus_calm (hex s).
Proof.
  intros c Hc. unfold hex in Hc. apply in_concat in Hc. destruct Hc as (l & Hl & Hc). apply in_map_iff in Hl. destruct Hl as (x & <- & _).
  revert Hc. by_byte x; vm_compute; intros [<-|[<-|[]]]; split; discriminate.
Qed.
Lemma plus_attribute a cur r : attribute_ok a ->
  plus_parts false cur (attribute_string a ++ r) = plus_parts false (rev (attribute_string a) ++ cur) r.
Proof.
  intro H. destruct a as [n v|o d]; cbn [attribute_string].
  - change (n ++ equal :: escape_value true v) with (n ++ [equal] ++ escape_value true v). rewrite !app_assoc, <- (app_assoc (n ++ [equal])).
    rewrite plus_calm_parts.
    + rewrite plus_value. rewrite !rev_app_distr, <- !app_assoc. reflexivity.
    + intros c Hc. apply in_app_iff in Hc. destruct Hc as [Hc|[<-|[]]]; [|split; discriminate]. apply (word_plus_calm n H c Hc).
  - change (o ++ equal :: "#"%char :: hex d) with (o ++ [equal; "#"%char] ++ hex d). apply plus_calm_parts.
    intros c Hc. apply in_app_iff in Hc. destruct Hc as [Hc|Hc]; [exact (word_plus_calm o H c Hc)|].
    apply in_app_iff in Hc. destruct Hc as [[<-|[<-|[]]]|Hc]; [split; discriminate..|]. exact (hex_plus_calm d c Hc).
Qed.
Lemma plus_rdn r : r <> [] -> Forall attribute_ok r -> plus_parts false [] (rdn_string r) = map attribute_string r.
Proof.
  unfold rdn_string. induction r as [|a r IH]; intros N H; [congruence|]. destruct r as [|b r].
  - cbn [map join]. rewrite <- (app_nil_r (attribute_string a)) at 1. rewrite plus_attribute, app_nil_r by exact (Forall_inv H).
    cbn [plus_parts]. rewrite rev_involutive. reflexivity.
  - cbn [map] in IH |- *. rewrite join_cons by discriminate. rewrite plus_attribute, app_nil_r by exact (Forall_inv H).
    cbn [plus_parts]. rewrite Ascii.eqb_refl. cbn [andb negb]. rewrite rev_involutive, IH; [reflexivity|discriminate|exact (Forall_inv_tail H)].
Qed.
Lemma map_inj_on {A B : Type} (f : A -> B) (P : A -> Prop) l l' : (forall x y, P x -> P y -> f x = f y -> x = y) ->
  Forall P l -> Forall P l' -> map f l = map f l' -> l = l'.
Proof.
  intros Hf. revert l'. induction l as [|a l IH]; intros [|b l'] H1 H2 E; try discriminate; [reflexivity|].
  cbn [map] in E. injection E as E1 E2. f_equal; [exact (Hf _ _ (Forall_inv H1) (Forall_inv H2) E1)|]. exact (IH _ (Forall_inv_tail H1) (Forall_inv_tail H2) E2).
Qed.
Lemma rdn_injective r r' : r <> [] /\ Forall attribute_ok r -> r' <> [] /\ Forall attribute_ok r' -> rdn_string r = rdn_string r' -> r = r'.
Proof.
  intros [H1 H2] [H3 H4] E. apply (map_inj_on attribute_string attribute_ok); auto using attribute_injective.
  rewrite <- plus_rdn, <- plus_rdn, E by assumption. reflexivity.
Qed.

Lemma escape_value_In v f c : In c (escape_value f v) -> c = bslash \/ In c v.
Proof.
  revert f. induction v as [|x v IH]; intros f H; [destruct H|]. cbn [escape_value] in H. apply in_app_iff in H. destruct H as [H|H].
  - unfold escape_rune in H. destruct (_ || _); cbn in H; [destruct H as [H|[H|[]]]; auto; right; left; exact H|]. destruct H as [H|[]]. right. left. exact H.
  - apply IH in H. destruct H; [auto|right; right; assumption].
Qed.
Lemma attribute_slash a : attribute_ok a -> slashless a -> ~ In "/"%char (attribute_string a).
Proof.
  destruct a as [n v|o d]; cbn [attribute_ok slashless attribute_string]; intros [_ Hw] Hs H; apply in_app_iff in H; destruct H as [H|[H|H]]; try discriminate H.
  - apply Hw in H. discriminate H.
  - apply escape_value_In in H. destruct H as [H|H]; [discriminate H|contradiction].
  - apply Hw in H. discriminate H.
  - destruct H as [H|H]; [discriminate H|]. unfold hex in H. apply in_concat in H. destruct H as (l & Hl & H). apply in_map_iff in Hl. destruct Hl as (x & <- & _).
    revert H. by_byte x; vm_compute; intros [H|[H|[]]]; discriminate H.
Qed.
Lemma rdn_slash r : Forall attribute_ok r -> Forall slashless r -> ~ In "/"%char (rdn_string r).
Proof.
  unfold rdn_string. intros H1 H2 H. induction r as [|a r IH]; [destruct H|].
  assert (A := attribute_slash a (Forall_inv H1) (Forall_inv H2)). destruct r as [|b r]; [exact (A H)|].
  cbn [map] in *. rewrite join_cons in H by discriminate. apply in_app_iff in H. destruct H as [H|[H|H]]; [exact (A H)|discriminate H|].
  exact (IH (Forall_inv_tail H1) (Forall_inv_tail H2) H).
Qed.

Lemma subject_value_injective s s' : subject_ok s -> subject_ok s' -> Forall (Forall slashless) s -> Forall (Forall slashless) s' ->
  join "/" (map rdn_string (rev s)) = join "/" (map rdn_string (rev s')) -> s = s'.
Proof.
  intros H1 H2 H3 H4 E.
  assert (R : forall s, subject_ok s -> Forall (fun r => r <> [] /\ Forall attribute_ok r) (rev s)).
  { intros l Hl. apply Forall_forall. intros r Hr. apply Hl. apply in_rev. exact Hr. }
  assert (S : forall s, subject_ok s -> Forall (Forall slashless) s -> s <> [] -> split_on "/" (join "/" (map rdn_string (rev s))) = map rdn_string (rev s)).
  { intros l Hl Hs Hn. apply split_join.
    - intro X. apply map_eq_nil in X. apply Hn. rewrite <- (rev_involutive l), X. reflexivity.
    - apply Forall_forall. intros x Hx. apply in_map_iff in Hx. destruct Hx as (r & <- & Hr). apply in_rev in Hr. rewrite Forall_forall in Hs.
      apply rdn_slash; [apply Hl; exact Hr|apply Hs; exact Hr]. }
  assert (Z : forall l, subject_ok l -> l <> [] -> join "/" (map rdn_string (rev l)) <> []).
  { intros l Hl Hn. assert (Hr := R l Hl). destruct (rev l) as [|r q] eqn:Er; [exfalso; apply Hn; rewrite <- (rev_involutive l), Er; reflexivity|].
    destruct (Forall_inv Hr) as [N1 N2]. assert (N := rdn_string_ne r N1 N2). destruct q; cbn [map join]; [exact N|]. intro X. apply app_eq_nil in X. tauto. }
  assert (D : forall l : list rdn, l = [] \/ l <> []) by (intros [|]; [left; reflexivity|right; discriminate]).
  destruct (D s) as [->|N1], (D s') as [->|N2]; try reflexivity.
  - exfalso. exact (Z s' H2 N2 (eq_sym E)).
  - exfalso. exact (Z s H1 N1 E).
  - assert (E2 : map rdn_string (rev s) = map rdn_string (rev s')).
    { rewrite <- (S s), <- (S s'), E; auto. }
    apply (map_inj_on rdn_string (fun r => r <> [] /\ Forall attribute_ok r)) in E2; auto using rdn_injective.
    rewrite <- (rev_involutive s), E2. apply rev_involutive.
Qed.
