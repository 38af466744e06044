(** Property C21: the X-Forwarded-Client-Cert header. *)
From Verif Require Import Base XfccModel XfccSpec XfccProofs.

(** Whatever is in the certificate, the header is read back as exactly the configured
    fields of that certificate, in the configured order. *)
Theorem C21_header_reads_back : forall sha256 which p, subject_ok (c_subject (p_leaf p)) ->
  read_header (header sha256 which p) = Some (List.concat (map (says sha256 p) which)).
Proof. exact header_reads. Qed.
Print Assumptions C21_header_reads_back.

(** Names and certificates inside the fields are escaped reversibly. *)
Theorem C21_query_escape_reversible : forall s, query_unescape (query_escape s) = s.
Proof. exact query_roundtrip. Qed.
Print Assumptions C21_query_escape_reversible.

(** If the certificate itself is among the configured fields, two peers with the same
    header have the same certificate. *)
Lemma same_says sha256 which p p' w : subject_ok (c_subject (p_leaf p)) -> subject_ok (c_subject (p_leaf p')) ->
  header sha256 which p = header sha256 which p' ->
  List.concat (map (says sha256 p) which) = List.concat (map (says sha256 p') which) /\
  (In w which -> forall k, (forall q, exists v, says sha256 q w = [(k, v)]) -> (forall q w' k' v', In (k', v') (says sha256 q w') -> (k' = k <-> to_lower w' = to_lower w)) ->
     says sha256 p w = says sha256 p' w).
Proof.
  intros H1 H2 H. assert (E : Some (List.concat (map (says sha256 p) which)) = Some (List.concat (map (says sha256 p') which))).
  { rewrite <- !header_reads by assumption. rewrite H. reflexivity. }
  assert (E' : List.concat (map (says sha256 p) which) = List.concat (map (says sha256 p') which)) by congruence.
  split; [exact E'|]. clear - E'. intros Hw k Hk Hkeys.
  assert (F : filter (fun kv => str_eqb (fst kv) k) (List.concat (map (says sha256 p) which)) =
              filter (fun kv => str_eqb (fst kv) k) (List.concat (map (says sha256 p') which))) by (rewrite E'; reflexivity).
  assert (S : forall q w', to_lower w' = to_lower w -> says sha256 q w' = says sha256 q w) by (intros q w' X; unfold says; rewrite X; reflexivity).
  assert (G : forall q w', filter (fun kv => str_eqb (fst kv) k) (says sha256 q w') = if str_eqb (to_lower w') (to_lower w) then says sha256 q w else []).
  { intros q w'. destruct (str_eqb (to_lower w') (to_lower w)) eqn:Ew.
    - apply str_eqb_spec in Ew. rewrite S by exact Ew. destruct (Hk q) as [v ->]. cbn [filter fst]. rewrite str_eqb_refl. reflexivity.
    - apply str_eqb_neq in Ew. assert (X : forall l, (forall kv, In kv l -> In kv (says sha256 q w')) -> filter (fun kv => str_eqb (fst kv) k) l = []).
      { induction l as [|[k' v'] l IH]; intro Hl; [reflexivity|]. cbn [filter fst]. destruct (str_eqb k' k) eqn:Ek.
        - apply str_eqb_spec in Ek. exfalso. apply Ew. apply (Hkeys q w' k' v'); [apply Hl; left; reflexivity|exact Ek].
        - apply IH. intros kv Hkv. apply Hl. right. exact Hkv. }
      apply X. auto. }
  assert (FA : forall q l, filter (fun kv => str_eqb (fst kv) k) (List.concat (map (says sha256 q) l)) =
                 List.concat (map (fun w' => if str_eqb (to_lower w') (to_lower w) then says sha256 q w else []) l)).
  { intros q l. induction l as [|w' l IH]; [reflexivity|]. cbn [map List.concat]. rewrite filter_app, G, IH. reflexivity. }
  rewrite !FA in F. clear - F Hw Hk. destruct (Hk p) as [v Hv], (Hk p') as [v' Hv']. rewrite Hv, Hv' in *.
  induction which as [|w0 l IH]; [destruct Hw|]. cbn [map List.concat] in F. destruct (str_eqb (to_lower w0) (to_lower w)) eqn:E0.
  - cbn [app] in F. congruence.
  - destruct Hw as [->|Hw]; [rewrite str_eqb_refl in E0; discriminate|]. cbn [app] in F. auto.
Qed.

Lemma says_key sha256 q w k v : In (k, v) (says sha256 q w) ->
  (k = lit "Cert" /\ to_lower w = lit "cert") \/ (k = lit "Chain" /\ to_lower w = lit "chain") \/ (k = lit "Hash" /\ to_lower w = lit "hash") \/
  (k = lit "Subject" /\ to_lower w = lit "subject") \/ (k = lit "URI" /\ to_lower w = lit "uri") \/ (k = lit "DNS" /\ to_lower w = lit "dns").
Proof.
  unfold says. cbv zeta. intro H.
  destruct (str_eqb (to_lower w) (lit "cert")) eqn:E1; [apply str_eqb_spec in E1; destruct H as [H|[]]; left; split; congruence|].
  destruct (str_eqb (to_lower w) (lit "chain")) eqn:E2; [apply str_eqb_spec in E2; apply in_map_iff in H; destruct H as (x & H & _); right; left; split; congruence|].
  destruct (str_eqb (to_lower w) (lit "hash")) eqn:E3; [apply str_eqb_spec in E3; destruct H as [H|[]]; do 2 right; left; split; congruence|].
  destruct (str_eqb (to_lower w) (lit "subject")) eqn:E4; [apply str_eqb_spec in E4; destruct H as [H|[]]; do 3 right; left; split; congruence|].
  destruct (str_eqb (to_lower w) (lit "uri")) eqn:E5; [apply str_eqb_spec in E5; apply in_map_iff in H; destruct H as (x & H & _); do 4 right; left; split; congruence|].
  destruct (str_eqb (to_lower w) (lit "dns")) eqn:E6; [apply str_eqb_spec in E6; apply in_map_iff in H; destruct H as (x & H & _); do 5 right; split; congruence|].
  destruct H.
Qed.

Lemma one_field sha256 which p p' w k : subject_ok (c_subject (p_leaf p)) -> subject_ok (c_subject (p_leaf p')) ->
  header sha256 which p = header sha256 which p' -> In w which ->
  (forall q, exists v, says sha256 q w = [(k, v)]) -> In (to_lower w, k) [(lit "cert", lit "Cert"); (lit "hash", lit "Hash"); (lit "subject", lit "Subject")] ->
  says sha256 p w = says sha256 p' w.
Proof.
  intros H1 H2 H Hw Hk Hwk. apply (proj2 (same_says sha256 which p p' w H1 H2 H) Hw k Hk).
  intros q w' k' v' Hin. apply says_key in Hin.
  assert (L : forall a b, str_eqb a b = false -> a <> b) by (intros a b X; apply str_eqb_neq; exact X).
  destruct Hwk as [X|[X|[X|[]]]]; injection X as X1 X2; rewrite <- X1, <- X2;
  repeat match goal with H : _ \/ _ |- _ => destruct H end;
  match goal with H : k' = _ /\ to_lower w' = _ |- _ => destruct H as [-> ->] end;
  split; intro Y; try reflexivity; exfalso; revert Y; apply L; reflexivity.
Qed.

Theorem C21_certificate_determined : forall sha256 which p p' w,
  subject_ok (c_subject (p_leaf p)) -> subject_ok (c_subject (p_leaf p')) -> In w which -> to_lower w = lit "cert" ->
  header sha256 which p = header sha256 which p' -> c_raw (p_leaf p) = c_raw (p_leaf p').
Proof.
  intros sha256 which p p' w H1 H2 Hw El H.
  assert (S : forall q, says sha256 q w = [(lit "Cert", query_escape (pem (c_raw (p_leaf q))))]) by (intro q; unfold says; rewrite El; reflexivity).
  assert (E : says sha256 p w = says sha256 p' w).
  { apply (one_field sha256 which p p' w (lit "Cert")); auto. { intro q. rewrite S. eauto. } rewrite El. left. reflexivity. }
  rewrite !S in E. apply pem_injective, query_injective. congruence.
Qed.
Print Assumptions C21_certificate_determined.

(** With the hash configured: the same hash of the certificate. *)
Theorem C21_hash_determined : forall sha256 which p p' w,
  subject_ok (c_subject (p_leaf p)) -> subject_ok (c_subject (p_leaf p')) -> In w which -> to_lower w = lit "hash" ->
  header sha256 which p = header sha256 which p' -> sha256 (c_raw (p_leaf p)) = sha256 (c_raw (p_leaf p')).
Proof.
  intros sha256 which p p' w H1 H2 Hw El H.
  assert (S : forall q, says sha256 q w = [(lit "Hash", hex (sha256 (c_raw (p_leaf q))))]) by (intro q; unfold says; rewrite El; reflexivity).
  assert (E : says sha256 p w = says sha256 p' w).
  { apply (one_field sha256 which p p' w (lit "Hash")); auto. { intro q. rewrite S. eauto. } rewrite El. right. left. reflexivity. }
  rewrite !S in E. apply hex_injective. congruence.
Qed.
Print Assumptions C21_hash_determined.

(** With the subject configured: the same subject, provided that no attribute value
    contains a slash. *)
Theorem C21_subject_determined_partial : forall sha256 which p p' w,
  subject_ok (c_subject (p_leaf p)) -> subject_ok (c_subject (p_leaf p')) ->
  Forall (Forall slashless) (c_subject (p_leaf p)) -> Forall (Forall slashless) (c_subject (p_leaf p')) ->
  In w which -> to_lower w = lit "subject" ->
  header sha256 which p = header sha256 which p' -> c_subject (p_leaf p) = c_subject (p_leaf p').
Proof.
  intros sha256 which p p' w H1 H2 H3 H4 Hw El H.
  assert (S : forall q, says sha256 q w = [(lit "Subject", "/"%char :: join "/" (map rdn_string (rev (c_subject (p_leaf q)))))]) by (intro q; unfold says; rewrite El; reflexivity).
  assert (E : says sha256 p w = says sha256 p' w).
  { apply (one_field sha256 which p p' w (lit "Subject")); auto. { intro q. rewrite S. eauto. } rewrite El. do 2 right. left. reflexivity. }
  rewrite !S in E. apply subject_value_injective; try assumption. congruence.
Qed.
Print Assumptions C21_subject_determined_partial.

(** Slashes are not escaped in subjects: a certificate whose common name is
    "alice/O=Admins" has the same Subject field as one for alice in Admins. *)
Definition x_alice : list rdn := [[Known (lit "O") (lit "Admins")]; [Known (lit "CN") (lit "alice")]].
Definition x_mallory : list rdn := [[Known (lit "CN") (lit "alice/O=Admins")]].
Definition x_peer (raw : string) (s : list rdn) : peer :=
  {| p_leaf := {| c_raw := lit raw; c_subject := s; c_uris := []; c_dns := [lit "a.example.com"; lit "x"";y"] |}; p_chains := [] |}.
Lemma x_ok : subject_ok x_alice /\ subject_ok x_mallory.
Proof.
  assert (W : forall s, forallb unreserved s = true -> s <> [] -> word s) by (intros s H N; split; [exact N|]; apply forallb_forall; exact H).
  split; intros r Hr; cbn in Hr.
  - destruct Hr as [<-|[<-|[]]]; (split; [discriminate|]); repeat constructor; cbn; try discriminate; intros c Hc; repeat (destruct Hc as [<-|Hc]; [reflexivity|]); destruct Hc.
  - destruct Hr as [<-|[]]; (split; [discriminate|]); repeat constructor; cbn; try discriminate; intros c Hc; repeat (destruct Hc as [<-|Hc]; [reflexivity|]); destruct Hc.
Qed.
Theorem C21_subject_forged_refuted :
  ~ (forall sha256 which p p' w, subject_ok (c_subject (p_leaf p)) -> subject_ok (c_subject (p_leaf p')) ->
      In w which -> to_lower w = lit "subject" ->
      header sha256 which p = header sha256 which p' -> c_subject (p_leaf p) = c_subject (p_leaf p')).
Proof.
  intro H. specialize (H (fun s => s) [lit "Subject"] (x_peer "1" x_alice) (x_peer "2" x_mallory) (lit "Subject")).
  assert (E : x_alice = x_mallory); [|discriminate E]. apply H; try apply x_ok; try (left; reflexivity); vm_compute; reflexivity.
Qed.
Print Assumptions C21_subject_forged_refuted.

Example C21_example :
  header (fun s => s) [lit "hash"; lit "Subject"; lit "dns"] (x_peer "12" x_alice) =
    lit "Hash=3132;Subject=""/CN=alice/O=Admins"";DNS=a.example.com;DNS=x%22%3By" /\
  subject_ok x_alice /\ Forall (Forall slashless) x_alice /\
  pem (lit "hello") = lit "-----BEGIN CERTIFICATE-----" ++ [newline] ++ lit "aGVsbG8=" ++ [newline] ++ lit "-----END CERTIFICATE-----" ++ [newline].
Proof.
  split; [vm_compute; reflexivity|]. split; [apply x_ok|]. split; [|vm_compute; reflexivity].
  repeat constructor; cbn; intro H; repeat (destruct H as [H|H]; [discriminate H|]); exact H.
Qed.
