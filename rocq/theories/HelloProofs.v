From Verif Require Import Base ConnModel ConnProofs HelloModel HelloSpec.
From Coq Require Import ZifyBool ZifyNat ZifyN.
Ltac Zify.zify_post_hook ::= Z.div_mod_to_equations.

(** ** Elementary codec lemmas *)

Lemma byte_enc n : (n < 256)%N -> byte (ascii_of_N n) = n.
Proof. apply N_ascii_embedding. Qed.

Lemma byte_lt a : (byte a < 256)%N.
Proof. apply N_ascii_bounded. Qed.

Lemma cb_u8_enc n s : (n < 256)%N -> cb_u8 (enc8 n ++ s) = Some (n, s).
Proof. intros H. simpl. rewrite byte_enc by exact H. reflexivity. Qed.

Lemma cb_u16_enc n s : (n < 65536)%N -> cb_u16 (enc16 n ++ s) = Some (n, s).
Proof.
  intros H. cbn [enc16 app cb_u16]. rewrite !byte_enc by lia.
  do 2 f_equal. lia.
Qed.

Lemma to_nat_len a : N.to_nat (len a) = List.length a.
Proof. unfold len. lia. Qed.

Lemma len_app a b : len (a ++ b) = (len a + len b)%N.
Proof. unfold len. rewrite app_length. lia. Qed.

Lemma len_vec16 a : len (vec16 a) = (2 + len a)%N.
Proof. unfold vec16. rewrite len_app. reflexivity. Qed.

Lemma cb_take_app a b : cb_take (len a) (a ++ b) = Some (a, b).
Proof.
  unfold cb_take.
  destruct (N.of_nat (List.length (a ++ b)) <? len a)%N eqn:E.
  - unfold len in E. rewrite app_length in E. lia.
  - rewrite to_nat_len, firstn_app, firstn_all, skipn_app, skipn_all, Nat.sub_diag.
    simpl. rewrite app_nil_r. reflexivity.
Qed.

Lemma cb_skip_app n a b : n = len a -> cb_skip n (a ++ b) = Some b.
Proof.
  intros ->. unfold cb_skip.
  destruct (N.of_nat (List.length (a ++ b)) <? len a)%N eqn:E.
  - unfold len in E. rewrite app_length in E. lia.
  - rewrite to_nat_len, skipn_app, skipn_all, Nat.sub_diag. reflexivity.
Qed.

Lemma cb_u8_prefixed_vec a b : (len a < 256)%N -> cb_u8_prefixed (vec8 a ++ b) = Some (a, b).
Proof.
  intros H. unfold cb_u8_prefixed, vec8. rewrite <- app_assoc, cb_u8_enc by exact H.
  apply cb_take_app.
Qed.

Lemma cb_u16_prefixed_vec a b : (len a < 65536)%N -> cb_u16_prefixed (vec16 a ++ b) = Some (a, b).
Proof.
  intros H. unfold cb_u16_prefixed, vec16. rewrite <- app_assoc, cb_u16_enc by exact H.
  apply cb_take_app.
Qed.

Lemma cb_u16_prefixed_vec' a : (len a < 65536)%N -> cb_u16_prefixed (vec16 a) = Some (a, []).
Proof. intros H. rewrite <- (app_nil_r (vec16 a)). apply cb_u16_prefixed_vec. exact H. Qed.

(** ** Consumption: every successful reader shortens the input *)

Lemma cb_take_len n s a b : cb_take n s = Some (a, b) -> s = a ++ b.
Proof.
  unfold cb_take. destruct (N.of_nat (List.length s) <? n)%N; [discriminate|].
  intros H. injection H as <- <-. symmetry. apply firstn_skipn.
Qed.

Lemma cb_u8_prefixed_len s a b :
  cb_u8_prefixed s = Some (a, b) -> List.length b < List.length s.
Proof.
  unfold cb_u8_prefixed, cb_u8. destruct s as [|x s]; [discriminate|].
  intros H. apply cb_take_len in H. subst s. simpl. rewrite app_length. lia.
Qed.

Lemma cb_u16_prefixed_len s a b :
  cb_u16_prefixed s = Some (a, b) -> List.length b < List.length s.
Proof.
  unfold cb_u16_prefixed, cb_u16. destruct s as [|x [|y s]]; try discriminate.
  intros H. apply cb_take_len in H. subst s. simpl. rewrite app_length. lia.
Qed.

Lemma cb_u16_len s a b : cb_u16 s = Some (a, b) -> List.length b < List.length s.
Proof.
  unfold cb_u16. destruct s as [|x [|y s]]; try discriminate.
  intros H. injection H as <- <-. simpl. lia.
Qed.

Lemma cb_u8_len s a b : cb_u8 s = Some (a, b) -> List.length b < List.length s.
Proof.
  unfold cb_u8. destruct s as [|x s]; try discriminate.
  intros H. injection H as <- <-. simpl. lia.
Qed.

(** ** The loops never run out of fuel and never panic *)

Definition clean {A} (r : outcome A) : Prop := r <> Panic /\ r <> OutOfFuel.

Lemma clean_ok {A} (a : A) : clean (Ok a).
Proof. split; discriminate. Qed.
Lemma clean_err {A} : clean (@Err A).
Proof. split; discriminate. Qed.
#[local] Hint Resolve clean_ok clean_err : core.

Lemma parse_names_clean fuel : forall l n, List.length l <= fuel -> clean (parse_names fuel l n).
Proof.
  induction fuel as [|f IH]; intros l n Hl.
  - destruct l; [apply clean_ok|simpl in Hl; lia].
  - destruct l as [|x l]; [apply clean_ok|].
    cbn [parse_names]. destruct (cb_u8 (x :: l)) as [[ty l1]|] eqn:E1; [|apply clean_err].
    cbn [opt bind]. destruct (negb (ty =? 0)%N); [apply clean_err|].
    destruct (cb_u16_prefixed l1) as [[h l2]|] eqn:E2; [|apply clean_err].
    cbn [opt bind]. destruct (negb (str_eqb n [])); [apply clean_err|].
    apply IH. apply cb_u8_len in E1. apply cb_u16_prefixed_len in E2. simpl in *. lia.
Qed.

Lemma parse_protos_clean fuel : forall l acc, List.length l <= fuel -> clean (parse_protos fuel l acc).
Proof.
  induction fuel as [|f IH]; intros l acc Hl.
  - destruct l; [apply clean_ok|simpl in Hl; lia].
  - destruct l as [|x l]; [apply clean_ok|].
    cbn [parse_protos]. destruct (cb_u8_prefixed (x :: l)) as [[p l1]|] eqn:E1; [|apply clean_err].
    cbn [opt bind]. apply IH. apply cb_u8_prefixed_len in E1. simpl in *. lia.
Qed.

Lemma parse_exts_clean fuel : forall e h, List.length e <= fuel -> clean (parse_exts fuel e h).
Proof.
  induction fuel as [|f IH]; intros e h Hl.
  - destruct e; [apply clean_ok|simpl in Hl; lia].
  - destruct e as [|x e]; [apply clean_ok|].
    cbn [parse_exts]. destruct (cb_u16 (x :: e)) as [[ty e1]|] eqn:E1; [|apply clean_err].
    cbn [opt bind]. destruct (cb_u16_prefixed e1) as [[data e2]|] eqn:E2; [|apply clean_err].
    cbn [opt bind].
    assert (Hlen : List.length e2 <= f).
    { apply cb_u16_len in E1. apply cb_u16_prefixed_len in E2. simpl in *. lia. }
    destruct (ty =? 0)%N.
    + destruct (cb_u16_prefixed data) as [[l r]|]; [|apply clean_err]. cbn [opt bind].
      pose proof (parse_names_clean (List.length l) l (serverName h) (Nat.le_refl _)) as [Hp Hf].
      destruct (parse_names (List.length l) l (serverName h)); try congruence;
        cbn [bind]; [apply IH; exact Hlen|apply clean_err].
    + destruct (ty =? 16)%N; [|apply IH; exact Hlen].
      destruct (cb_u16_prefixed data) as [[l r]|]; [|apply clean_err]. cbn [opt bind].
      pose proof (parse_protos_clean (List.length l) l (alpnProtos h) (Nat.le_refl _)) as [Hp Hf].
      destruct (parse_protos (List.length l) l (alpnProtos h)); try congruence;
        cbn [bind]; [apply IH; exact Hlen|apply clean_err].
Qed.

Ltac clean_step :=
  match goal with
  | |- clean (bind (opt ?x) _) => destruct x as [?|]; cbn [opt bind]; [|apply clean_err]
  | |- clean (let '(_, _) := ?x in _) => destruct x
  | |- clean (match ?x with pair _ _ => _ end) => destruct x
  end.

Lemma parse_handshake_clean buf : buf <> [] -> clean (parse_handshake buf).
Proof.
  destruct buf as [|b0 buf]; [congruence|intros _].
  unfold parse_handshake. destruct (negb (byte b0 =? 1)%N); [apply clean_err|].
  repeat clean_step.
  apply parse_exts_clean. lia.
Qed.

Lemma parse_handshake_empty : parse_handshake [] = Panic.
Proof. reflexivity. Qed.

(** ** Decoding what the encoder produced *)

Lemma vec8_cons p : exists n, vec8 p = n :: p.
Proof. unfold vec8, enc8. simpl. eauto. Qed.

Lemma parse_protos_enc ps : forall fuel acc,
  List.length (flat_map vec8 ps) <= fuel ->
  forallb (fun p => negb (len p =? 0)%N && (len p <? 256)%N) ps = true ->
  parse_protos fuel (flat_map vec8 ps) acc = Ok (acc ++ ps).
Proof.
  induction ps as [|p ps IH]; intros fuel acc Hf Hw.
  - destruct fuel; simpl; rewrite app_nil_r; reflexivity.
  - cbn [forallb] in Hw. apply andb_true_iff in Hw as [Hp Hw].
    cbn [flat_map] in *.
    assert (Hcons : exists x t, vec8 p ++ flat_map vec8 ps = x :: t)
      by (unfold vec8, enc8; simpl; eauto).
    destruct Hcons as (x & t & Hxt).
    destruct fuel as [|f]; [rewrite Hxt in Hf; simpl in Hf; lia|].
    rewrite Hxt. cbn [parse_protos]. rewrite <- Hxt.
    rewrite cb_u8_prefixed_vec by lia. cbn [opt bind].
    rewrite IH; [rewrite <- app_assoc; reflexivity| |exact Hw].
    rewrite app_length in Hf. destruct (vec8_cons p) as [n Hn]. rewrite Hn in Hf. simpl in Hf. lia.
Qed.

Lemma parse_names_enc host fuel :
  (len host < 65536)%N -> List.length (enc8 0 ++ vec16 host) <= fuel ->
  parse_names fuel (enc8 0 ++ vec16 host) [] = Ok host.
Proof.
  intros Hh Hf. destruct fuel as [|f]; [simpl in Hf; lia|].
  cbn [enc8 app parse_names].
  change (ascii_of_N 0 :: vec16 host) with (enc8 0 ++ vec16 host).
  rewrite cb_u8_enc by lia. cbn [opt bind N.eqb negb].
  rewrite cb_u16_prefixed_vec' by exact Hh. cbn [opt bind str_eqb negb].
  destruct f; reflexivity.
Qed.

Definition has_sni (l : list extension) := existsb is_sni l.

Definition ext_name (l : list extension) (d : str) : str :=
  fold_left (fun d e => match e with ExtServerName h => h | _ => d end) l d.
Definition ext_protos (l : list extension) (d : list str) : list str :=
  fold_left (fun d e => match e with ExtALPN ps => d ++ ps | _ => d end) l d.

Lemma parse_exts_enc l : forall fuel h,
  List.length (enc_exts l) <= fuel ->
  forallb wf_ext l = true ->
  List.length (filter is_sni l) <= 1 ->
  (has_sni l = true -> serverName h = []) ->
  parse_exts fuel (enc_exts l) h =
    Ok (mkHello (ext_name l (serverName h)) (ext_protos l (alpnProtos h))).
Proof.
  induction l as [|e l IH]; intros fuel h Hf Hw Hs1 Hs.
  - destruct fuel; destruct h; reflexivity.
  - cbn [forallb] in Hw. apply andb_true_iff in Hw as [He Hw].
    cbn [enc_exts flat_map] in *. fold (enc_exts l) in *.
    destruct (enc_ext_body e) as [ty body] eqn:Hb.
    assert (Hee : enc_ext e = enc16 ty ++ vec16 body) by (unfold enc_ext; rewrite Hb; reflexivity).
    assert (Hbl : (len body < 65536)%N).
    { unfold wf_ext in He. apply andb_true_iff in He as [_ He]. rewrite Hb in He. simpl in He. lia. }
    assert (Hty : (ty < 65536)%N).
    { destruct e; simpl in Hb; injection Hb as <- <-; try lia.
      unfold wf_ext in He. lia. }
    assert (Hcons : exists x t, enc_ext e ++ enc_exts l = x :: t)
      by (rewrite Hee; unfold enc16; simpl; eauto).
    destruct Hcons as (x & t & Hxt).
    destruct fuel as [|f]; [rewrite Hxt in Hf; simpl in Hf; lia|].
    rewrite Hxt. cbn [parse_exts]. rewrite <- Hxt. rewrite Hee, <- app_assoc.
    rewrite cb_u16_enc by exact Hty. cbn [opt bind].
    rewrite cb_u16_prefixed_vec by exact Hbl. cbn [opt bind].
    assert (Hlen : List.length (enc_exts l) <= f).
    { rewrite app_length, Hee in Hf. rewrite app_length in Hf. unfold enc16 in Hf. simpl in Hf. lia. }
    destruct e as [host|ps|ty' data]; cbn [enc_ext_body] in Hb; injection Hb as <- <-.
    + cbn [N.eqb]. unfold wf_ext in He.
      change (zero :: vec16 host) with (enc8 0 ++ vec16 host) in *.
      assert (Hvl : (len (enc8 0 ++ vec16 host) < 65536)%N).
      { rewrite len_vec16 in Hbl. lia. }
      rewrite cb_u16_prefixed_vec' by exact Hvl. cbn [opt bind].
      rewrite Hs by reflexivity.
      rewrite parse_names_enc by (try lia). cbn [bind].
      rewrite IH; try assumption.
      * reflexivity.
      * simpl in Hs1. lia.
      * intros Hl. exfalso. simpl in Hs1.
        unfold has_sni in Hl. apply existsb_exists in Hl as (y & Hy1 & Hy2).
        assert (Hin : In y (filter is_sni l)) by (apply filter_In; auto).
        destruct (filter is_sni l); simpl in *; [contradiction|lia].
    + cbn [N.eqb Pos.eqb]. 
      assert (Hvl : (len (flat_map vec8 ps) < 65536)%N).
      { rewrite len_vec16 in Hbl. lia. }
      rewrite cb_u16_prefixed_vec' by exact Hvl. cbn [opt bind].
      unfold wf_ext in He. apply andb_true_iff in He as [He _].
      rewrite parse_protos_enc by (try lia; exact He). cbn [bind].
      rewrite IH; try assumption. reflexivity.
    + unfold wf_ext in He.
      replace (ty' =? 0)%N with false by lia.
      replace (ty' =? 16)%N with false by lia.
      rewrite IH; try assumption. reflexivity.
Qed.

Lemma ext_name_filter l : forall d,
  List.length (filter is_sni l) <= 1 ->
  ext_name l d = match filter is_sni l with ExtServerName h :: _ => h | _ => d end.
Proof.
  induction l as [|e l IH]; intros d H; [reflexivity|].
  unfold ext_name. cbn [fold_left]. fold (ext_name l (match e with ExtServerName h => h | _ => d end)).
  cbn [filter] in *. destruct e as [h|ps|ty data]; cbn [is_sni] in *.
  - simpl in H. rewrite IH by lia. destruct (filter is_sni l); [reflexivity|simpl in H; lia].
  - apply IH. exact H.
  - apply IH. exact H.
Qed.

Lemma ext_protos_filter l : forall d,
  List.length (filter is_alpn l) <= 1 ->
  ext_protos l d = d ++ match filter is_alpn l with ExtALPN p :: _ => p | _ => [] end.
Proof.
  induction l as [|e l IH]; intros d H; [symmetry; apply app_nil_r|].
  unfold ext_protos. cbn [fold_left]. fold (ext_protos l (match e with ExtALPN p => d ++ p | _ => d end)).
  cbn [filter] in *. destruct e as [h|ps|ty data]; cbn [is_alpn] in *.
  - apply IH. exact H.
  - simpl in H. rewrite IH by lia. destruct (filter is_alpn l); [|simpl in H; lia].
    apply app_nil_r.
  - apply IH. exact H.
Qed.

Lemma parse_handshake_enc h :
  wf_hello h = true ->
  parse_handshake (enc_handshake h) = Ok (mkHello (hello_name h) (hello_protos h)).
Proof.
  unfold wf_hello. intros Hw. rewrite !andb_true_iff in Hw.
  destruct Hw as [[[[[[[[H34 Hsid] Hcs] Hcm] Hex] Hsni] Halpn] Hexl] Hhl].
  unfold enc_handshake at 1. cbn [enc8 app parse_handshake].
  rewrite byte_enc by lia. cbn [N.eqb Pos.eqb negb].
  set (body := enc_body h).
  assert (E4 : cb_skip 4 (ascii_of_N 1 :: enc24 (len body) ++ body) = Some body).
  { change (ascii_of_N 1 :: enc24 (len body) ++ body)
      with (([ascii_of_N 1] ++ enc24 (len body)) ++ body).
    apply cb_skip_app. reflexivity. }
  rewrite E4. cbn [opt bind]. unfold body, enc_body.
  rewrite (cb_skip_app 34) by (symmetry; lia). cbn [opt bind].
  unfold vec8 at 1. rewrite <- app_assoc, cb_u8_enc by lia. cbn [opt bind].
  rewrite (cb_skip_app (len (h_session_id h))) by reflexivity. cbn [opt bind].
  unfold vec16 at 1. rewrite <- app_assoc, cb_u16_enc by lia. cbn [opt bind].
  rewrite (cb_skip_app (len (h_ciphers h))) by reflexivity. cbn [opt bind].
  unfold vec8 at 1. rewrite <- app_assoc, cb_u8_enc by lia. cbn [opt bind].
  rewrite (cb_skip_app (len (h_compression h))) by reflexivity. cbn [opt bind].
  rewrite cb_u16_prefixed_vec' by lia. cbn [opt bind].
  rewrite parse_exts_enc; try assumption.
  - cbn [serverName alpnProtos].
    rewrite ext_name_filter, ext_protos_filter by lia. reflexivity.
  - lia.
  - lia.
  - reflexivity.
Qed.

(** ** The two peeks *)

(** A peek for which the network delivers enough. *)
Lemma peek_full c want got a t :
  unread c = a ++ t -> List.length a = want ->
  want <= List.length (peekBuf c) + got ->
  exists c', peek c want got = (c', a, true) /\ unread c' = a ++ t /\
             want <= List.length (peekBuf c').
Proof.
  intros Hu Hl Hg.
  destruct (peek c want got) as [[c' b] ok] eqn:Hp.
  pose proof (peek_unread _ _ _ _ _ _ Hp) as (Hu' & _ & [t' Hb] & Hok & Hle).
  assert (Hlb : List.length b = want /\ want <= List.length (peekBuf c')).
  { clear Hok Hb. unfold peek in Hp. unfold unread in Hu.
    assert (Hlen : want <= List.length (peekBuf c) + List.length (wire c)).
    { rewrite <- app_length, Hu, app_length. lia. }
    destruct (List.length (peekBuf c) <? want) eqn:E.
    - unfold os_read in Hp. injection Hp as <- <- _. cbn [peekBuf].
      rewrite firstn_length, app_length, firstn_length. lia.
    - injection Hp as <- <- _. rewrite firstn_length. lia. }
  destruct Hlb as [Hlb Hpb].
  assert (Heq : b = a).
  { rewrite Hb in Hu.
    assert (H1 : firstn want (b ++ t') = b)
      by (rewrite firstn_app, <- Hlb, firstn_all, Nat.sub_diag; simpl; apply app_nil_r).
    assert (H2 : firstn want (a ++ t) = a)
      by (rewrite firstn_app, <- Hl, firstn_all, Nat.sub_diag; simpl; apply app_nil_r).
    rewrite Hu in H1. congruence. }
  subst b. exists c'. split; [|split].
  - destruct ok; [reflexivity|]. exfalso.
    destruct Hok as [_ Hok]. specialize (Hok Hlb). discriminate.
  - congruence.
  - exact Hpb.
Qed.

Lemma peek_client_hello_unread c got1 got2 c' r :
  peek_client_hello c got1 got2 = (c', r) -> unread c' = unread c.
Proof.
  unfold peek_client_hello. intros H.
  destruct (peek c 5 got1) as [[c1 hdr] ok1] eqn:Hp1.
  apply peek_unread in Hp1 as (Hu1 & _).
  destruct (negb ok1); [injection H as <- <-; exact Hu1|].
  destruct hdr as [|b0 hdr]; [injection H as <- <-; exact Hu1|].
  destruct (negb (byte b0 =? 22)%N); [injection H as <- <-; exact Hu1|].
  destruct (cb_skip 3 (b0 :: hdr)) as [s|]; [|injection H as <- <-; exact Hu1].
  destruct (cb_u16 s) as [[l r']|]; [|injection H as <- <-; exact Hu1].
  destruct (16384 <? l)%N; [injection H as <- <-; exact Hu1|].
  destruct (peek c1 (N.to_nat ((5 + l) mod 65536)) got2) as [[c2 buf] ok2] eqn:Hp2.
  apply peek_unread in Hp2 as (Hu2 & _).
  destruct (negb ok2); injection H as <- <-; congruence.
Qed.

Lemma peek_client_hello_roundtrip h rest got1 got2 :
  wf_hello h = true ->
  5 <= got1 -> List.length (enc_handshake h) <= got2 ->
  exists c', peek_client_hello (fresh_conn (enc_record h ++ rest)) got1 got2 =
    (c', Ok (mkHello (hello_name h) (hello_protos h))) /\
    unread c' = enc_record h ++ rest.
Proof.
  intros Hw Hg1 Hg2.
  assert (Hhl : (len (enc_handshake h) <= 16384)%N).
  { unfold wf_hello in Hw. rewrite !andb_true_iff in Hw. lia. }
  pose (hdr := [ascii_of_N 22; fst (h_record_version h); snd (h_record_version h)] ++
               enc16 (len (enc_handshake h))).
  assert (Hrec : enc_record h = hdr ++ enc_handshake h).
  { unfold enc_record, vec16, hdr. simpl. reflexivity. }
  assert (Hhdr : List.length hdr = 5) by reflexivity.
  unfold peek_client_hello.
  destruct (peek_full (fresh_conn (enc_record h ++ rest)) 5 got1 hdr (enc_handshake h ++ rest))
    as (c1 & Hp1 & Hu1 & Hpb1).
  { unfold unread, fresh_conn. cbn [peekBuf wire app]. rewrite Hrec, <- app_assoc. reflexivity. }
  { exact Hhdr. }
  { cbn [peekBuf fresh_conn List.length]. lia. }
  rewrite Hp1. cbn [negb].
  assert (Hsk : cb_skip 3 hdr = Some (enc16 (len (enc_handshake h)))).
  { unfold hdr. apply cb_skip_app. reflexivity. }
  rewrite Hsk. unfold hdr at 1. cbn [app].
  rewrite byte_enc by lia. cbn [N.eqb Pos.eqb negb].
  assert (Hu16 : cb_u16 (enc16 (len (enc_handshake h))) = Some (len (enc_handshake h), [])).
  { rewrite <- (app_nil_r (enc16 _)). apply cb_u16_enc. lia. }
  rewrite Hu16.
  destruct (16384 <? len (enc_handshake h))%N eqn:E; [lia|].
  assert (Hwant : N.to_nat ((5 + len (enc_handshake h)) mod 65536) = List.length (enc_record h)).
  { rewrite Hrec, app_length, Hhdr. unfold len in *. lia. }
  rewrite Hwant.
  destruct (peek_full c1 (List.length (enc_record h)) got2 (enc_record h) rest)
    as (c2 & Hp2 & Hu2 & _).
  { rewrite Hu1, Hrec, <- app_assoc. reflexivity. }
  { reflexivity. }
  { rewrite Hrec, app_length, Hhdr. lia. }
  rewrite Hp2. cbn [negb].
  exists c2. split; [|exact Hu2]. f_equal.
  rewrite Hrec. rewrite skipn_app. rewrite Hhdr.
  change (skipn 5 hdr) with (@nil ascii). cbn [Nat.sub skipn app].
  apply parse_handshake_enc. exact Hw.
Qed.

(** The first record announced by the stream. *)
Definition record_length (s : str) : option N :=
  match s with
  | _ :: _ :: _ :: a :: b :: _ => Some (byte a * 256 + byte b)%N
  | _ => None
  end.

Lemma peek_client_hello_panics c got1 got2 c' :
  peek_client_hello c got1 got2 = (c', Panic) ->
  exists a b c3 rest, unread c = ascii_of_N 22 :: a :: b :: c3 ++ rest /\ c3 = enc16 0.
Proof.
  unfold peek_client_hello. intros H.
  destruct (peek c 5 got1) as [[c1 hdr] ok1] eqn:Hp1.
  apply peek_unread in Hp1 as (Hu1 & _ & [t Ht] & Hok1 & _).
  destruct ok1; cbn [negb] in H; [|discriminate].
  destruct Hok1 as [Hok1 _]. specialize (Hok1 eq_refl).
  destruct hdr as [|b0 [|b1 [|b2 [|b3 [|b4 [|b5 hdr]]]]]]; try discriminate Hok1.
  destruct (negb (byte b0 =? 22)%N) eqn:E22; [discriminate|].
  replace (cb_skip 3 [b0; b1; b2; b3; b4]) with (Some [b3; b4]) in H by reflexivity.
  cbn [cb_u16] in H.
  destruct (16384 <? byte b3 * 256 + byte b4)%N eqn:El; [discriminate|].
  set (l := (byte b3 * 256 + byte b4)%N) in *.
  destruct (peek c1 (N.to_nat ((5 + l) mod 65536)) got2) as [[c2 buf] ok2] eqn:Hp2.
  apply peek_unread in Hp2 as (Hu2 & _ & _ & Hok2 & _).
  destruct ok2; cbn [negb] in H; [|discriminate].
  destruct Hok2 as [Hok2 _]. specialize (Hok2 eq_refl).
  injection H as _ H.
  assert (Hb : skipn 5 buf = []).
  { destruct (skipn 5 buf) eqn:Eb; [reflexivity|].
    exfalso. destruct (parse_handshake_clean (a :: l0)) as [Hc _]; [discriminate|].
    apply Hc. rewrite <- Eb; exact H. }
  assert (Hl0 : l = 0%N).
  { assert (Hlb : List.length (skipn 5 buf) = 0) by (rewrite Hb; reflexivity).
    rewrite skipn_length in Hlb. lia. }
  exists b1, b2, [b3; b4], t. split.
  - rewrite Ht. cbn [app]. f_equal.
    assert (Hb0 : byte b0 = 22%N) by lia.
    rewrite <- (ascii_N_embedding b0). f_equal. exact Hb0.
  - unfold enc16. assert (H3 : byte b3 = 0%N) by lia. assert (H4 : byte b4 = 0%N) by lia.
    rewrite <- (ascii_N_embedding b3), <- (ascii_N_embedding b4).
    fold (byte b3). fold (byte b4). rewrite H3, H4. reflexivity.
Qed.

Lemma peek_client_hello_no_fuel c got1 got2 c' :
  peek_client_hello c got1 got2 <> (c', OutOfFuel).
Proof.
  unfold peek_client_hello. intros H.
  destruct (peek c 5 got1) as [[c1 hdr] ok1].
  destruct (negb ok1); [discriminate|].
  destruct hdr as [|b0 hdr]; [discriminate|].
  destruct (negb (byte b0 =? 22)%N); [discriminate|].
  destruct (cb_skip 3 (b0 :: hdr)) as [s|]; [|discriminate].
  destruct (cb_u16 s) as [[l r']|]; [|discriminate].
  destruct (16384 <? l)%N; [discriminate|].
  destruct (peek c1 _ got2) as [[c2 buf] ok2].
  destruct (negb ok2); [discriminate|].
  apply (f_equal snd) in H. cbn [snd] in H.
  destruct (skipn 5 buf) as [|x y] eqn:E; [discriminate|].
  destruct (parse_handshake_clean (x :: y)) as [_ Hc]; [discriminate|]. contradiction.
Qed.

(** ** Soundness: what an accepted message contains *)

Lemma enc16_inv x y : enc16 (byte x * 256 + byte y) = [x; y].
Proof.
  unfold enc16. pose proof (byte_lt x). pose proof (byte_lt y).
  assert (H1 : ((byte x * 256 + byte y) / 256 = byte x)%N) by lia.
  assert (H2 : ((byte x * 256 + byte y) mod 256 = byte y)%N) by lia.
  rewrite H1, H2. unfold byte. rewrite !ascii_N_embedding. reflexivity.
Qed.

Lemma cb_take_inv n s a b : cb_take n s = Some (a, b) -> s = a ++ b /\ n = len a.
Proof.
  intros H. split; [exact (cb_take_len _ _ _ _ H)|].
  unfold cb_take in H. destruct (N.of_nat (List.length s) <? n)%N eqn:E; [discriminate|].
  injection H as <- _. unfold len. rewrite firstn_length. lia.
Qed.

Lemma cb_u16_inv s n r : cb_u16 s = Some (n, r) -> s = enc16 n ++ r /\ (n < 65536)%N.
Proof.
  destruct s as [|x [|y s]]; try discriminate. intros H. injection H as <- <-.
  rewrite enc16_inv. pose proof (byte_lt x). pose proof (byte_lt y). split; [reflexivity|lia].
Qed.

Lemma cb_u8_inv s n r : cb_u8 s = Some (n, r) -> s = enc8 n ++ r /\ (n < 256)%N.
Proof.
  destruct s as [|x s]; try discriminate. intros H. injection H as <- <-.
  unfold enc8, byte. rewrite ascii_N_embedding. split; [reflexivity|apply N_ascii_bounded].
Qed.

Lemma cb_u16_prefixed_inv s a r : cb_u16_prefixed s = Some (a, r) -> s = vec16 a ++ r.
Proof.
  unfold cb_u16_prefixed. destruct (cb_u16 s) as [[n s']|] eqn:E; [|discriminate].
  intros H. apply cb_u16_inv in E as [-> _]. apply cb_take_inv in H as [-> ->].
  unfold vec16. rewrite <- app_assoc. reflexivity.
Qed.

Lemma cb_u8_prefixed_inv s a r : cb_u8_prefixed s = Some (a, r) -> s = vec8 a ++ r.
Proof.
  unfold cb_u8_prefixed. destruct (cb_u8 s) as [[n s']|] eqn:E; [|discriminate].
  intros H. apply cb_u8_inv in E as [-> _]. apply cb_take_inv in H as [-> ->].
  unfold vec8. rewrite <- app_assoc. reflexivity.
Qed.

Lemma cb_skip_inv n s r : cb_skip n s = Some r -> exists a, s = a ++ r /\ len a = n.
Proof.
  unfold cb_skip. destruct (N.of_nat (List.length s) <? n)%N eqn:E; [discriminate|].
  intros H. injection H as <-. exists (firstn (N.to_nat n) s). split.
  - symmetry. apply firstn_skipn.
  - unfold len. rewrite firstn_length. lia.
Qed.

Lemma parse_protos_inv fuel : forall l acc r,
  parse_protos fuel l acc = Ok r -> exists ps, r = acc ++ ps /\ l = flat_map vec8 ps.
Proof.
  induction fuel as [|f IH]; intros l acc r H.
  - destruct l; [|discriminate]. injection H as <-. exists []. rewrite app_nil_r. auto.
  - destruct l as [|x l].
    { injection H as <-. exists []. rewrite app_nil_r. auto. }
    cbn [parse_protos] in H. destruct (cb_u8_prefixed (x :: l)) as [[p l1]|] eqn:E; [|discriminate].
    cbn [opt bind] in H. apply IH in H as (ps & -> & ->).
    apply cb_u8_prefixed_inv in E. exists (p :: ps). rewrite <- app_assoc. auto.
Qed.

(** The list is a sequence of host_name entries.  Only the first may be
    non-empty together with further entries: an entry after a non-empty name is
    refused. *)
Lemma parse_names_inv fuel : forall l n r,
  parse_names fuel l n = Ok r ->
  exists hs, l = flat_map enc_name hs /\
    (hs = [] /\ r = n \/
     exists k h, hs = repeat [] k ++ [h] /\ n = [] /\ r = h).
Proof.
  induction fuel as [|f IH]; intros l n r H.
  - destruct l; [|discriminate]. injection H as <-. exists []. auto.
  - destruct l as [|x l].
    { injection H as <-. exists []. auto. }
    cbn [parse_names] in H. destruct (cb_u8 (x :: l)) as [[ty l1]|] eqn:E; [|discriminate].
    cbn [opt bind] in H. destruct (negb (ty =? 0)%N) eqn:Ety; [discriminate|].
    destruct (cb_u16_prefixed l1) as [[h l2]|] eqn:E2; [|discriminate].
    cbn [opt bind] in H. destruct (negb (str_eqb n [])) eqn:En; [discriminate|].
    apply IH in H as (hs & -> & Hc).
    apply cb_u8_inv in E as [-> _]. apply cb_u16_prefixed_inv in E2. subst l1.
    assert (ty = 0%N) by lia. subst ty.
    assert (Hn : n = []) by (apply negb_false_iff, str_eqb_spec in En; exact En).
    exists (h :: hs). split; [unfold enc_name; cbn [flat_map]; rewrite <- app_assoc; reflexivity|].
    right. destruct Hc as [[-> ->]|(k & h' & -> & -> & ->)].
    + exists 0, h. auto.
    + exists (S k), h'. auto.
Qed.

(** How the loop over the extensions threads the name. *)
Inductive raw_names : list (N * str) -> str -> str -> Prop :=
| rn_nil cur : raw_names [] cur cur
| rn_empty junk exts cur fin :
    raw_names exts cur fin -> raw_names ((0%N, vec16 [] ++ junk) :: exts) cur fin
| rn_name k h junk exts fin :
    (len (flat_map enc_name (repeat [] k ++ [h])) < 65536)%N ->
    raw_names exts h fin ->
    raw_names ((0%N, vec16 (flat_map enc_name (repeat [] k ++ [h])) ++ junk) :: exts) [] fin
| rn_other ty data exts cur fin :
    ty <> 0%N -> raw_names exts cur fin -> raw_names ((ty, data) :: exts) cur fin.

Lemma cb_u16_prefixed_inv_len s a r : cb_u16_prefixed s = Some (a, r) -> (len a < 65536)%N.
Proof.
  unfold cb_u16_prefixed. destruct (cb_u16 s) as [[n s']|] eqn:E; [|discriminate].
  intros H. apply cb_u16_inv in E as [-> ?]. apply cb_take_inv in H as [-> ->]. exact H0.
Qed.

Lemma enc_raw_app t d r : enc_raw (t, d) ++ r = enc16 t ++ vec16 d ++ r.
Proof. unfold enc_raw. cbn [fst snd]. rewrite <- app_assoc. reflexivity. Qed.

Lemma parse_exts_inv fuel : forall e h r,
  parse_exts fuel e h = Ok r ->
  exists exts, e = flat_map enc_raw exts /\
    raw_names exts (serverName h) (serverName r) /\
    exists pss, alpn_lists exts pss /\ alpnProtos r = alpnProtos h ++ List.concat pss.
Proof.
  induction fuel as [|f IH]; intros e h r H.
  - destruct e; [|discriminate]. injection H as <-. exists []. split; [reflexivity|]. split; [constructor|].
    exists []. split; [constructor|]. symmetry. apply app_nil_r.
  - destruct e as [|x e].
    { injection H as <-. exists []. split; [reflexivity|]. split; [constructor|].
    exists []. split; [constructor|]. symmetry. apply app_nil_r. }
    cbn [parse_exts] in H. destruct (cb_u16 (x :: e)) as [[ty e1]|] eqn:E1; [|discriminate].
    cbn [opt bind] in H. destruct (cb_u16_prefixed e1) as [[data e2]|] eqn:E2; [|discriminate].
    cbn [opt bind] in H.
    apply cb_u16_inv in E1 as [-> Hty]. apply cb_u16_prefixed_inv in E2. subst e1.
    destruct (ty =? 0)%N eqn:E0.
    + assert (ty = 0%N) by lia. subst ty.
      destruct (cb_u16_prefixed data) as [[l junk]|] eqn:Ed; [|discriminate].
      cbn [opt bind] in H. pose proof (cb_u16_prefixed_inv_len _ _ _ Ed) as Hdl.
      apply cb_u16_prefixed_inv in Ed. subst data.
      destruct (parse_names (List.length l) l (serverName h)) as [n| | |] eqn:En; try discriminate.
      cbn [bind] in H. apply IH in H as (exts & -> & Hn & pss & Hp & Ha).
      apply parse_names_inv in En as (hs & -> & Hc).
      exists ((0%N, vec16 (flat_map enc_name hs) ++ junk) :: exts). split; [|split].
      * cbn [flat_map]. rewrite enc_raw_app. reflexivity.
      * cbn [serverName] in Hn.
        destruct Hc as [[-> ->]|(k & hh & -> & Hnil & ->)].
        -- apply rn_empty; exact Hn.
        -- rewrite Hnil. apply rn_name; [exact Hdl|exact Hn].
      * exists pss. split; [apply al_other; [discriminate|exact Hp]|exact Ha].
    + destruct (ty =? 16)%N eqn:E16.
      * assert (ty = 16%N) by lia. subst ty.
        destruct (cb_u16_prefixed data) as [[l junk]|] eqn:Ed; [|discriminate].
        cbn [opt bind] in H. apply cb_u16_prefixed_inv in Ed. subst data.
        destruct (parse_protos (List.length l) l (alpnProtos h)) as [n| | |] eqn:En; try discriminate.
        cbn [bind] in H. apply IH in H as (exts & -> & Hn & pss & Hp & Ha).
        apply parse_protos_inv in En as (ps & -> & ->).
        exists ((16%N, vec16 (flat_map vec8 ps) ++ junk) :: exts). split; [|split].
        -- cbn [flat_map]. rewrite enc_raw_app. reflexivity.
        -- apply rn_other; [discriminate|exact Hn].
        -- exists (ps :: pss). split; [apply al_alpn; exact Hp|].
           cbn [alpnProtos] in Ha. rewrite Ha. cbn [List.concat]. rewrite app_assoc. reflexivity.
      * apply IH in H as (exts & -> & Hn & pss & Hp & Ha).
        exists ((ty, data) :: exts). split; [|split].
        -- cbn [flat_map]. rewrite enc_raw_app. reflexivity.
        -- apply rn_other; [lia|exact Hn].
        -- exists pss. split; [apply al_other; [lia|exact Hp]|exact Ha].
Qed.

Lemma len_vec16_lt a j : (len (vec16 a ++ j) < 65536)%N -> (len a < 65536)%N.
Proof. rewrite len_app, len_vec16. lia. Qed.

Lemma vec16_inj a b j k :
  (len a < 65536)%N -> (len b < 65536)%N -> vec16 a ++ j = vec16 b ++ k -> a = b.
Proof.
  intros Ha Hb H. pose proof (cb_u16_prefixed_vec a j Ha) as H1.
  rewrite H, cb_u16_prefixed_vec in H1 by exact Hb. congruence.
Qed.

(** Reading back the list of a server_name extension. *)
Lemma parse_names_entries k h : forall fuel,
  (len (flat_map enc_name (repeat [] k ++ [h])) < 65536)%N ->
  List.length (flat_map enc_name (repeat [] k ++ [h])) <= fuel ->
  parse_names fuel (flat_map enc_name (repeat [] k ++ [h])) [] = Ok h.
Proof.
  induction k as [|k IH]; intros fuel Hl Hf.
  - cbn [repeat app flat_map] in *. rewrite app_nil_r in *.
    apply parse_names_enc; [|exact Hf].
    unfold enc_name in Hl. rewrite len_app, len_vec16 in Hl. lia.
  - cbn [repeat app flat_map] in *.
    set (tl := flat_map enc_name (repeat [] k ++ [h])) in *.
    assert (Hc : enc_name [] = [ascii_of_N 0; ascii_of_N 0; ascii_of_N 0]) by reflexivity.
    rewrite Hc in *. cbn [app] in *.
    destruct fuel as [|f]; [simpl in Hf; lia|].
    cbn [parse_names cb_u8]. rewrite !byte_enc by lia. cbn [opt bind N.eqb negb].
    assert (Hp : cb_u16_prefixed (ascii_of_N 0 :: ascii_of_N 0 :: tl) = Some ([], tl))
      by (apply (cb_u16_prefixed_vec [] tl); reflexivity).
    rewrite Hp. cbn [opt bind]. unfold str_eqb at 1.
    apply IH; [|simpl in Hf; lia].
    unfold len in *. simpl List.length in Hl. lia.
Qed.

Lemma enc_names_inj k h k' h' :
  (len (flat_map enc_name (repeat [] k ++ [h])) < 65536)%N ->
  flat_map enc_name (repeat [] k ++ [h]) = flat_map enc_name (repeat [] k' ++ [h']) ->
  h = h'.
Proof.
  intros Hl He. pose proof (parse_names_entries k h _ Hl (Nat.le_refl _)) as H1.
  rewrite He in H1. rewrite He in Hl.
  rewrite parse_names_entries in H1 by (try exact Hl; lia). congruence.
Qed.

Lemma raw_names_offers exts cur fin :
  raw_names exts cur fin ->
  Forall (fun e => (len (snd e) < 65536)%N) exts ->
  (fin <> [] -> cur = fin \/ cur = [] /\ offers_name exts fin) /\
  (cur <> [] -> fin = cur) /\
  (forall n, n <> [] -> offers_name exts n -> fin = n).
Proof.
  induction 1 as [cur|junk exts cur fin Hr IH|k h junk exts fin Hl Hr IH|ty data exts cur fin Hty Hr IH];
    intros Hw.
  - split; [auto|]. split; [auto|]. intros n _ (d & k & j & [] & _).
  - inversion Hw as [|? ? Hd Hw']; subst. destruct (IH Hw') as (H1 & H2 & H3).
    split; [|split; [exact H2|]].
    + intros Hf. destruct (H1 Hf) as [Hc|[Hc (d & k & j & Hin & Hd')]]; [auto|].
      right. split; [exact Hc|]. exists d, k, j. split; [right; exact Hin|exact Hd'].
    + intros n Hn (d & k & j & [Heq|Hin] & Hd').
      * exfalso. injection Heq as <-. cbn [snd] in Hd.
        assert (Hx : [] = flat_map enc_name (repeat [] k ++ [n])).
        { rewrite Hd' in Hd. eapply vec16_inj; [reflexivity| |exact Hd'].
          exact (len_vec16_lt _ _ Hd). }
        destruct k; discriminate Hx.
      * apply H3; [exact Hn|]. exists d, k, j. auto.
  - inversion Hw as [|? ? Hd Hw']; subst. destruct (IH Hw') as (H1 & H2 & H3).
    split; [|split; [congruence|]].
    + intros Hf. right. split; [reflexivity|].
      destruct (H1 Hf) as [Hc|[Hc (d & k' & j & Hin & Hd')]].
      * subst h. eexists _, k, junk. split; [left; reflexivity|reflexivity].
      * exists d, k', j. split; [right; exact Hin|exact Hd'].
    + intros n Hn (d & k' & j & [Heq|Hin] & Hd').
      * injection Heq as <-. cbn [snd] in Hd.
        assert (Hx : flat_map enc_name (repeat [] k ++ [h]) = flat_map enc_name (repeat [] k' ++ [n])).
        { rewrite Hd' in Hd. eapply vec16_inj; [exact Hl| |exact Hd'].
          exact (len_vec16_lt _ _ Hd). }
        apply enc_names_inj in Hx; [|exact Hl]. subst h. apply H2. exact Hn.
      * apply H3; [exact Hn|]. exists d, k', j. auto.
  - inversion Hw as [|? ? Hd Hw']; subst. destruct (IH Hw') as (H1 & H2 & H3).
    split; [|split; [exact H2|]].
    + intros Hf. destruct (H1 Hf) as [Hc|[Hc (d & k & j & Hin & Hd')]]; [auto|].
      right. split; [exact Hc|]. exists d, k, j. split; [right; exact Hin|exact Hd'].
    + intros n Hn (d & k & j & [Heq|Hin] & Hd').
      * exfalso. injection Heq as He _. congruence.
      * apply H3; [exact Hn|]. exists d, k, j. auto.
Qed.

Lemma len_raw_In e exts :
  In e exts -> (len (snd e) <= len (flat_map enc_raw exts))%N.
Proof.
  induction exts as [|x exts IH]; [contradiction|].
  cbn [flat_map]. rewrite len_app. intros [->|H].
  - unfold enc_raw at 1. rewrite len_app, len_vec16. lia.
  - specialize (IH H). lia.
Qed.

Lemma parse_handshake_sound buf r :
  parse_handshake buf = Ok r ->
  exists exts, is_client_hello buf exts /\
    (serverName r <> [] -> offers_name exts (serverName r)) /\
    (forall n, n <> [] -> offers_name exts n -> serverName r = n) /\
    (exists pss, alpn_lists exts pss /\ alpnProtos r = List.concat pss).
Proof.
  intros H. destruct buf as [|b0 buf]; [discriminate|].
  unfold parse_handshake in H.
  destruct (negb (byte b0 =? 1)%N) eqn:E1; [discriminate|].
  destruct (cb_skip 4 (b0 :: buf)) as [s1|] eqn:Es1; [|discriminate]. cbn [opt bind] in H.
  destruct (cb_skip 34 s1) as [s2|] eqn:Es2; [|discriminate]. cbn [opt bind] in H.
  destruct (cb_u8 s2) as [[n3 s3]|] eqn:Es3; [|discriminate]. cbn [opt bind] in H.
  destruct (cb_skip n3 s3) as [s4|] eqn:Es4; [|discriminate]. cbn [opt bind] in H.
  destruct (cb_u16 s4) as [[n5 s5]|] eqn:Es5; [|discriminate]. cbn [opt bind] in H.
  destruct (cb_skip n5 s5) as [s6|] eqn:Es6; [|discriminate]. cbn [opt bind] in H.
  destruct (cb_u8 s6) as [[n7 s7]|] eqn:Es7; [|discriminate]. cbn [opt bind] in H.
  destruct (cb_skip n7 s7) as [s8|] eqn:Es8; [|discriminate]. cbn [opt bind] in H.
  destruct (cb_u16_prefixed s8) as [[ex post]|] eqn:Es9; [|discriminate]. cbn [opt bind] in H.
  apply parse_exts_inv in H as (exts & -> & Hn & pss & Hp & Ha).
  pose proof (cb_u16_prefixed_inv_len _ _ _ Es9) as Hlen.
  apply cb_skip_inv in Es1 as (a1 & Ha1 & Hl1).
  apply cb_skip_inv in Es2 as (a2 & -> & Hl2).
  apply cb_u8_inv in Es3 as [-> _]. apply cb_skip_inv in Es4 as (a3 & -> & <-).
  apply cb_u16_inv in Es5 as [-> _]. apply cb_skip_inv in Es6 as (a5 & -> & <-).
  apply cb_u8_inv in Es7 as [-> _]. apply cb_skip_inv in Es8 as (a7 & -> & <-).
  apply cb_u16_prefixed_inv in Es9. subst s8.
  exists exts.
  assert (Hw : Forall (fun e => (len (snd e) < 65536)%N) exts).
  { apply Forall_forall. intros e He. apply len_raw_In in He. lia. }
  destruct (raw_names_offers _ _ _ Hn Hw) as (H1 & _ & H3). cbn [serverName] in *.
  split; [|split; [|split]].
  - destruct a1 as [|x a1]; [discriminate Hl1|].
    injection Ha1 as <- Ha1.
    exists a1, a2, a3, a5, a7, post. rewrite Ha1. unfold vec8 at 1 2, vec16 at 1.
    rewrite <- !app_assoc. split; [|split].
    + assert (Hb : b0 = ascii_of_N 1).
      { rewrite <- (ascii_N_embedding b0). f_equal. unfold byte in E1. lia. }
      rewrite Hb. reflexivity.
    + unfold len in Hl1. simpl in Hl1. lia.
    + unfold len in Hl2. lia.
  - intros Hf. destruct (H1 Hf) as [Hc|[_ Hc]]; [congruence|exact Hc].
  - exact H3.
  - exists pss. split; [exact Hp|exact Ha].
Qed.

Lemma peek_client_hello_sound c got1 got2 c' r :
  peek_client_hello c got1 got2 = (c', Ok r) ->
  exists ver buf rest exts,
    unread c = enc8 22 ++ ver ++ vec16 buf ++ rest /\ List.length ver = 2 /\
    is_client_hello buf exts /\
    (serverName r <> [] -> offers_name exts (serverName r)) /\
    (forall n, n <> [] -> offers_name exts n -> serverName r = n) /\
    (exists pss, alpn_lists exts pss /\ alpnProtos r = List.concat pss).
Proof.
  unfold peek_client_hello. intros H.
  destruct (peek c 5 got1) as [[c1 hdr] ok1] eqn:Hp1.
  apply peek_unread in Hp1 as (Hu1 & _ & [t Ht] & Hok1 & _).
  destruct ok1; cbn [negb] in H; [|discriminate].
  destruct Hok1 as [Hok1 _]. specialize (Hok1 eq_refl).
  destruct hdr as [|b0 [|b1 [|b2 [|b3 [|b4 [|b5 hdr]]]]]]; try discriminate Hok1.
  destruct (negb (byte b0 =? 22)%N) eqn:E22; [discriminate|].
  replace (cb_skip 3 [b0; b1; b2; b3; b4]) with (Some [b3; b4]) in H by reflexivity.
  cbn [cb_u16] in H.
  destruct (16384 <? byte b3 * 256 + byte b4)%N eqn:El; [discriminate|].
  set (l := (byte b3 * 256 + byte b4)%N) in *.
  destruct (peek c1 (N.to_nat ((5 + l) mod 65536)) got2) as [[c2 buf] ok2] eqn:Hp2.
  apply peek_unread in Hp2 as (Hu2 & _ & [t2 Ht2] & Hok2 & _).
  destruct ok2; cbn [negb] in H; [|discriminate].
  destruct Hok2 as [Hok2 _]. specialize (Hok2 eq_refl).
  apply (f_equal snd) in H. cbn [snd] in H.
  assert (Hlb : List.length buf = 5 + N.to_nat l) by lia.
  rewrite Hu1, Ht in Ht2.
  destruct buf as [|x0 [|x1 [|x2 [|x3 [|x4 buf]]]]]; try (simpl in Hlb; lia).
  cbn [app] in Ht2. injection Ht2 as <- <- <- <- <- Ht2.
  apply parse_handshake_sound in H as (exts & H1 & H2 & H3 & H4).
  change (skipn 5 (b0 :: b1 :: b2 :: b3 :: b4 :: buf)) with buf in H1.
  exists [b1; b2], buf, t2, exts. split; [|auto].
  rewrite Ht, Ht2. cbn [app].
  assert (Hb : b0 = ascii_of_N 22).
  { rewrite <- (ascii_N_embedding b0). f_equal. unfold byte in E22. lia. }
  assert (Hlen : len buf = l) by (unfold len; simpl in Hlb; lia).
  unfold vec16. rewrite Hlen. unfold l. rewrite enc16_inv, Hb. reflexivity.
Qed.
