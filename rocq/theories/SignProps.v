(** Theorem C84: signatures of passkeys. *)
From Verif Require Import Base ProxyHdrModel ProxyHdrSpec ProxyHdrProofs PasskeyModel PasskeySpec LoginProofs LoginProofs2 PasskeyProofs PasskeyProofs2 PasskeyProofs3 PasskeyProps SignModel SignSpec.
Open Scope list_scope.
Open Scope Z_scope.

(** ** Bytes *)

Lemma split_join c l : l <> [] -> Forall (fun p => ~ In c p) l -> split_on c (join c l) = l.
Proof.
  induction l as [|x l IH]; intros N F; [congruence|]. inversion F as [|? ? Fx Fl]; subst. destruct l as [|y l].
  - cbn. apply split_on_no_char. exact Fx.
  - rewrite join_cons by discriminate. specialize (IH ltac:(discriminate) Fl). revert IH. generalize (join c (y :: l)). intros r IH.
    clear - Fx IH. induction x as [|a x IHx]; cbn.
    + rewrite Ascii.eqb_refl, IH. reflexivity.
    + destruct (Ascii.eqb a c) eqn:E; [apply Ascii.eqb_eq in E; destruct Fx; left; exact E|]. rewrite IHx; [reflexivity|]. intro H. apply Fx. right. exact H.
Qed.
Fixpoint wrap_last (l : list str) : list str :=
  match l with [] => [] | [x] => [x ++ lit "]"] | x :: l' => x :: wrap_last l' end.
Lemma join_wrap c l : l <> [] -> join c (wrap_last l) = join c l ++ lit "]".
Proof.
  induction l as [|x l IH]; intro N; [congruence|]. destruct l as [|y l]; [reflexivity|]. change (wrap_last (x :: y :: l)) with (x :: wrap_last (y :: l)).
  assert (W : wrap_last (y :: l) <> []) by (destruct l; cbn; congruence). rewrite (join_cons c x (wrap_last (y :: l)) W).
  rewrite IH by discriminate. rewrite (join_cons c x (y :: l)) by discriminate. rewrite <- app_assoc. reflexivity.
Qed.
Lemma join_wrap_first c x l : join c ((lit "[" ++ x) :: l) = lit "[" ++ join c (x :: l).
Proof. destruct l; reflexivity. Qed.
Lemma wrap_forall (P : str -> Prop) l : Forall P l -> (forall x, P x -> P (x ++ lit "]")) -> Forall P (wrap_last l).
Proof. intros F H. induction F as [|x l Fx Fl IH]; [constructor|]. destruct l; cbn; constructor; auto. Qed.
Lemma wrap_app x y l : wrap_last (x :: y :: l) = x :: wrap_last (y :: l).
Proof. reflexivity. Qed.

Lemma marshal_array b : marshal_bytes (Some b) = json_array b.
Proof.
  unfold marshal_bytes, json_array, sprintf_d. destruct b as [|a b]; [reflexivity|]. cbn [map].
  set (x := dec (N_of_ascii a)). set (l := map _ b).
  assert (E : forall c, lit "[" ++ join c (x :: l) ++ lit "]" = join c (wrap_last ((lit "[" ++ x) :: l))).
  { intro c. rewrite join_wrap by discriminate. rewrite join_wrap_first, app_assoc. reflexivity. }
  rewrite !E. unfold fields. rewrite split_join.
  - f_equal. assert (F : Forall (fun p => p <> []) (wrap_last ((lit "[" ++ x) :: l))).
    { apply wrap_forall; [|intros [|? ?] _; discriminate]. constructor; [discriminate|]. unfold l. apply Forall_forall. intros p Hp. apply in_map_iff in Hp. destruct Hp as (z & <- & _). apply dec_nonempty. }
    clear E. induction F as [|p r Fp Fr IH]; [reflexivity|]. cbn [filter]. rewrite IH. destruct p; [congruence|]. reflexivity.
  - destruct l; discriminate.
  - apply wrap_forall.
    + constructor. { intro H. apply in_app_iff in H. destruct H as [[H|[]]|H]; [discriminate|]. revert H. apply dec_no. exact sp_no_digit. }
      unfold l. apply Forall_forall. intros p Hp. apply in_map_iff in Hp. destruct Hp as (z & <- & _). apply dec_no. exact sp_no_digit.
    + intros p Hp H. apply in_app_iff in H. destruct H as [H|[H|[]]]; [auto|discriminate].
Qed.

Lemma dec_inj n m : dec n = dec m -> n = m.
Proof. intro H. assert (E : undec (N.max n m) (dec n) = undec (N.max n m) (dec m)) by congruence. rewrite !undec_dec in E by lia. congruence. Qed.

(** Bytes reach the browser as they are: they are written as the JSON array of their
    values, and no two sequences of bytes are written the same. *)
Theorem C84_bytes : marshal_bytes None = lit "null" /\ forall b, marshal_bytes (Some b) = json_array b /\ forall b', marshal_bytes (Some b) = marshal_bytes (Some b') -> b = b'.
Proof.
  split; [reflexivity|]. intros b. split; [apply marshal_array|]. intros b'. rewrite !marshal_array. unfold json_array. intro H. apply app_inv_head in H. apply app_inv_tail in H.
  assert (J : forall x : str, x <> [] -> split_on "," (join "," (map (fun c => dec (N_of_ascii c)) x)) = map (fun c => dec (N_of_ascii c)) x).
  { intros x Hx. apply split_join; [destruct x; [congruence|discriminate]|]. apply Forall_forall. intros p Hp. apply in_map_iff in Hp. destruct Hp as (z & <- & _).
    apply dec_no. unfold is_digit. cbn. lia. }
  assert (M : forall x y : str, map (fun c => dec (N_of_ascii c)) x = map (fun c => dec (N_of_ascii c)) y -> x = y).
  { induction x as [|a x IH]; intros [|a' y] E; try discriminate; [reflexivity|]. cbn [map] in E. injection E as E1 E2. apply dec_inj in E1. f_equal; [|auto].
    rewrite <- (ascii_N_embedding a), <- (ascii_N_embedding a'), E1. reflexivity. }
  assert (Z : forall c (r : str), join "," (map (fun c => dec (N_of_ascii c)) (c :: r)) <> []).
  { intros c r E. cbn [map] in E. pose proof (dec_nonempty (N_of_ascii c)) as D. destruct (map _ r); cbn in E; [congruence|]. destruct (dec (N_of_ascii c)); [congruence|discriminate]. }
  destruct b as [|a b], b' as [|a' b']; [reflexivity| | |].
  - exfalso. exact (Z _ _ (eq_sym H)).
  - exfalso. exact (Z _ _ H).
  - apply M. rewrite <- (J (a :: b)), <- (J (a' :: b')) by discriminate. rewrite H. reflexivity.
Qed.
Print Assumptions C84_bytes.
Example C84_bytes_example : marshal_bytes (Some (lit "A b")) = lit "[65,32,98]" /\ marshal_bytes (Some []) = lit "[]".
Proof. split; reflexivity. Qed.

(** ** Signatures *)

Lemma int_nonzero k l n : n <> 0 -> int_field k l = Some n <-> label k l = Some (CInt n).
Proof. intro Hn. unfold int_field. destruct (label k l) as [[| |]|]; split; congruence. Qed.

(** What is accepted: ECDSA signatures with a key on P-256 and RSA signatures, of the hash
    of the authenticator data followed by the hash of the client data; nothing else. *)
Theorem C84_accepted : forall lib key adata cdata sig,
  verify_signature lib key adata cdata sig = true <->
  let h := sl_sha lib (adata ++ sl_sha lib cdata) in
  (exists x y, es256 lib key x y /\ sl_ecdsa lib x y h sig = true) \/ (exists n e, rs256 lib key n e /\ sl_rsa lib n e h sig = true).
Proof.
  intros lib key adata cdata sig. cbv zeta. unfold verify_signature, signed_bytes. cbv zeta. set (h := sl_sha lib _). unfold es256, rs256.
  destruct (sl_decode lib key) as [l|]; [|split; [discriminate|intros [(x & y & (l & ? & ? & E & _) & _)|(n & e & (l & ? & E & _) & _)]; discriminate]].
  split.
  - destruct (int_field 1 l) as [k|] eqn:E1; [|discriminate].
    assert (K : k = 2 \/ k = 3 \/ (match k with 2 => false | 3 => false | _ => true end) = true).
    { destruct k as [|p|p]; auto. destruct p as [[p|p|]|[p|p|]|]; auto. }
    destruct K as [->|[->|K]].
    + destruct (int_field 3 l) as [alg|] eqn:E3; [|discriminate]. destruct (int_field (-1) l) as [crv|] eqn:Ec; [|discriminate].
      destruct (bytes_field (-2) l) as [x|] eqn:Ex; [|discriminate]. destruct (bytes_field (-3) l) as [y|] eqn:Ey; [|discriminate].
      destruct (Z.eqb_spec alg (-7)) as [->|]; [|discriminate]. destruct (Z.eqb_spec crv 1) as [->|]; [|discriminate]. cbn [negb].
      destruct (sl_on_curve lib _ _) eqn:Eo; [|discriminate]. cbn [negb]. intro V. left. exists (set_bytes x), (set_bytes y). split; [|exact V].
      exists l, x, y. apply int_nonzero in E1; [|lia]. apply int_nonzero in E3; [|lia]. apply int_nonzero in Ec; [|lia]. repeat split; auto.
    + destruct (int_field 3 l) as [alg|] eqn:E3; [|discriminate]. destruct (bytes_field (-1) l) as [n|] eqn:En; [|discriminate].
      destruct (int_field (-2) l) as [e|] eqn:Ee; [|discriminate]. destruct (Z.eqb_spec alg (-257)) as [->|]; [|discriminate]. cbn [negb]. intro V.
      right. exists (set_bytes n), e. split; [|exact V]. exists l, n. apply int_nonzero in E1; [|lia]. apply int_nonzero in E3; [|lia]. repeat split; auto.
    + intro V. exfalso. destruct k as [|p|p]; [discriminate| |discriminate]. destruct p as [[p|p|]|[p|p|]|]; discriminate.
  - intros [(x & y & (l' & xb & yb & E & E1 & E3 & Ec & Ex & Ey & -> & -> & Eo) & V)|(n & e & (l' & nb & E & E1 & E3 & En & Ee & ->) & V)]; injection E as <-.
    + apply int_nonzero in E1; [|lia]. apply int_nonzero in E3; [|lia]. apply int_nonzero in Ec; [|lia]. rewrite E1, E3, Ec, Ex, Ey.
      rewrite !Z.eqb_refl. cbn [negb]. change big_endian with set_bytes in *. rewrite Eo. cbn [negb]. exact V.
    + apply int_nonzero in E1; [|lia]. apply int_nonzero in E3; [|lia]. rewrite E1, E3, En, Ee, Z.eqb_refl. cbn [negb]. exact V.
Qed.
Print Assumptions C84_accepted.

(** A login means that the holder of the key signed this authenticator data and this
    client data, and so the challenge in it, which the proxy drew before. *)
Lemma app_same_length {A} (a b c d : list A) : List.length a = List.length c -> a ++ b = c ++ d -> a = c /\ b = d.
Proof.
  revert c. induction a as [|x a IH]; intros [|y c] L E; try discriminate; [auto|]. injection L as L. injection E as -> E. destruct (IH _ L E) as [-> ->]. auto.
Qed.
Theorem C84_holder_signed : forall lib known signs e ops a token now c k,
  good_hash lib known -> unforgeable lib known signs -> known (a_cdata a) -> known (a_adata a ++ sl_sha lib (a_cdata a)) -> NoDup (uids ops) ->
  panswer (with_signatures lib e) ops (Check a token now) = PLogin c k ->
  signs (k_pub k) (a_adata a) (a_cdata a) /\
  exists cd before o between t, e_client_data e (a_cdata a) = Some cd /\ ops = before ++ o :: between /\
    (o = AssOptions (cd_challenge cd) t \/ exists cl uid, o = AttOptions cl uid (cd_challenge cd) t).
Proof.
  intros lib known signs e ops a token now c k [HL HI] (U0 & U1 & U2) K1 K2 N H. split.
  - apply login_spec in H as (m & _ & _ & _ & V & _); [|exact N]. cbn [with_signatures e_verify] in V. apply C84_accepted in V. cbv zeta in V.
    assert (G : exists ad cd, signs (k_pub k) ad cd /\ sl_sha lib (a_adata a ++ sl_sha lib (a_cdata a)) = sl_sha lib (ad ++ sl_sha lib cd)).
    { destruct V as [(x & y & K & V)|(n & ex & K & V)]; [exact (U1 _ _ _ _ _ K V)|exact (U2 _ _ _ _ _ K V)]. }
    destruct G as (ad & cd & S & E). destruct (U0 _ _ _ S) as [K3 K4]. apply HI in E; [|exact K2|exact K4].
    assert (L : List.length (a_adata a) = List.length ad). { apply (f_equal (@List.length ascii)) in E. rewrite !app_length, !HL in E. lia. }
    destruct (app_same_length _ _ _ _ L E) as [-> Ec]. apply HI in Ec; [|exact K1|exact K3]. rewrite Ec. exact S.
  - apply login_challenge in H as (cd & before & between & o & t & H1 & _ & H2 & H3 & _). exists cd, before, o, between, t. auto.
Qed.
Print Assumptions C84_holder_signed.

(** A key with an ECDSA key that is on the curve if both coordinates are 7, and a holder
    who signed the answer to one challenge. *)
Definition sx_lib : slib :=
  {| sl_decode := fun s => if str_eqb s (lit "pb") then Some [(1, CInt 2); (3, CInt (-7)); (-1, CInt 1); (-2, CBytes [ascii_of_nat 7]); (-3, CBytes [ascii_of_nat 7])]
                           else if str_eqb s (lit "okp") then Some [(1, CInt 1); (3, CInt (-8)); (-1, CInt 6); (-2, CBytes [ascii_of_nat 7])] else None;
     sl_sha := fun s => firstn 32 (rev s ++ repeat "0"%char 32); sl_on_curve := fun x y => (x =? 7)%N && (y =? 7)%N;
     sl_ecdsa := fun x y h sig => str_eqb sig (lit "sig") && str_eqb h (firstn 32 (rev (ex_adata ++ firstn 32 (rev (lit "get3") ++ repeat "0"%char 32)) ++ repeat "0"%char 32));
     sl_rsa := fun _ _ _ _ => false |}.
Definition sx_signs (key adata cdata : str) : Prop := adata = ex_adata /\ cdata = lit "get3".
Definition sx_known (s : str) : Prop := s = lit "get3" \/ s = ex_adata ++ sl_sha sx_lib (lit "get3").
Example C84_nontrivial :
  good_hash sx_lib sx_known /\ unforgeable sx_lib sx_known sx_signs /\
  panswer (with_signatures sx_lib ex_env) ex_history (Check {| a_id := Some (lit "kb"); a_cdata := lit "get3"; a_adata := ex_adata; a_sig := lit "sig"; a_handle := lit "h1"; a_login := [] |} None 150)
    = PLogin ex_bob ex_bob_key.
Proof.
  split; [split|split].
  - intro s. unfold sx_lib. cbn [sl_sha]. rewrite firstn_length, app_length, repeat_length. lia.
  - intros s t [->| ->] [->| ->] E; try reflexivity; vm_compute in E; discriminate.
  - split; [|split].
    + intros key ad cd [-> ->]. unfold sx_known. auto.
    + intros key x y h sig _ V. exists ex_adata, (lit "get3"). split; [split; reflexivity|]. cbn [sx_lib sl_ecdsa] in V. apply andb_true_iff in V. destruct V as [_ V].
      apply str_eqb_spec in V. exact V.
    + intros key n e h sig _ V. discriminate.
  - vm_compute. reflexivity.
Qed.

(** A registered key can be used: false, since the key itself is not looked at when it is
    registered.  The user of such a key cannot log in, nor register another one. *)
Theorem C84_registered_key_usable_refuted :
  ~ (forall lib e ops c host cdata att allow k, panswer (with_signatures lib e) ops (AddKey c host cdata att allow) = PAdded c k -> supported lib (k_pub k)).
Proof.
  intro H. specialize (H sx_lib ex_env [Vacuum 100; AttOptions ex_bob (lit "h1") (lit "ch1") 100] ex_bob (lit "sso") (lit "create1") (ex_att (lit "kb") (lit "okp")) false
    {| k_id := lit "kb"; k_pub := lit "okp"; k_rp := ex_hash (lit "sso") |}).
  destruct H as [(x & y & l & ? & ? & E & E1 & _)|(n & e & l & ? & E & E1 & _)].
  - vm_compute. reflexivity.
  - vm_compute in E. injection E as <-. discriminate E1.
  - vm_compute in E. injection E as <-. discriminate E1.
Qed.
Print Assumptions C84_registered_key_usable_refuted.
Theorem C84_unsupported_key_locks_out : forall lib e ops m k a token now c k' c0 host cdata att,
  NoDup (uids ops) -> keys_of (pafter (with_signatures lib e) ops) m = [k] -> ~ supported lib (k_pub k) -> u_email c0 = Some m -> u_email c = Some m ->
  panswer (with_signatures lib e) ops (Check a token now) <> PLogin c k' /\
  panswer (with_signatures lib e) ops (AddKey c0 host cdata att false) <> PAdded c0 k'.
Proof.
  intros lib e ops m k a token now c k' c0 host cdata att N K S E0 E. split; intro H.
  - apply login_spec in H as (m' & Em & Hin & _ & V & _); [|exact N]. assert (m' = m) by congruence. subst. rewrite K in Hin. destruct Hin as [<-|[]].
    cbn [with_signatures e_verify] in V. apply C84_accepted in V. cbv zeta in V. apply S. destruct V as [(x & y & X & _)|(n & ex & X & _)]; [left|right]; eauto.
  - revert H. unfold panswer. cbn [pstep]. destruct (negb false && _); [discriminate|].
    set (st := pafter (with_signatures lib e) ops) in *. set (ev := with_signatures lib e) in *.
    destruct (attestation_spec ev c0 host cdata att false st) as [[X _]|(k1 & _ & A)]; [congruence|]. intros _.
    destruct A as (m' & cd & uid & created & raw & ad & aaguid & Em & _ & _ & _ & _ & _ & _ & _ & _ & _ & _ & _ & _ & A).
    assert (m' = m) by congruence. subst. unfold keys_of in K.
    destruct A as [(h & u & A1 & A2 & [A3|A3] & _)|([A|(h & A1 & A2)] & _)]; [discriminate| | |].
    + rewrite A1, A2 in K. congruence.
    + rewrite A in K. discriminate.
    + rewrite A1, A2 in K. discriminate.
Qed.
Print Assumptions C84_unsupported_key_locks_out.
