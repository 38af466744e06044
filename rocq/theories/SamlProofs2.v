(** Lemmas about SamlModel: histories and claims. *)
From Verif Require Import Base XfccModel SamlModel SamlSpec SamlProofs.
From Verif Require XfccProofs LoginModel RefreshModel.
Open Scope nat_scope.

Lemma assoc_filter : forall {A} (P : str * A -> bool) k (s : A) l, assoc k l = Some s -> (forall k', P (k', s) = true) -> assoc k (filter P l) = Some s.
Proof.
  intros A P k s l H Q. induction l as [|[k' x] l IH]; [discriminate H|]. cbn [assoc] in H. destruct (str_eqb k k') eqn:E.
  - injection H as ->. cbn [filter]. rewrite Q. cbn [assoc]. rewrite E. reflexivity.
  - cbn [filter]. destruct (P (k', x)); [cbn [assoc]; rewrite E|]; auto.
Qed.

Lemma leaves_step : forall l cfg id deadline s o st, leaves l id deadline o -> assoc (hex id) st = Some s ->
  (deadline = LoginModel.ls_created s + 5 * LoginModel.minute)%Z ->
  assoc (hex id) (fst (step l cfg st o)) = Some s.
Proof.
  intros l cfg id deadline s o st L A D. destruct o as [dir url id' instant now|method field now later]; cbn [step leaves] in *.
  - unfold request_login. destruct (negb (l_url l url)); cbn [fst]; [exact A|]. rewrite assoc_set_neq; [exact A|].
    intros E. apply L. apply XfccProofs.hex_injective in E. congruence.
  - destruct L as [N V]. unfold handle_callback. destruct (negb (str_eqb method (lit "POST"))); [exact A|].
    destruct (signed l field) as [code|v] eqn:S; [exact A|]. specialize (V v eq_refl).
    set (P := fun kv : str * LoginModel.login_state => negb (5 * LoginModel.minute <? now - LoginModel.ls_created (snd kv))%Z).
    assert (B : assoc (hex id) (filter P st) = Some s).
    { apply assoc_filter; [exact A|]. intros k'. unfold P. cbn [snd]. apply negb_true_iff, Z.ltb_ge. lia. }
    cbn [assertion_of LoginModel.as_in_response_to]. set (i := attr_at v confirmation (lit "InResponseTo")) in *.
    destruct (assoc i (filter P st)); [|exact B]. cbn [fst]. rewrite assoc_del_neq; [exact B|congruence].
Qed.
Lemma leaves_run : forall l cfg id deadline s ops st, Forall (leaves l id deadline) ops -> assoc (hex id) st = Some s ->
  (deadline = LoginModel.ls_created s + 5 * LoginModel.minute)%Z -> assoc (hex id) (run l cfg st ops) = Some s.
Proof.
  intros l cfg id deadline s ops. induction ops as [|o ops IH]; intros st F A D; [exact A|]. inversion F; subst. cbn [run].
  apply IH; [assumption| |reflexivity]. eapply leaves_step; eauto.
Qed.

(** Claims. *)
Lemma claims_fold : forall k l m,
  assoc k (fold_left (fun m a => match attr (lit "Name") a with
                        | Some k => assoc_set k (text_at a [lit "AttributeValue"]) m
                        | None => m
                        end) l m) =
  match last_value k (flat_map (fun a => match attr (lit "Name") a with Some k => [(k, text_at a [lit "AttributeValue"])] | None => [] end) l) with
  | Some x => Some x
  | None => assoc k m
  end.
Proof.
  intros k l. induction l as [|a l IH]; intros m; [reflexivity|]. cbn [fold_left flat_map]. rewrite IH.
  destruct (attr (lit "Name") a) as [k'|]; [|reflexivity]. cbn [app last_value].
  destruct (last_value k (flat_map _ l)); [reflexivity|]. destruct (str_eqb k k') eqn:E.
  - apply str_eqb_spec in E as ->. apply assoc_set_eq.
  - apply assoc_set_neq. apply str_eqb_neq in E. congruence.
Qed.
Lemma claims_spec : forall k v, assoc k (claims_of v) =
  match last_value k (attributes v) with
  | Some x => Some x
  | None => if str_eqb k (lit "source") then Some (text_at v [lit "Issuer"]) else None
  end.
Proof. intros k v. unfold claims_of. rewrite claims_fold. reflexivity. Qed.

Lemma answer_attributes : forall req issuer user nb na attrs, attributes (honest_answer req issuer user nb na attrs) = attrs.
Proof.
  intros req issuer user nb na attrs. unfold attributes.
  assert (E : find_all [lit "AttributeStatement"; lit "Attribute"] (honest_answer req issuer user nb na attrs) =
    map (fun kv => Elem (lit "Attribute") [(lit "Name", fst kv)] [Elem (lit "AttributeValue") [] [Chars (snd kv)]]) attrs).
  { unfold honest_answer. cbn [find_all children]. change (filter (is_elem (lit "AttributeStatement")) _) with
      [Elem (lit "AttributeStatement") [] (map (fun kv => Elem (lit "Attribute") [(lit "Name", fst kv)] [Elem (lit "AttributeValue") [] [Chars (snd kv)]]) attrs)].
    cbn [flat_map children find_all]. rewrite app_nil_r. induction attrs as [|kv attrs IH]; [reflexivity|]. cbn [map filter is_elem].
    rewrite str_eqb_refl. cbn [flat_map find_all app]. rewrite IH. reflexivity. }
  rewrite E. clear E. induction attrs as [|[k v] attrs IH]; [reflexivity|]. cbn [map flat_map]. rewrite IH. cbn [attr fst snd].
  change (assoc (lit "Name") [(lit "Name", k)]) with (Some k). cbn [app]. unfold text_at, find_elem. cbn [find_all children filter is_elem].
  rewrite str_eqb_refl. cbn [flat_map find_all app text leading]. rewrite app_nil_r. reflexivity.
Qed.

Lemma self_service : forall cfg name, service_of (c_acs cfg) name -> self cfg = name.
Proof.
  intros cfg name (host & port & path & A & -> & NE & H & P & Q). unfold self. rewrite A. f_equal.
  assert (U : url_host (lit "https://" ++ host ++ port ++ path) = host ++ port).
  { unfold url_host. change (has_scheme (lit "https://" ++ host ++ port ++ path)) with true. cbv iota.
    change (cut ":" (lit "https://" ++ host ++ port ++ path)) with (lit "https", lit "//" ++ host ++ port ++ path, true). cbv iota.
    unfold RefreshModel.host_of_ref. change (lit "//" ++ host ++ port ++ path) with ("/"%char :: "/"%char :: (host ++ port ++ path)). cbv iota.
    change (Ascii.eqb "/" PathModel.slash) with true. cbn [andb].
    assert (X : has_prefix (host ++ port ++ path) [PathModel.slash] = false).
    { destruct host as [|c host]; [contradiction|]. specialize (H c (or_introl eq_refl)). cbn [app has_prefix]. destruct (Ascii.eqb c PathModel.slash) eqn:E; [|reflexivity].
      apply Ascii.eqb_eq in E. subst c. discriminate H. }
    rewrite X. cbn [negb].
    assert (C : forall c, In c (host ++ port) -> has_char c (lit "/?#") = false /\ c <> "@"%char).
    { intros c I. apply in_app_or in I as [I|I].
      - apply H in I. revert I. clear. destruct c as [[] [] [] [] [] [] [] []]; vm_compute; intro H; try discriminate H; split; discriminate || reflexivity.
      - destruct P as [->|(d & -> & D)]; [destruct I|]. destruct I as [<-|I]; [split; [reflexivity|discriminate]|]. apply D in I. revert I. clear.
        destruct c as [[] [] [] [] [] [] [] []]; vm_compute; intro H; try discriminate H; split; discriminate || reflexivity. }
    assert (N : RefreshModel.until (lit "/?#") ((host ++ port) ++ path) = host ++ port).
    { revert C. generalize (host ++ port). intros l C. induction l as [|c l IH]; cbn [app].
      - destruct Q as [->|(p & ->)]; reflexivity.
      - cbn [RefreshModel.until]. rewrite (proj1 (C c (or_introl eq_refl))). f_equal. apply IH. intros x I. apply C. now right. }
    rewrite app_assoc. rewrite N.
    revert C. generalize (host ++ port). clear. intros l C. assert (G : has_char "@" l = false) by (apply has_char_false; intro I; apply C in I as [_ I]; congruence).
    destruct l as [|c l]; [reflexivity|]. cbn [RefreshModel.after_at]. assert (G2 : has_char "@" l = false) by (apply has_char_false; intro I; assert (J : In "@"%char (c :: l)) by (now right); apply C in J as [_ J]; congruence).
    rewrite G2. destruct (Ascii.eqb c "@") eqn:E; [|reflexivity]. apply Ascii.eqb_eq in E. destruct (C c (or_introl eq_refl)) as [_ X]. contradiction. }
  rewrite U. f_equal. unfold HttpModel.host_from_req, HttpModel.split_host_port.
  assert (HC : forall x, has_char x (lit ":/?#@[]") = true -> ~ In x host) by (intros x X I; rewrite (H x I) in X; discriminate).
  assert (NC : forall s, ~ In ":"%char s -> HttpModel.cut_last HttpModel.colon s = None).
  { clear. induction s as [|c s IH]; intro N; [reflexivity|]. cbn [HttpModel.cut_last]. rewrite IH by (intro I; apply N; now right).
    destruct (Ascii.eqb c HttpModel.colon) eqn:E; [|reflexivity]. apply Ascii.eqb_eq in E. subst c. exfalso. apply N. now left. }
  destruct P as [->|(d & -> & D)].
  - rewrite app_nil_r. rewrite NC by (apply HC; reflexivity). reflexivity.
  - assert (Dc : ~ In ":"%char d) by (intro I; apply D in I; discriminate).
    assert (CL : HttpModel.cut_last HttpModel.colon (host ++ ":"%char :: d) = Some (host, d)).
    { clear -NC Dc. induction host as [|c host IH]; cbn [app HttpModel.cut_last]; [rewrite NC by exact Dc; reflexivity|]. rewrite IH. reflexivity. }
    rewrite CL. destruct host as [|c host]; [contradiction|]. cbn [app].
    assert (F : forall x, has_char x (lit "[]") = true -> has_char x ((c :: host) ++ ":"%char :: d) = false).
    { intros x X. apply has_char_false. intro I. apply in_app_or in I as [I|[I|I]].
      - revert I. apply HC. revert X. clear. destruct x as [[] [] [] [] [] [] [] []]; vm_compute; intro H; try discriminate H; reflexivity.
      - subst x. discriminate X.
      - apply D in I. revert X I. clear. destruct x as [[] [] [] [] [] [] [] []]; vm_compute; intros A B; try discriminate A; discriminate B. }
    change (c :: host ++ ":"%char :: d) with ((c :: host) ++ ":"%char :: d). rewrite !F by reflexivity.
    destruct (Ascii.eqb c "[") eqn:E; [apply Ascii.eqb_eq in E; subst c; exfalso; apply (HC "["%char); [reflexivity|now left]|].
    assert (G : has_char HttpModel.colon (c :: host) = false) by (apply has_char_false; apply HC; reflexivity). rewrite G. reflexivity.
Qed.
