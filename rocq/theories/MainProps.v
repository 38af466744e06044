(** C106: starting and stopping the command. *)
From Verif Require Import Base MainModel MainSpec MainProofs.
From Verif Require LogModel HttpModel PathModel.
Open Scope nat_scope.

Lemma parse_proper w l rest : Forall (proper (w_dur w)) l -> rest = [] \/ (exists a r, rest = a :: r /\ (no_flag a \/ a = lit "--")) ->
  exists s r, parse (w_dur w) (line l ++ rest) (defaults w) = Parsed s r /\ all_set (w_dur w) l (defaults w) s.
Proof.
  intros P R. destruct (parse_line (w_dur w) l rest (defaults w) P) as (s & A & ->).
  destruct R as [->|(a & r & -> & N)]; [exists s, []; auto|]. destruct (parse_stop (w_dur w) s a r N) as (r' & ->). eauto.
Qed.

(** C106, first part.  Each flag counts, in each of the ways it may be written, and the last one of
    a name; what is not given has its default. *)
Theorem C106_flags : forall w l rest,
  Forall (proper (w_dur w)) l -> rest = [] \/ (exists a r, rest = a :: r /\ (no_flag a \/ a = lit "--")) ->
  exists s r, parse (w_dur w) (line l ++ rest) (defaults w) = Parsed s r /\
    f_config s = ask_config l /\ f_version s = ask_version l /\ f_revoke s = ask_revoke l /\ f_pass s = ask_pass w l /\
    Some (f_grace s) = grace_of (w_dur w) l /\ f_test s = ask_test l /\ f_stdout s = ask_stdout l /\ f_quiet s = ask_quiet w l.
Proof.
  intros w l rest P R. destruct (parse_proper w l rest P R) as (s & r & E & A). exists s, r. split; [exact E|]. exact A.
Qed.
Print Assumptions C106_flags.

Ltac line_of w l P := destruct (parse_proper w l [] P (or_introl eq_refl)) as (s & r & E & A1 & A2 & A3 & A4 & _ & A6 & A7 & A8);
  rewrite app_nil_r in E; cbn [defaults f_config f_version f_revoke f_pass f_test f_stdout f_quiet] in A1, A2, A3, A4, A6, A7, A8;
  fold (ask_config l) in A1; fold (ask_version l) in A2; fold (ask_revoke l) in A3; fold (ask_pass w l) in A4; fold (ask_test l) in A6; fold (ask_stdout l) in A7; fold (ask_quiet w l) in A8.

(** C106, second part.  The command serves exactly if it has what it needs: a configuration that
    can be read, and the passphrase and the consent to the terms, or the certificates for tests; and
    if certificates were not to be revoked. *)
Theorem C106_serves : forall w l, Forall (proper (w_dur w)) l ->
  snd (main w (line l)) = Serve <->
  ask_version l = false /\ ask_config l <> [] /\ w_start w = None /\
  exists tos, w_read w (ask_config l) = inl tos /\
    if ask_test l then w_new_test w (ask_config l) = None
    else ask_pass w l <> [] /\ tos = true /\ w_new w (ask_config l) (ask_pass w l) = None /\ ask_revoke l = [].
Proof.
  intros w l P. line_of w l P. unfold main. rewrite E. cbv beta zeta. rewrite A2, A1.
  destruct (ask_version l) eqn:V; [cbn [snd]; split; [discriminate|intros [H _]; discriminate]|].
  destruct (str_eqb (ask_config l) []) eqn:C; [apply str_eqb_spec in C; cbn [snd]; split; [discriminate|intros (_ & H & _); contradiction]|].
  assert (C' : ask_config l <> []) by (intro H; rewrite H in C; discriminate).
  cbn [after snd]. destruct (w_read w (ask_config l)) as [tos|e]; [|cbn [snd]; split; [discriminate|intros (_ & _ & _ & t & H & _); discriminate]].
  rewrite A6. destruct (ask_test l) eqn:T.
  - cbn [after snd]. destruct (w_new_test w (ask_config l)) as [e|]; [cbn [snd]; split; [discriminate|intros (_ & _ & _ & t & _ & H); discriminate]|].
    unfold begin. rewrite A6, ?T. cbn [negb andb]. destruct (w_start w); cbn [snd]; [split; [discriminate|intros (_ & _ & H & _); discriminate]|].
    split; [intros _; repeat split; auto; exists tos; auto|reflexivity].
  - rewrite A4. destruct (str_eqb (ask_pass w l) []) eqn:Pw.
    { apply str_eqb_spec in Pw. cbn [snd]. split; [discriminate|]. intros (_ & _ & _ & t & _ & H & _). contradiction. }
    assert (Pw' : ask_pass w l <> []) by (intro H; rewrite H in Pw; discriminate).
    destruct tos; cbn [negb snd]; [|split; [discriminate|intros (_ & _ & _ & t & H & _ & H2 & _); congruence]].
    cbn [after snd]. destruct (w_new w (ask_config l) (ask_pass w l)) as [e|]; [cbn [snd]; split; [discriminate|intros (_ & _ & _ & t & _ & _ & _ & H & _); discriminate]|].
    unfold begin. rewrite A6, ?T, A3. cbn [negb andb]. destruct (str_eqb (ask_revoke l) []) eqn:Rv; cbn [negb].
    + apply str_eqb_spec in Rv. destruct (w_start w); cbn [snd]; [split; [discriminate|intros (_ & _ & H & _); discriminate]|].
      split; [intros _; repeat split; auto; exists true; auto|reflexivity].
    + assert (Rv' : ask_revoke l <> []) by (intro H; rewrite H in Rv; discriminate).
      destruct (w_revoke w _); cbn [snd]; (split; [discriminate|intros (_ & _ & _ & t & _ & _ & _ & _ & H); contradiction]).
Qed.
Print Assumptions C106_serves.

(** The ways through main. *)
Inductive way (w : world) (l : list written) : list action * outcome -> Prop :=
| way_version : ask_version l = true -> way w l ([Write true (w_version w)], Exit 0)
| way_no_config : ask_version l = false -> ask_config l = [] -> way w l ([Write (ask_stdout l) (lit "--config must be set")], Exit 1)
| way_unreadable e : ask_version l = false -> w_read w (ask_config l) = inr e -> way w l ([Write (ask_stdout l) (lit "INF tlsproxy " ++ w_version w); Write (ask_stdout l) (lit "ERR " ++ e)], Exit 1)
| way_refused why : ask_version l = false -> ask_test l = false -> why <> [] -> way w l ([Write (ask_stdout l) (lit "INF tlsproxy " ++ w_version w); Write (ask_stdout l) why], Exit 1)
| way_made pre : ask_version l = false -> (ask_test l = true /\ pre = [Write (ask_stdout l) (lit "WRN Using ephemeral certificate manager"); NewTest (ask_config l)] \/
      ask_test l = false /\ pre = [New (ask_config l) (ask_pass w l)] /\ ask_pass w l <> [] /\ w_read w (ask_config l) = inl true) ->
    forall rest, (exists e, rest = ([Write (ask_stdout l) (lit "FATAL " ++ e)], Exit 1)) \/
      ((if ask_test l then w_new_test w (ask_config l) else w_new w (ask_config l) (ask_pass w l)) = None /\
       ((ask_test l = false /\ ask_revoke l <> [] /\
          ((exists e, w_revoke w (ask_revoke l) = Some e /\ rest = ([Revoke (ask_revoke l); Write (ask_stdout l) (lit "ERR RevokeAllCertificates: " ++ e)], Exit 1)) \/
           (w_revoke w (ask_revoke l) = None /\ rest = ([Revoke (ask_revoke l)], Exit 0)))) \/
        ((ask_test l = true \/ ask_revoke l = []) /\
          ((exists e, w_start w = Some e /\ rest = ([Start; Write (ask_stdout l) e], Exit 1)) \/
           (w_start w = None /\ rest = (Start :: (if ask_quiet w l then [Mute] else []), Serve)))))) ->
    way w l (Write (ask_stdout l) (lit "INF tlsproxy " ++ w_version w) :: pre ++ fst rest, snd rest).

Lemma begin_way w l s : f_test s = ask_test l -> f_revoke s = ask_revoke l -> f_quiet s = ask_quiet w l ->
  (ask_test l = false /\ ask_revoke l <> [] /\
    ((exists e, w_revoke w (ask_revoke l) = Some e /\ begin w s (Write (ask_stdout l)) = ([Revoke (ask_revoke l); Write (ask_stdout l) (lit "ERR RevokeAllCertificates: " ++ e)], Exit 1)) \/
     (w_revoke w (ask_revoke l) = None /\ begin w s (Write (ask_stdout l)) = ([Revoke (ask_revoke l)], Exit 0)))) \/
  ((ask_test l = true \/ ask_revoke l = []) /\
    ((exists e, w_start w = Some e /\ begin w s (Write (ask_stdout l)) = ([Start; Write (ask_stdout l) e], Exit 1)) \/
     (w_start w = None /\ begin w s (Write (ask_stdout l)) = (Start :: (if ask_quiet w l then [Mute] else []), Serve)))).
Proof.
  intros T R Q. unfold begin. rewrite T, R, Q. destruct (ask_test l); cbn [negb andb].
  - right. split; [auto|]. destruct (w_start w); [left; eauto|right; auto].
  - destruct (str_eqb (ask_revoke l) []) eqn:E; cbn [negb].
    + apply str_eqb_spec in E. right. split; [auto|]. destruct (w_start w); [left; eauto|right; auto].
    + left. split; [reflexivity|]. split; [intro H; rewrite H in E; discriminate|]. destruct (w_revoke w _); [left; eauto|right; auto].
Qed.
Lemma main_way w l : Forall (proper (w_dur w)) l -> way w l (main w (line l)).
Proof.
  intro P. line_of w l P. unfold main. rewrite E. cbv beta zeta. rewrite A2, A1, A4, A6, A7.
  destruct (ask_version l) eqn:V; [now constructor|]. destruct (str_eqb (ask_config l) []) eqn:C; [apply str_eqb_spec in C; now constructor|].
  destruct (w_read w (ask_config l)) as [tos|e] eqn:Rd; [|unfold after; cbn [fst snd app]; now apply way_unreadable].
  pose proof (begin_way w l s A6 A3 A8) as B.
  destruct (ask_test l) eqn:T.
  - unfold after. cbn [fst snd app]. apply (way_made w l [Write (ask_stdout l) (lit "WRN Using ephemeral certificate manager"); NewTest (ask_config l)] V (or_introl (conj T eq_refl))).
    destruct (w_new_test w (ask_config l)) as [e|] eqn:N; [left; eauto|]. right. rewrite T, ?N. split; [reflexivity|]. exact B.
  - destruct (str_eqb (ask_pass w l) []) eqn:Pw; [unfold after; cbn [fst snd app]; now apply way_refused|].
    destruct tos; cbn [negb]; [|unfold after; cbn [fst snd app]; now apply way_refused].
    unfold after. cbn [fst snd app]. assert (Pw' : ask_pass w l <> []) by (intro H; rewrite H in Pw; discriminate).
    apply (way_made w l [New (ask_config l) (ask_pass w l)] V (or_intror (conj T (conj eq_refl (conj Pw' Rd))))).
    destruct (w_new w (ask_config l) (ask_pass w l)) as [e|] eqn:N; [left; eauto|]. right. rewrite T, ?N. split; [reflexivity|]. exact B.
Qed.

(** C106, third part.  What is done on the way: the proxy is made from the file and with the
    passphrase that were named; certificates are revoked only if that was asked for, for the reason
    that was given; logging ends only when the command serves and was told to be quiet, and nothing
    comes after. *)
Theorem C106_actions : forall w l, Forall (proper (w_dur w)) l ->
  let t := fst (main w (line l)) in
  (forall c p, List.In (New c p) t -> c = ask_config l /\ p = ask_pass w l /\ p <> [] /\ ask_test l = false /\ w_read w c = inl true) /\
  (forall c, List.In (NewTest c) t -> c = ask_config l /\ ask_test l = true) /\
  (forall x, List.In (Revoke x) t -> x = ask_revoke l /\ x <> [] /\ ~ List.In Start t) /\
  (List.In Start t -> List.In (New (ask_config l) (ask_pass w l)) t /\ w_new w (ask_config l) (ask_pass w l) = None \/
                      List.In (NewTest (ask_config l)) t /\ w_new_test w (ask_config l) = None) /\
  (List.In Mute t <-> snd (main w (line l)) = Serve /\ ask_quiet w l = true) /\
  (forall a b, t = a ++ Mute :: b -> b = []).
Proof.
  intros w l P. pose proof (main_way w l P) as W. destruct (main w (line l)) as [t o]. cbn [fst snd]. cbv zeta.
  assert (L : forall (a b t1 : list action) x, ~ List.In Mute t1 -> t1 ++ [x] = a ++ Mute :: b -> b = []).
  { intros a b t1 x N H. revert a H. induction t1 as [|y t1 IH]; intros [|z a] H; cbn [app] in H; injection H as H1 H2; try congruence.
    - destruct a; discriminate H2.
    - exfalso. apply N. left. exact H1.
    - apply (IH ltac:(intro X; apply N; now right) a H2). }
  assert (NM : forall (a b t1 : list action), ~ List.In Mute t1 -> t1 = a ++ Mute :: b -> b = []).
  { intros a b t1 N ->. exfalso. apply N. apply in_or_app. right. now left. }
  Local Ltac fin := repeat match goal with
    | H : List.In _ (_ :: _) |- _ => destruct H as [H|H]; [try discriminate H|]
    | H : List.In _ [] |- _ => destruct H
    | H : List.In _ (_ ++ _) |- _ => apply in_app_or in H as [H|H]
    end.
  Local Ltac sure L NM := split; [intros c p H; fin|split; [intros c H; fin|split; [intros x H; fin|split; [intro H; fin|split; [split; [intro H; fin|intros [H _]; discriminate H]|intros a b; apply NM; intro H; fin]]]]].
  inversion W as [V|V C|e V C|why V C X|pre V Pr rest R]; subst; clear W.
  - sure L NM.
  - sure L NM.
  - sure L NM.
  - sure L NM.
  - destruct Pr as [[T ->]|(T & -> & Pw & Rd)]; rewrite T in R; cbn [app];
    (destruct R as [(e & ->)|(N & [(TF & Rv & [(e & Re & ->)|(Re & ->)])|(_ & [(e & Re & ->)|(Re & ->)])])]; cbn [fst snd app]).
    all: assert (Q : ask_quiet w l = true \/ ask_quiet w l = false) by (destruct (ask_quiet w l); auto).
    + sure L NM. injection H as <-. auto.
    + discriminate TF.
    + discriminate TF.
    + sure L NM; try (injection H as <-; auto). right. split; [right; right; now left|exact N].
    + split; [intros c p H|split; [intros c H|split; [intros x H|split; [intro H|split; [split; [intro H|intros [_ H]]|intros a b H]]]]].
      * destruct (ask_quiet w l); fin.
      * destruct (ask_quiet w l); fin; injection H as <-; auto.
      * destruct (ask_quiet w l); fin.
      * right. split; [|exact N]. right. right. now left.
      * split; [reflexivity|]. destruct (ask_quiet w l); [reflexivity|fin].
      * rewrite H. right. right. right. right. now left.
      * destruct (ask_quiet w l); [|refine (NM a b _ _ H); intro X; fin].
        apply (L a b [Write (ask_stdout l) (lit "INF tlsproxy " ++ w_version w); Write (ask_stdout l) (lit "WRN Using ephemeral certificate manager"); NewTest (ask_config l); Start] Mute); [intro X; fin|exact H].
    + sure L NM. injection H as <- <-. auto 10.
    + sure L NM; try (injection H as <- <-; auto 10). injection H as <-. split; [reflexivity|]. split; [exact Rv|]. intro H; fin.
    + sure L NM; try (injection H as <- <-; auto 10). injection H as <-. split; [reflexivity|]. split; [exact Rv|]. intro H; fin.
    + sure L NM; try (injection H as <- <-; auto 10). left. split; [|exact N]. right. now left.
    + split; [intros c p H|split; [intros c H|split; [intros x H|split; [intro H|split; [split; [intro H|intros [_ H]]|intros a b H]]]]].
      * destruct (ask_quiet w l); fin; injection H as <- <-; auto 10.
      * destruct (ask_quiet w l); fin.
      * destruct (ask_quiet w l); fin.
      * left. split; [|exact N]. right. now left.
      * split; [reflexivity|]. destruct (ask_quiet w l); [reflexivity|fin].
      * rewrite H. right. right. right. now left.
      * destruct (ask_quiet w l); [|refine (NM a b _ _ H); intro X; fin].
        apply (L a b [Write (ask_stdout l) (lit "INF tlsproxy " ++ w_version w); New (ask_config l) (ask_pass w l); Start] Mute); [intro X; fin|exact H].
Qed.
Print Assumptions C106_actions.

(** C106, fourth part.  For all arguments: status 0 means that the version or the usage was shown or
    that the certificates were revoked; in each other case the last thing done is to say why. *)
Theorem C106_codes : forall w args code, snd (main w args) = Exit code ->
  let t := fst (main w args) in
  ~ List.In Mute t /\
  ((code = 0%N /\ (t = [Write true (w_version w)] \/ t = [Write false (usage w)] \/ exists t' r, t = t' ++ [Revoke r] /\ w_revoke w r = None)) \/
   (code = 1%N /\ exists t' o why, t = t' ++ [Write o why]) \/
   (code = 2%N /\ exists why, t = [Write false why; Write false (usage w)])).
Proof.
  intros w args code H. cbv zeta. revert H. unfold main. destruct (parse (w_dur w) args (defaults w)) as [s r| |msg].
  2: { cbn [fst snd]. intro H. injection H as <-. split; [intro X; fin|]. left. auto. }
  2: { cbn [fst snd]. intro H. injection H as <-. split; [intro X; fin|]. right. right. eauto. }
  cbv zeta. destruct (f_version s); [cbn [fst snd]; intro H; injection H as <-; split; [intro X; fin|]; left; auto|].
  destruct (str_eqb (f_config s) []); [cbn [fst snd]; intro H; injection H as <-; split; [intro X; fin|]; right; left; split; [reflexivity|]; exists [], (f_stdout s); eexists; reflexivity|].
  assert (B : forall pre, ~ List.In Mute pre -> snd (begin w s (Write (f_stdout s))) = Exit code ->
    forall t, t = pre ++ fst (begin w s (Write (f_stdout s))) -> ~ List.In Mute t /\
    ((code = 0%N /\ exists t' r, t = t' ++ [Revoke r] /\ w_revoke w r = None) \/ (code = 1%N /\ exists t' o why, t = t' ++ [Write o why]))).
  { intros pre NP H t ->. revert H. unfold begin. destruct (negb (f_test s) && _).
    - destruct (w_revoke w (f_revoke s)) as [e|] eqn:Rv; cbn [fst snd]; intro H; injection H as <-; (split; [intro X; apply in_app_or in X as [X|X]; [exact (NP X)|fin]|]).
      + right. split; [reflexivity|]. exists (pre ++ [Revoke (f_revoke s)]), (f_stdout s). eexists. rewrite <- app_assoc. reflexivity.
      + left. split; [reflexivity|]. exists pre. eauto.
    - destruct (w_start w) as [e|]; cbn [fst snd]; intro H; [|discriminate]. injection H as <-. split; [intro X; apply in_app_or in X as [X|X]; [exact (NP X)|fin]|].
      right. split; [reflexivity|]. exists (pre ++ [Start]), (f_stdout s). eexists. rewrite <- app_assoc. reflexivity. }
  assert (W : forall pre why, ~ List.In Mute pre -> Exit 1 = Exit code -> ~ List.In Mute (pre ++ [Write (f_stdout s) why]) /\
     ((code = 0%N /\ exists t' r, pre ++ [Write (f_stdout s) why] = t' ++ [Revoke r] /\ w_revoke w r = None) \/ (code = 1%N /\ exists t' o y, pre ++ [Write (f_stdout s) why] = t' ++ [Write o y]))).
  { intros pre why NP H. injection H as <-. split; [intro X; apply in_app_or in X as [X|X]; [exact (NP X)|fin]|]. right. split; [reflexivity|]. exists pre, (f_stdout s), why. reflexivity. }
  cbv zeta. intro H.
  match type of H with snd ?r = _ => cut (~ List.In Mute (fst r) /\ ((code = 0%N /\ exists t' r1, fst r = t' ++ [Revoke r1] /\ w_revoke w r1 = None) \/ (code = 1%N /\ exists t' o why, fst r = t' ++ [Write o why]))) end.
  { intros [N [[A X]|X]]; (split; [exact N|]); [left; auto|right; left; exact X]. }
  unfold after in *. cbn [fst snd] in *. destruct (w_read w (f_config s)) as [tos|e].
  2: { refine (W [_] _ _ H); intro X; fin. }
  destruct (f_test s).
  - cbn [fst snd] in *. destruct (w_new_test w (f_config s)).
    + refine (W [_; _; _] _ _ H); intro X; fin.
    + refine (B [_; _; _] _ H _ eq_refl); intro X; fin.
  - destruct (str_eqb (f_pass s) []); [refine (W [_] _ _ H); intro X; fin|]. destruct tos; cbn [negb] in *; [|refine (W [_] _ _ H); intro X; fin].
    cbn [fst snd] in *. destruct (w_new w (f_config s) (f_pass s)).
    + refine (W [_; _] _ _ H); intro X; fin.
    + refine (B [_; _] _ H _ eq_refl); intro X; fin.
Qed.
Print Assumptions C106_codes.

(** C106: where the lines go: the version to the standard output; all others there if that was asked
    for, and else to the standard error. *)
Theorem C106_where : forall w l o s, Forall (proper (w_dur w)) l -> List.In (o, s) (written_lines (fst (main w (line l)))) ->
  if ask_version l then o = true /\ s = w_version w else o = ask_stdout l.
Proof.
  intros w l o s P I. pose proof (main_way w l P) as W. destruct (main w (line l)) as [t q]. cbn [fst] in I.
  inversion W as [V|V C|e V C|why V C X|pre V Pr rest R]; subst; clear W; rewrite V.
  - destruct I as [I|[]]. injection I as <- <-. auto.
  - destruct I as [I|[]]. injection I as <- _. reflexivity.
  - destruct I as [I|[I|[]]]; injection I as <- _; reflexivity.
  - destruct I as [I|[I|[]]]; injection I as <- _; reflexivity.
  - destruct Pr as [[T ->]|(T & -> & Pw & Rd)]; rewrite T in R;
    (destruct R as [(e & ->)|(N & [(TF & Rv & [(e & Re & ->)|(Re & ->)])|(_ & [(e & Re & ->)|(Re & ->)])])]; try discriminate TF);
    cbn [fst snd app] in I; try (destruct (ask_quiet w l)); cbn [written_lines flat_map app] in I; fin;
    repeat match goal with H : List.In _ _ |- _ => destruct H as [H|H]; [|] | H : False |- _ => destruct H end; injection I as <- _; reflexivity.
Qed.
Print Assumptions C106_where.

(** C106, fifth part, proved in part: a line that asks to revoke the certificates, and not for the
    certificates for tests, never starts the proxy, and ends with status 0 exactly if they were
    revoked.  Missing: the same with the certificates for tests, see the next theorem. *)
Theorem C106_revoke_partial : forall w l, Forall (proper (w_dur w)) l ->
  ask_revoke l <> [] -> ask_version l = false -> ask_test l = false ->
  let t := fst (main w (line l)) in
  snd (main w (line l)) <> Serve /\ ~ List.In Start t /\
  (snd (main w (line l)) = Exit 0 <-> List.In (Revoke (ask_revoke l)) t /\ w_revoke w (ask_revoke l) = None).
Proof.
  intros w l P R V T. pose proof (main_way w l P) as W. destruct (main w (line l)) as [t o]. cbn [fst snd]. cbv zeta.
  inversion W as [V'|V' C|e V' C|why V' C X|pre V' Pr rest R']; subst; clear W; try congruence.
  - split; [discriminate|]. split; [intro I; fin|]. split; [discriminate|intros [I _]; fin].
  - split; [discriminate|]. split; [intro I; fin|]. split; [discriminate|intros [I _]; fin].
  - split; [discriminate|]. split; [intro I; fin|]. split; [discriminate|intros [I _]; fin].
  - destruct Pr as [[T' _]|(_ & -> & Pw & Rd)]; [congruence|]. rewrite T in R'.
    destruct R' as [(e & ->)|(N & [(TF & Rv & [(e & Re & ->)|(Re & ->)])|([TF|TF] & _)])]; try congruence; cbn [fst snd app].
    + split; [discriminate|]. split; [intro I; fin|]. split; [discriminate|intros [I _]; fin].
    + split; [discriminate|]. split; [intro I; fin|]. split; [discriminate|intros [_ I]; congruence].
    + split; [discriminate|]. split; [intro I; fin|]. split; [|reflexivity]. intros _. split; [right; right; now left|exact Re].
Qed.
Print Assumptions C106_revoke_partial.

(** C106: with the certificates for tests, certificates are never revoked, and the command
    serves as if that had not been asked for. *)
Theorem C106_revoke_refuted :
  (forall w l, Forall (proper (w_dur w)) l -> ask_test l = true -> forall r, ~ List.In (Revoke r) (fst (main w (line l)))) /\
  (forall w l, Forall (proper (w_dur w)) l -> ask_test l = true -> ask_revoke l <> [] -> ask_version l = false -> ask_config l <> [] ->
     (exists tos, w_read w (ask_config l) = inl tos) -> w_new_test w (ask_config l) = None -> w_start w = None -> snd (main w (line l)) = Serve).
Proof.
  split.
  - intros w l P T r I. pose proof (main_way w l P) as W. destruct (main w (line l)) as [t o]. cbn [fst] in I.
    inversion W as [V|V C|e V C|why V C X|pre V Pr rest R]; subst; clear W; try (fin; fail).
    destruct Pr as [[_ ->]|(TF & _)]; [|congruence]. rewrite T in R. cbn [app] in I.
    destruct R as [(e & ->)|(N & [(TF & _)|(_ & [(e & Re & ->)|(Re & ->)])])]; try discriminate TF; cbn [fst snd app] in I; fin.
    destruct (ask_quiet w l); fin.
  - intros w l P T R V C (tos & Rd) N S. apply (C106_serves w l P). repeat split; auto. exists tos. rewrite T. auto.
Qed.
Print Assumptions C106_revoke_refuted.

(** C106, sixth part, refuted: that a mistake in the line is reported.  All that comes after an
    argument that is no flag is ignored without a word. *)
Theorem C106_arguments_refuted : forall w l a rest, Forall (proper (w_dur w)) l -> no_flag a ->
  main w (line l ++ a :: rest) = main w (line l).
Proof.
  intros w l a rest P N. unfold main. destruct (parse_line (w_dur w) l (a :: rest) (defaults w) P) as (s & A & E1).
  rewrite E1. clear E1. destruct (parse_stop (w_dur w) s a rest (or_introl N)) as (r & ->).
  pose proof (parse_line (w_dur w) l [] (defaults w) P) as (s' & A' & E2).
  assert (s' = s) as ->; [exact (all_set_same _ _ _ _ _ A' A)|rewrite app_nil_r in E2; rewrite E2; reflexivity].
Qed.
Print Assumptions C106_arguments_refuted.

(** C106: so a switch followed by its value is on, and what follows is dropped: [-quiet false]
    turns logging off, and a passphrase or a configuration after it is not seen. *)
Theorem C106_switch_refuted : forall w l d n v rest, Forall (proper (w_dur w)) l -> List.In n switches -> no_flag v ->
  main w (line (l ++ [Apart d n v]) ++ rest) = main w (line (l ++ [Alone d n])).
Proof.
  intros w l d n v rest P I N.
  assert (P' : Forall (proper (w_dur w)) (l ++ [Alone d n])) by (apply Forall_app; split; [exact P|constructor; [exact I|constructor]]).
  rewrite <- (C106_arguments_refuted w (l ++ [Alone d n]) v rest P' N). unfold line. rewrite !flat_map_app. cbn [flat_map texts app].
  rewrite <- !app_assoc. reflexivity.
Qed.
Print Assumptions C106_switch_refuted.

Lemma read_joined d c r v : c <> "-"%char -> ~ List.In "="%char (c :: r) -> read_arg (dash d ++ (c :: r) ++ "="%char :: v) = Flag (c :: r) (Some v).
Proof.
  intros C E. assert (X : Ascii.eqb c "-" = false) by (apply Ascii.eqb_neq; exact C).
  assert (Y : Ascii.eqb c "=" = false) by (apply Ascii.eqb_neq; intro H; apply E; now left).
  assert (Z : forall s, ~ List.In "="%char s -> cut "=" (s ++ "="%char :: v) = (s, v, true)).
  { clear. induction s as [|x s IH]; intro N; [reflexivity|]. cbn [app cut]. destruct (Ascii.eqb x "=") eqn:Q; [apply Ascii.eqb_eq in Q; exfalso; apply N; left; exact Q|].
    rewrite IH by (intro H; apply N; now right). reflexivity. }
  specialize (Z _ E). cbn [app] in Z |- *. destruct d; unfold dash, read_arg.
  - change (lit "--" ++ c :: r ++ "="%char :: v) with ("-"%char :: "-"%char :: c :: r ++ "="%char :: v). cbv beta iota zeta.
    change (Ascii.eqb "-" "-") with true. cbv iota. rewrite X, Y, Z. reflexivity.
  - change (lit "-" ++ c :: r ++ "="%char :: v) with ("-"%char :: c :: r ++ "="%char :: v). cbv beta iota zeta. rewrite X. cbn [andb]. cbv iota. rewrite X, Y, Z. reflexivity.
Qed.
Lemma read_alone d c r : c <> "-"%char -> ~ List.In "="%char (c :: r) -> read_arg (dash d ++ c :: r) = Flag (c :: r) None.
Proof.
  intros C E. assert (X : Ascii.eqb c "-" = false) by (apply Ascii.eqb_neq; exact C).
  assert (Y : Ascii.eqb c "=" = false) by (apply Ascii.eqb_neq; intro H; apply E; now left).
  assert (Z : cut "=" (c :: r) = (c :: r, [], false)) by (destruct (cut_spec "="%char (c :: r)) as [(a & b & H & _)|[_ H]]; [exfalso; apply E; rewrite H; apply in_or_app; right; now left|exact H]).
  destruct d; unfold dash, read_arg.
  - change (lit "--" ++ c :: r) with ("-"%char :: "-"%char :: c :: r). cbv beta iota zeta.
    change (Ascii.eqb "-" "-") with true. cbv iota. rewrite X, Y, Z. reflexivity.
  - change (lit "-" ++ c :: r) with ("-"%char :: c :: r). cbv beta iota zeta. rewrite X. cbn [andb]. cbv iota. rewrite X, Y, Z. reflexivity.
Qed.
Lemma no_kind n : ~ List.In n (text_flags ++ switches ++ [grace_flag]) -> assoc n flag_kinds = None.
Proof.
  intro U. apply assoc_None. intro H. apply U. revert H. clear. intro H. cbn [flag_kinds map fst] in H.
  repeat (destruct H as [H|H]; [subst n; cbn; tauto|]). destruct H.
Qed.

Lemma read_unknown a : unknown_flag a -> exists n, read_arg a = Flag n None /\ assoc n flag_kinds = None.
Proof. intros (d & c & r & -> & C & E & U). exists (c :: r). split; [now apply read_alone|now apply no_kind]. Qed.

(** C106, sixth part, proved in part: a mistake in a flag is reported, with the usage and status 2,
    and nothing is done, whatever comes before and after.  Missing: arguments that are no flags. *)
Theorem C106_mistakes_partial : forall w l a rest, Forall (proper (w_dur w)) l -> mistaken (w_dur w) a rest ->
  exists why, main w (line l ++ a :: rest) = ([Write false why; Write false (usage w)], Exit 2).
Proof.
  intros w l a rest P M. unfold main. destruct (parse_line (w_dur w) l (a :: rest) (defaults w) P) as (s & _ & ->). clear P.
  cut (exists why, parse (w_dur w) (a :: rest) s = Bad why); [intros (why & ->); eauto|]. destruct M as [d c r rest H|d c r tail rest C E T U|d n v rest I N|d v rest D|d v rest D|d n I]; cbn [parse].
  - assert (read_arg (dash d ++ c :: r) = BadSyntax) as ->; [|eauto]. destruct H as [->|[-> ->]]; [destruct d|]; reflexivity.
  - assert (K : assoc (c :: r) flag_kinds = None) by (apply no_kind; intro H; apply U; rewrite !in_app_iff in *; cbn [List.In] in *; tauto).
    assert (H : mem (c :: r) [lit "help"; lit "h"] = false) by (apply mem_false; intro H; apply U; rewrite !in_app_iff; cbn [List.In] in *; tauto).
    destruct T as [->|(v & ->)].
    + rewrite app_nil_r, read_alone by assumption. rewrite K, H. eauto.
    + change (lit "=" ++ v) with ("="%char :: v). rewrite read_joined by assumption. rewrite K, H. eauto.
  - assert (B : parse_bool v = None).
    { unfold parse_bool. rewrite in_app_iff in N. destruct (mem v _) eqn:Q; [apply mem_spec in Q; exfalso; apply N; left; exact Q|]. clear Q.
      destruct (mem v _) eqn:Q; [apply mem_spec in Q; exfalso; apply N; right; exact Q|reflexivity]. }
    change (lit "=" ++ v) with ("="%char :: v).
    destruct I as [<-|[<-|[<-|[<-|[]]]]];
    (match goal with |- context [dash d ++ lit ?x ++ _] => let y := eval cbv in (lit x) in change (lit x) with y end; rewrite read_joined by (first [discriminate|cbn; intuition discriminate]); cbn [assoc flag_kinds];
     match goal with |- context [match set_flag ?a ?b ?c ?e with _ => _ end] => assert (set_flag a b c e = None) as -> by (unfold set_flag; rewrite B; reflexivity) end; eexists; reflexivity).
  - change (lit "=" ++ v) with ("="%char :: v). let y := eval cbv in grace_flag in change grace_flag with y. rewrite read_joined by (first [discriminate|cbn; intuition discriminate]).
    match goal with |- context [set_flag ?a ?b ?c ?e] => assert (set_flag a b c e = None) as -> by (unfold set_flag; rewrite D; reflexivity) end. eexists; reflexivity.
  - let y := eval cbv in grace_flag in change grace_flag with y. rewrite read_alone by (first [discriminate|cbn; intuition discriminate]).
    match goal with |- context [set_flag ?a ?b ?c ?e] => assert (set_flag a b c e = None) as -> by (unfold set_flag; rewrite D; reflexivity) end. eexists; reflexivity.
  - destruct I as [<-|[<-|[<-|[<-|[]]]]]; (destruct d; eexists; reflexivity).
Qed.
Print Assumptions C106_mistakes_partial.
Example mistakes : mistaken (w_dur {| w_pass := []; w_quiet := []; w_dur := fun _ => None; w_wide := fun s => s; w_version := []; w_read := fun _ => inl true; w_new := fun _ _ => None; w_new_test := fun _ => None; w_revoke := fun _ => None; w_start := None |}) (lit "--quiet=maybe") [lit "x"] /\
  mistaken (fun _ => None) (lit "---v") [] /\ mistaken (fun _ => None) (lit "-=x") [] /\ mistaken (fun _ => None) (lit "--passphrase") [] /\ mistaken (fun _ => None) (lit "-confg=x") [] /\
  mistaken (fun _ => None) (lit "-shutdown-grace-period") [lit "10"].
Proof.
  split; [apply (m_switch _ true (lit "quiet") (lit "maybe")); cbn; intuition discriminate|].
  split; [apply (m_dashes _ true "-" (lit "v")); auto|]. split; [apply (m_dashes _ false "=" (lit "x")); auto|].
  split; [apply (m_missing _ true (lit "passphrase")); cbn; auto|].
  split; [apply (m_unknown _ false "c" (lit "onfg") (lit "=x")); [discriminate|cbn; intuition discriminate|right; exists (lit "x"); reflexivity|cbn; intuition discriminate]|].
  apply (m_grace_apart _ false (lit "10")). reflexivity.
Qed.
Lemma quote_plain wide s : plain_text s -> LogModel.quote_body wide [] s = s.
Proof.
  induction s as [|c s IH]; intro P; [reflexivity|]. cbn [LogModel.quote_body].
  destruct (P c (or_introl eq_refl)) as (A & B & Q1 & Q2).
  assert (H : LogModel.high c = false) by (unfold LogModel.high; apply N.ltb_ge; lia). rewrite H.
  rewrite IH by (intros x X; apply P; now right). unfold LogModel.quote_char.
  assert (Q1' : Ascii.eqb c HttpModel.dquote = false) by (apply Ascii.eqb_neq; exact Q1).
  assert (Q2' : Ascii.eqb c PathModel.backslash = false) by (apply Ascii.eqb_neq; exact Q2).
  rewrite Q1', Q2'. apply N.leb_le in A. apply N.ltb_lt in B. rewrite A, B. reflexivity.
Qed.

(** C106, seventh part, refuted: that the passphrase is not shown.  A misspelt flag, or -help,
    writes the passphrase of the environment to the standard error: it is the default value of
    a flag. *)
Theorem C106_passphrase_refuted : forall w l a rest, Forall (proper (w_dur w)) l -> unknown_flag a ->
  w_pass w <> [] -> plain_text (w_pass w) ->
  exists s, List.In (false, s) (written_lines (fst (main w (line l ++ a :: rest)))) /\ contains s (w_pass w).
Proof.
  intros w l a rest P U NE PT. exists (usage w). split.
  - unfold main. destruct (parse_line (w_dur w) l (a :: rest) (defaults w) P) as (s & _ & ->). cbn [parse].
    destruct (read_unknown a U) as (n & -> & ->). destruct (mem n _); cbn [fst written_lines flat_map app List.In]; auto.
  - unfold usage, default_text. destruct (str_eqb (w_pass w) []) eqn:E; [apply str_eqb_spec in E; contradiction|].
    unfold LogModel.quoted. rewrite (quote_plain _ _ PT).
    match goal with |- contains (?a ++ (?b ++ (?c :: _ ++ ?e) ++ ?f) ++ ?g) _ => exists (a ++ b ++ [c]), (e ++ f ++ g) end.
    rewrite <- ?app_assoc. cbn [app]. rewrite <- ?app_assoc. reflexivity.
Qed.
Print Assumptions C106_passphrase_refuted.

(** C106, proved in part: for proper lines nothing that is written, nor how the command ends,
    depends on which passphrase it is, if both open the files or both do not, in the same way.
    Missing: lines with mistakes, see the theorem before. *)
Theorem C106_passphrase_partial : forall w p l l', Forall (proper (w_dur w)) l -> Forall (proper (w_dur w)) l' -> same_but_pass w l l' ->
  ask_pass w l <> [] -> ask_pass (with_pass p w) l' <> [] ->
  w_new w (ask_config l) (ask_pass w l) = w_new w (ask_config l) (ask_pass (with_pass p w) l') ->
  written_lines (fst (main w (line l))) = written_lines (fst (main (with_pass p w) (line l'))) /\
  snd (main w (line l)) = snd (main (with_pass p w) (line l')).
Proof.
  intros w p l l' P P' (S1 & S2 & S3 & S4 & S5 & S6) N N' W.
  assert (B : forall w l s, f_test s = ask_test l -> f_revoke s = ask_revoke l -> f_quiet s = ask_quiet w l -> 
    begin w s (Write (ask_stdout l)) = if negb (ask_test l) && negb (str_eqb (ask_revoke l) []) then
      match w_revoke w (ask_revoke l) with Some e => ([Revoke (ask_revoke l); Write (ask_stdout l) (lit "ERR RevokeAllCertificates: " ++ e)], Exit 1) | None => ([Revoke (ask_revoke l)], Exit 0) end
      else match w_start w with Some e => ([Start; Write (ask_stdout l) e], Exit 1) | None => (Start :: (if ask_quiet w l then [Mute] else []), Serve) end).
  { clear. intros w l s A B C. unfold begin. rewrite A, B, C. reflexivity. }
  assert (M : forall w l, Forall (proper (w_dur w)) l -> ask_pass w l <> [] -> exists s, f_test s = ask_test l /\ f_revoke s = ask_revoke l /\ f_quiet s = ask_quiet w l /\
    main w (line l) = if ask_version l then ([Write true (w_version w)], Exit 0) else if str_eqb (ask_config l) [] then ([Write (ask_stdout l) (lit "--config must be set")], Exit 1) else
      after [Write (ask_stdout l) (lit "INF tlsproxy " ++ w_version w)]
       match w_read w (ask_config l) with
       | inr e => ([Write (ask_stdout l) (lit "ERR " ++ e)], Exit 1)
       | inl tos => if ask_test l then after [Write (ask_stdout l) (lit "WRN Using ephemeral certificate manager"); NewTest (ask_config l)]
             match w_new_test w (ask_config l) with Some e => ([Write (ask_stdout l) (lit "FATAL " ++ e)], Exit 1) | None => begin w s (Write (ask_stdout l)) end
          else if negb tos then ([Write (ask_stdout l) (lit "acceptTOS must be set to true in the config file")], Exit 1)
          else after [New (ask_config l) (ask_pass w l)] match w_new w (ask_config l) (ask_pass w l) with Some e => ([Write (ask_stdout l) (lit "FATAL " ++ e)], Exit 1) | None => begin w s (Write (ask_stdout l)) end
       end).
  { clear. intros w l P N. line_of w l P. exists s. repeat (split; [assumption|]). unfold main. rewrite E. cbv beta zeta. rewrite A1, A2, A4, A6, A7.
    destruct (str_eqb (ask_pass w l) []) eqn:Q; [apply str_eqb_spec in Q; contradiction|]. reflexivity. }
  destruct (M w l P N) as (s & A1 & A2 & A3 & ->). destruct (M (with_pass p w) l' P' N') as (s' & A1' & A2' & A3' & ->).
  rewrite (B w l s A1 A2 A3), (B (with_pass p w) l' s' A1' A2' A3').
  change (ask_quiet (with_pass p w) l') with (ask_quiet w l'). cbn [with_pass w_version w_read w_new w_new_test w_revoke w_start]. rewrite <- S1, <- S2, <- S3, <- S4, <- S5, <- S6, <- W.
  destruct (ask_version l); [auto|]. destruct (str_eqb (ask_config l) []); [auto|]. unfold after, written_lines. cbn [fst snd]. rewrite !flat_map_app.
  destruct (w_read w (ask_config l)) as [tos|e]; [|auto]. destruct (ask_test l); [auto|]. destruct tos; cbn [negb]; [|auto]. cbn [fst snd]. rewrite !flat_map_app. auto.
Qed.
Print Assumptions C106_passphrase_partial.

(** C106, eighth part, proved in part: once main waits for signals, no signal ends the process by
    itself: it only ends after Shutdown, or because of a second signal.  Missing: signals before,
    see the next theorem. *)
Theorem C106_graceful_partial : forall l l2 st st2, sig_run sig_init l = Some st -> s_main st = MWait -> sig_run st l2 = Some st2 ->
  forall s, s_proc st2 <> Killed s.
Proof.
  intros l l2 st st2 E M E2 s K. pose proof (sig_reach l st E) as I.
  destruct (late_run l2 _ _ _ _ I ltac:(congruence) ltac:(congruence) E2) as [A B].
  pose proof (sig_inv_run l2 _ _ _ _ I E2) as J. destruct (i_kill _ _ _ J s K); contradiction.
Qed.
Print Assumptions C106_graceful_partial.

(** C106: while the proxy already serves, a signal may end the process at once, without
    Shutdown: nobody has asked for signals before Start has returned. *)
Theorem C106_graceful_refuted : forall s, exists st, sig_run sig_init [Signal s] = Some st /\ s_proc st = Killed s.
Proof. intro s. eexists. split; reflexivity. Qed.
Print Assumptions C106_graceful_refuted.

(** C106, ninth part.  What the status of the process says: 0 only if a signal came and Shutdown
    has returned; 1 only if there were two signals. *)
Theorem C106_status : forall l st c, sig_run sig_init l = Some st -> s_proc st = Exited c ->
  (c = 0%N /\ 1 <= signals l /\ List.In Finished l) \/ (c = 1%N /\ 2 <= signals l).
Proof.
  intros l st c E X. pose proof (i_exit _ _ _ (sig_reach l st E)) as I. rewrite X in I.
  destruct I as [(-> & F & N)|[-> N]]; [left|right; auto]. apply finished_in in F. auto.
Qed.
Print Assumptions C106_status.

(** C106, tenth part.  A process that runs and has nothing to do has had no signal, or waits for
    Shutdown: one that has returned ends the process. *)
Theorem C106_stops : forall l st, sig_run sig_init l = Some st -> at_rest st -> s_proc st = Running ->
  (s_main st = MWait /\ signals l = 0) \/ (s_main st = MDown /\ 1 <= signals l /\ ~ List.In Finished l).
Proof.
  intros l st E R X. pose proof (sig_reach l st E) as I. pose proof (R MainStep ltac:(cbn; auto)) as M. unfold sig_step in M. rewrite X in M.
  destruct (s_main st) eqn:S; try discriminate M.
  - left. split; [reflexivity|]. destruct (s_ch1 st) eqn:C; [discriminate|]. apply (i_none _ _ _ I); auto.
  - right. split; [reflexivity|]. split; [apply (i_got _ _ _ I); auto|]. intro F. apply finished_in in F. apply (i_fin _ _ _ I) in F. congruence.
Qed.
Print Assumptions C106_stops.

(** C106, eleventh part, proved in part: a second signal, once the goroutine listens, ends the
    process, with status 1 if Shutdown has not returned; unless the grace period is over.  Missing:
    the time before, see the next theorem. *)
Theorem C106_second_partial : forall l s l2 st st2, sig_run sig_init l = Some st -> s_go st = GWait -> s_proc st = Running ->
  sig_run st (Signal s :: l2) = Some st2 -> ~ List.In Grace (l ++ l2) -> at_rest st2 ->
  exists c, s_proc st2 = Exited c /\ (~ List.In Finished (l ++ l2) -> c = 1%N).
Proof.
  intros l s l2 st st2 E G X E2 NG R. pose proof (sig_reach l st E) as I. cbn [sig_run] in E2.
  destruct (sig_step st (Signal s)) as [st1|] eqn:S; [|discriminate]. pose proof (sig_inv_step _ _ _ _ _ I S) as I1.
  assert (T : told st1 /\ s_expired st1 = s_expired st).
  { unfold sig_step in S. rewrite X, G in S. assert (second_told GWait s = true) as H by reflexivity. rewrite H, orb_true_r in S. injection S as <-.
    unfold told. cbn [s_go s_ch2 s_expired put]. split; [|reflexivity]. split; [auto|]. destruct (s_ch2 st); discriminate. }
  destruct T as [T TE]. pose proof (told_run l2 _ _ _ _ I1 T E2) as [G2 C2]. pose proof (sig_inv_run l2 _ _ _ _ I1 E2) as I2.
  assert (NE : s_expired st2 = false).
  { destruct (s_expired st2) eqn:EX; [|reflexivity]. exfalso. apply NG. apply in_or_app.
    destruct (expired_in l2 _ _ E2 EX) as [H|H]; [|auto]. rewrite TE in H. destruct (expired_in l _ _ E H) as [H'|H']; [discriminate|auto]. }
  destruct G2 as [G2|G2]; [|apply (i_gone _ _ _ I2) in G2; congruence].
  destruct (s_proc st2) as [|c|k] eqn:Pr.
  - pose proof (R GoSignal ltac:(cbn; auto)) as M. unfold sig_step in M. rewrite Pr, G2 in M. destruct (s_ch2 st2); congruence.
  - exists c. split; [reflexivity|]. intro NF. pose proof (i_exit _ _ _ I2) as IE. rewrite Pr in IE. destruct IE as [(-> & F & _)|[-> _]]; [|reflexivity].
    exfalso. apply orb_true_iff in F as [F|F].
    + apply orb_true_iff in F as [F|F]; [|discriminate]. apply finished_in in F. apply NF. apply in_or_app. auto.
    + apply finished_in in F. apply NF. apply in_or_app. auto.
  - exfalso. destruct (i_kill _ _ _ I2 k Pr) as [H|H]; (pose proof (i_go _ _ _ I2 ltac:(congruence)) as [Y|Y]; congruence).
Qed.
Print Assumptions C106_second_partial.

(** C106: a second signal that comes between the first one and the moment the goroutine listens is
    lost: the process goes on with nothing to do but to wait for Shutdown.  The grace period being
    over makes the goroutine deaf to all later signals. *)
Theorem C106_second_refuted :
  (exists l st, sig_run sig_init l = Some st /\ 2 <= signals l /\ at_rest st /\ s_proc st = Running /\ ~ List.In Grace l) /\
  (forall l st, sig_run sig_init l = Some st -> s_go st = GGone -> s_proc st = Running -> at_rest st ->
     forall ss, exists st2, sig_run st (map Signal ss) = Some st2 /\ s_proc st2 = Running /\ at_rest st2).
Proof.
  split.
  - assert (H : exists st, sig_run sig_init [MainStep; MainStep; Signal TERM; MainStep; Signal TERM; MainStep; GoStep; GoStep] = Some st) by (eexists; vm_compute; reflexivity).
    destruct H as (st & E). exists [MainStep; MainStep; Signal TERM; MainStep; Signal TERM; MainStep; GoStep; GoStep], st.
    vm_compute in E. injection E as <-. split; [reflexivity|]. split; [vm_compute; lia|]. split; [intros e I; cbn in I; destruct I as [<-|[<-|[<-|[<-|[]]]]]; reflexivity|].
    split; [reflexivity|]. intro I. cbn in I. intuition discriminate.
  - intros l st E G X R ss. pose proof (sig_reach l st E) as I.
    assert (D : s_main st = MDown \/ s_main st = MBack) by (apply (i_go _ _ _ I); congruence).
    assert (Q : forall st, s_go st = GGone -> s_proc st = Running -> s_main st = MDown -> exists st2, sig_run st (map Signal ss) = Some st2 /\ s_proc st2 = Running /\ at_rest st2).
    { clear. induction ss as [|s ss IH]; intros st G X D; cbn [map sig_run].
      - exists st. split; [reflexivity|]. split; [exact X|]. intros e I. unfold sig_step. rewrite X, G, D. cbn in I. destruct I as [<-|[<-|[<-|[<-|[]]]]]; reflexivity.
      - unfold sig_step at 1. rewrite X, G, D. cbn [first_told second_told orb]. apply IH; reflexivity. }
    destruct D as [D|D]; [exact (Q st G X D)|]. exfalso. pose proof (R MainStep ltac:(cbn; auto)) as M. unfold sig_step in M. rewrite X, D in M. discriminate.
Qed.
Print Assumptions C106_second_refuted.

(** *** Cases that meet the hypotheses *)

Definition w0 : world :=
  {| w_pass := lit "secret"; w_quiet := lit "true"; w_dur := fun s => if str_eqb s (lit "5s") then Some 5000000000%Z else None; w_wide := fun s => s;
     w_version := lit "v1.2.3"; w_read := fun c => if str_eqb c (lit "good.yaml") then inl true else inr (lit "no such file");
     w_new := fun _ _ => None; w_new_test := fun _ => None; w_revoke := fun r => if str_eqb r (lit "keyCompromise") then None else Some (lit "bad reason"); w_start := None |}.
Definition good : written := Apart true (lit "config") (lit "good.yaml").
Lemma good_proper : proper (w_dur w0) good. Proof. left. cbn. auto. Qed.
Lemma grace_proper : proper (w_dur w0) (Joined false grace_flag (lit "5s")). Proof. right. right. split; [reflexivity|]. vm_compute. discriminate. Qed.
Lemma noisy_proper : proper (w_dur w0) (Joined true (lit "quiet") (lit "F")). Proof. right. left. split; cbn; auto 20. Qed.
Lemma revoke_proper d v : proper (w_dur w0) (Joined d (lit "revoke-all-certificates") v). Proof. left. cbn. auto. Qed.
Lemma test_proper : proper (w_dur w0) (Alone false (lit "use-ephemeral-certificate-manager")). Proof. cbn. auto. Qed.
Lemma pass_proper v : proper (w_dur w0) (Apart false (lit "passphrase") v). Proof. left. cbn. auto. Qed.

(** A line with flags in several ways, one of them twice. *)
Definition l0 : list written := [Joined false (lit "config") (lit "other.yaml"); Joined false grace_flag (lit "5s"); Joined true (lit "quiet") (lit "F"); good].
Example l0_proper : Forall (proper (w_dur w0)) l0.
Proof. repeat (apply Forall_cons; [first [exact good_proper|exact grace_proper|exact noisy_proper|left; cbn; auto]|]). constructor. Qed.
Example l0_line : line l0 = [lit "-config=other.yaml"; lit "-shutdown-grace-period=5s"; lit "--quiet=F"; lit "--config"; lit "good.yaml"].
Proof. reflexivity. Qed.
Example l0_serves : main w0 (line l0) = ([Write false (lit "INF tlsproxy v1.2.3"); New (lit "good.yaml") (lit "secret"); Start], Serve).
Proof. vm_compute. reflexivity. Qed.
(** The environment says quiet: logging ends. *)
Example l1_serves : main w0 (line [good]) = ([Write false (lit "INF tlsproxy v1.2.3"); New (lit "good.yaml") (lit "secret"); Start; Mute], Serve).
Proof. vm_compute. reflexivity. Qed.
(** [-quiet false] in an environment that does not say so. *)
Example quiet_false : no_flag (lit "false") /\ List.In (lit "quiet") switches /\
  main w0 (lit "-quiet" :: lit "false" :: line [good]) = ([Write false (lit "--config must be set")], Exit 1).
Proof. split; [right; right; eexists; eexists; split; [reflexivity|discriminate]|]. split; [cbn; auto|]. vm_compute. reflexivity. Qed.
(** Certificates are revoked. *)
Example revokes : Forall (proper (w_dur w0)) [good; Joined true (lit "revoke-all-certificates") (lit "keyCompromise")] /\
  main w0 (line [good; Joined true (lit "revoke-all-certificates") (lit "keyCompromise")]) =
    ([Write false (lit "INF tlsproxy v1.2.3"); New (lit "good.yaml") (lit "secret"); Revoke (lit "keyCompromise")], Exit 0).
Proof. split; [repeat (apply Forall_cons; [first [exact good_proper|apply revoke_proper]|]); constructor|]. vm_compute. reflexivity. Qed.
Example revokes_not : main w0 (line [good; Joined true (lit "revoke-all-certificates") (lit "x")]) =
    ([Write false (lit "INF tlsproxy v1.2.3"); New (lit "good.yaml") (lit "secret"); Revoke (lit "x"); Write false (lit "ERR RevokeAllCertificates: bad reason")], Exit 1).
Proof. vm_compute. reflexivity. Qed.
(** They are not with the certificates for tests. *)
Example revokes_test : Forall (proper (w_dur w0)) [good; Alone false (lit "use-ephemeral-certificate-manager"); Joined true (lit "revoke-all-certificates") (lit "keyCompromise")] /\
  main w0 (line [good; Alone false (lit "use-ephemeral-certificate-manager"); Joined true (lit "revoke-all-certificates") (lit "keyCompromise")]) =
    ([Write false (lit "INF tlsproxy v1.2.3"); Write false (lit "WRN Using ephemeral certificate manager"); NewTest (lit "good.yaml"); Start; Mute], Serve).
Proof. split; [repeat (apply Forall_cons; [first [exact good_proper|exact test_proper|apply revoke_proper]|]); constructor|]. vm_compute. reflexivity. Qed.
(** A misspelt flag shows the passphrase. *)
Example typo : unknown_flag (lit "--confg") /\ plain_text (w_pass w0) /\
  main w0 [lit "--confg"; lit "good.yaml"] =
    ([Write false (lit "flag provided but not defined: -confg");
      Write false (lit "Usage:  -config string  -passphrase string (default ""secret"")  -quiet (default true)  -revoke-all-certificates string  -shutdown-grace-period duration (default 1m0s)  -stdout  -use-ephemeral-certificate-manager  -v")], Exit 2).
Proof.
  split; [exists true, "c"%char, (lit "onfg"); split; [reflexivity|]; split; [discriminate|]; split; cbn; intuition discriminate|].
  split; [intros c I; cbn in I; repeat (destruct I as [<-|I]; [vm_compute; repeat split; discriminate|]); destruct I|]. vm_compute. reflexivity.
Qed.
(** Two passphrases, one of them in the line. *)
Example two_passes : Forall (proper (w_dur w0)) [good; Apart false (lit "passphrase") (lit "other")] /\
  same_but_pass w0 [good] [good; Apart false (lit "passphrase") (lit "other")] /\
  ask_pass w0 [good] = lit "secret" /\ ask_pass (with_pass (lit "third") w0) [good; Apart false (lit "passphrase") (lit "other")] = lit "other".
Proof. split; [repeat (apply Forall_cons; [first [exact good_proper|apply pass_proper]|]); constructor|]. vm_compute. repeat split. Qed.

(** Runs: one signal and Shutdown returns; two signals; the grace period passes and the goroutine
    goes. *)
Example run_one : exists st, sig_run sig_init [MainStep; MainStep; Signal INT; MainStep; MainStep; GoStep; GoStep; Finished; MainStep] = Some st /\ s_proc st = Exited 0.
Proof. eexists. split; reflexivity. Qed.
Example run_two : exists st st2, sig_run sig_init [MainStep; MainStep; Signal INT; MainStep; MainStep; GoStep; GoStep] = Some st /\ s_go st = GWait /\ s_proc st = Running /\
  sig_run st [Signal TERM; GoSignal] = Some st2 /\ s_proc st2 = Exited 1 /\ at_rest st2.
Proof. eexists. eexists. repeat (split; [reflexivity|]). intros e _. reflexivity. Qed.
Example run_deaf : exists st, sig_run sig_init [MainStep; MainStep; Signal INT; MainStep; MainStep; GoStep; GoStep; Grace; GoDone] = Some st /\ s_go st = GGone /\ s_proc st = Running /\ at_rest st.
Proof. eexists. repeat (split; [reflexivity|]). intros e I. cbn in I. destruct I as [<-|[<-|[<-|[<-|[]]]]]; reflexivity. Qed.
Example run_waits : exists st, sig_run sig_init [MainStep; MainStep] = Some st /\ s_main st = MWait /\ at_rest st /\ s_proc st = Running.
Proof. eexists. repeat (split; [reflexivity|]). split; [|reflexivity]. intros e I. cbn in I. destruct I as [<-|[<-|[<-|[<-|[]]]]]; reflexivity. Qed.
