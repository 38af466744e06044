(** Proofs about the web page of the certificate authority. *)
From Verif Require Import Base PkiModel PkiSpec PkiProofs PkiProofs2 PkiProofs3 PkiProofs4 PkiWebModel PkiWebSpec.
Open Scope Z_scope.

Lemma mark_eqb_spec a b : mark_eqb a b = true <-> a = b.
Proof. destruct a, b; cbn; split; congruence. Qed.
Lemma mark_of_spec now e m : mark_of now e = m <-> in_state now e m.
Proof.
  unfold mark_of. destruct (en_rev e) eqn:R; [|destruct (Z.ltb_spec (xc_not_after (en_cert e)) now)]; destruct m; cbn; rewrite R; split; intros; repeat match goal with H : _ /\ _ |- _ => destruct H end; repeat split; try congruence; try lia.
Qed.

Lemma str_dec (a b : str) : str_eqb a b = true /\ a = b \/ str_eqb a b = false /\ a <> b.
Proof. destruct (str_eqb a b) eqn:E; [left|right]; split; auto; [now apply str_eqb_spec|now apply str_eqb_neq]. Qed.

Lemma status_passes_spec f m : status_passes (to_lower f) m = true <-> wants_status f m.
Proof.
  unfold status_passes, wants_status.
  destruct (str_dec (to_lower f) []) as [[-> ->]|[-> N1]].
  { cbn. destruct m; cbn; intuition (try congruence). }
  destruct (str_dec (to_lower f) (lit "valid")) as [[-> ->]|[-> N2]].
  { cbn. destruct m; cbn; intuition (try congruence). }
  destruct (str_dec (to_lower f) (lit "revoked")) as [[-> ->]|[-> N3]].
  { cbn. destruct m; cbn; intuition (try congruence). }
  destruct (str_dec (to_lower f) (lit "expired")) as [[-> ->]|[-> N4]].
  { cbn. destruct m; cbn; intuition (try congruence). }
  cbn. destruct m; cbn; intuition (try congruence).
Qed.

Lemma passes_spec email owner status now e :
  passes email (to_lower owner) (to_lower status) now e = true <->
  wants_owner owner email (en_cert e) /\ wants_status status (mark_of now e).
Proof.
  unfold passes, wants_owner. rewrite andb_true_iff, status_passes_spec, orb_true_iff, str_eqb_spec, mem_spec. reflexivity.
Qed.

Lemma page_inv o files q now d p : manage o files q now d = APage p ->
  exists email, user q email /\ p_email p = email /\ d_ca d <> None /\
    p_lines p = lines email (is_admin o q email) (to_lower (form q (lit "owner"))) (to_lower (form q (lit "status")))
                  (match q_peer q with Some n => serial_hex n | None => [] end) now d.
Proof.
  unfold manage. destruct (q_claims q) as [c|] eqn:C; [|discriminate].
  cbv zeta.
  destruct (str_eqb _ (lit "requestCert")). { destruct (request_cert (to_web q)); discriminate. }
  destruct (str_eqb _ (lit "revokeCert")).
  { unfold handle_revoke. destruct (negb _); [discriminate|]. destruct (negb _); [discriminate|].
    destruct (find_cert _ d) as [x|]; [|discriminate]. destruct (_ <? _); [discriminate|]. destruct (_ && _)%bool; discriminate. }
  destruct (str_eqb _ (lit "downloadCert")).
  { unfold handle_download. destruct (negb _); [discriminate|]. destruct (find_cert _ d); discriminate. }
  destruct (str_eqb _ (lit "static")).
  { unfold handle_static. destruct (negb _); [discriminate|]. destruct (assoc _ files); [|discriminate]. destruct (str_eqb _ _); discriminate. }
  destruct (negb _); [discriminate|].
  destruct (d_ca d) as [ca|]; [|discriminate]. intros [= <-]. exists (email_of c). split; [exists c; split; [exact C|destruct c; reflexivity]|].
    repeat split; discriminate.
Qed.

Lemma user_unique q a b : user q a -> user q b -> a = b.
Proof. intros (c & E & ->) (c' & E' & ->). rewrite E in E'. now injection E' as <-. Qed.

Lemma line_describes q email adm now e :
  describes q now (line_of email adm (match q_peer q with Some n => serial_hex n | None => [] end) now e) e.
Proof.
  unfold describes, line_of. cbn. repeat split; auto; try (apply mark_of_spec; reflexivity).
  - rewrite str_eqb_spec. destruct (q_peer q); auto.
  - destruct (q_peer q); intros H; rewrite H; [|]; apply str_eqb_refl.
Qed.

Lemma lines_In email adm owner status cur now d v : In v (lines email adm owner status cur now d) <->
  exists e, In e (d_issued d) /\ passes email owner status now e = true /\ v = line_of email adm cur now e.
Proof.
  unfold lines. rewrite <- in_rev, in_map_iff. split.
  - intros (e & <- & I). apply filter_In in I as [I P]. eauto.
  - intros (e & I & P & ->). exists e. split; [reflexivity|]. now apply filter_In.
Qed.

Lemma is_admin_spec o q email : is_admin o q email = true <-> acting_admin o q email.
Proof.
  unfold is_admin, acting_admin, form. rewrite andb_true_iff, negb_true_iff, mem_spec. split.
  - intros [N I]. split; [exact I|]. destruct (assoc (lit "admin") (q_form q)) as [v|]; [|discriminate]. exists v. split; [reflexivity|].
    now apply str_eqb_neq.
  - intros [I (v & -> & N)]. split; [now apply str_eqb_neq|exact I].
Qed.

(** ** The list of certificates has each serial number once *)
Lemma revoke_first_serials h r l l' : revoke_first h r l = Some l' -> map en_serial l' = map en_serial l.
Proof.
  revert l'. induction l as [|e l IH]; cbn; intros l' H; [discriminate|].
  destruct (str_eqb (en_serial e) h); [now injection H as <-|].
  destruct (revoke_first h r l) as [l2|]; [|discriminate]. injection H as <-. cbn. now rewrite (IH _ eq_refl).
Qed.
Lemma NoDup_snoc {A} (l : list A) x : NoDup l -> ~ In x l -> NoDup (l ++ [x]).
Proof.
  intros N I. induction N as [|y l Ny N IH]; cbn; [repeat constructor; auto|]. constructor.
  - intros J. apply in_app_or in J as [J|[<-|[]]]; [auto|]. apply I. left. reflexivity.
  - apply IH. intros J. apply I. right. exact J.
Qed.
Lemma NoDup_prefix {A} (a b : list A) : NoDup (a ++ b) -> NoDup a.
Proof.
  induction a as [|x a IH]; intros N; [constructor|]. cbn in N. inversion N; subst. constructor; [|auto].
  intros I. apply H1. apply in_or_app. auto.
Qed.
Lemma nodup_grow o ops p d' : NoDup (serials (ops ++ [p])) ->
  NoDup (map en_serial (d_issued (s_disk (after o ops)))) -> grow o p (s_disk (after o ops)) d' -> NoDup (map en_serial (d_issued d')).
Proof.
  intros N D G. destruct (grow_issued _ _ _ _ G) as [[-> _]|[(c & -> & _ & S & _)|(i & sn & now & x & _ & _ & R)]]; [exact D| |].
  - rewrite map_app. cbn [map en_serial]. apply NoDup_snoc; [exact D|].
    intros I. apply in_map_iff in I as (e & E & I). destruct (issued_serials _ _ _ I) as (n & En & In').
    rewrite E in En. apply serial_hex_inj in En. subst n. rewrite serials_app, S in N.
    apply (NoDup_remove_2 _ [] _) in N. apply N. now rewrite app_nil_r.
  - now rewrite (revoke_first_serials _ _ _ _ R).
Qed.

Lemma nodup_all o ops : NoDup (serials ops) ->
  NoDup (map en_serial (d_issued (s_disk (after o ops)))) /\
  forall j m, s_managers (after o ops) j = Some m -> NoDup (map en_serial (d_issued (m_db m))).
Proof.
  induction ops as [|p ops IH] using rev_ind; intros N.
  - split; [constructor|]. intros j m H. discriminate.
  - destruct IH as [ID IM]. { rewrite serials_app in N. exact (NoDup_prefix _ _ N). }
    rewrite after_snoc. split.
    + destruct (step_disk o (after o ops) p) as [->|H]; [exact ID|]. eapply nodup_grow; eassumption.
    + intros j m H. destruct (step_mem o (after o ops) p j) as [E|(m' & E & C)]; [congruence|].
      rewrite E in H. injection H as <-. destruct C as [(m0 & M0 & ->)|(_ & [->|T])]; [eauto|exact ID|eapply nodup_grow; eassumption].
Qed.
Lemma nodup_same {A} (f : entry -> A) l e1 e2 : NoDup (map f l) -> In e1 l -> In e2 l -> f e1 = f e2 -> e1 = e2.
Proof.
  induction l as [|e l IH]; cbn; intros N I1 I2 E; [contradiction|]. inversion N; subst.
  destruct I1 as [<-|I1], I2 as [<-|I2]; auto; exfalso; apply H1; apply in_map_iff; eauto.
Qed.
Lemma find_unique l e : NoDup (map en_serial l) -> In e l -> find_serial (en_serial e) l = Some e.
Proof.
  intros N I. destruct (find_serial (en_serial e) l) as [e2|] eqn:F.
  - apply find_In in F as [I2 E]. f_equal. eapply nodup_same; eauto.
  - exfalso. unfold find_serial in F. apply (find_none _ _ F) in I. rewrite str_eqb_refl in I. discriminate.
Qed.

(** ** The page *)
Lemma listed_sound o files q now d p v : manage o files q now d = APage p -> In v (p_lines p) ->
  exists email e, user q email /\ In e (d_issued d) /\ describes q now v e /\
    wants_owner (form q (lit "owner")) email (en_cert e) /\ wants_status (form q (lit "status")) (v_mark v) /\
    v_can v = negb (xc_ca (en_cert e)) && (is_admin o q email || mem email (xc_emails (en_cert e))).
Proof.
  intros H I. destruct (page_inv _ _ _ _ _ _ H) as (email & U & _ & _ & E). rewrite E, lines_In in I.
  destruct I as (e & Ie & P & ->). exists email, e. apply passes_spec in P as [P1 P2].
  split; [exact U|]. split; [exact Ie|]. split; [apply line_describes|]. auto.
Qed.
Lemma listed_complete o files q now d p email e m : manage o files q now d = APage p -> user q email ->
  In e (d_issued d) -> wants_owner (form q (lit "owner")) email (en_cert e) -> in_state now e m ->
  wants_status (form q (lit "status")) m -> exists v, In v (p_lines p) /\ describes q now v e.
Proof.
  intros H U I W S T. destruct (page_inv _ _ _ _ _ _ H) as (email' & U' & _ & _ & E).
  rewrite (user_unique _ _ _ U' U) in E. eexists. split.
  - rewrite E. apply lines_In. exists e. split; [exact I|]. split; [|reflexivity]. apply passes_spec. split; [exact W|].
    apply mark_of_spec in S. now rewrite S.
  - apply line_describes.
Qed.

(** Two certificates in the order of issue. *)
Definition in_order (h1 h2 : str) (l : list str) : Prop := exists a b c, l = a ++ h1 :: b ++ h2 :: c.
Lemma in_order_map {A B} (f : A -> B) (l : list A) a x b y c : map f l = a ++ x :: b ++ y :: c ->
  exists a' x' b' y' c', l = a' ++ x' :: b' ++ y' :: c' /\ f x' = x /\ f y' = y.
Proof.
  intros E. apply map_eq_app in E as (a' & r & -> & <- & E). destruct r as [|x' r]; [discriminate|]. cbn in E. injection E as Ex E.
  apply map_eq_app in E as (b' & r2 & -> & <- & E). destruct r2 as [|y' r2]; [discriminate|]. cbn in E. injection E as Ey E.
  exists a', x', b', y', r2. auto.
Qed.
Lemma grow_serials o p d d' : grow o p d d' -> exists t, map en_serial (d_issued d') = map en_serial (d_issued d) ++ t.
Proof.
  intros G. destruct (grow_issued _ _ _ _ G) as [[-> _]|[(c & -> & _)|(i & sn & now & x & _ & _ & R)]].
  - exists []. now rewrite app_nil_r.
  - rewrite map_app. eexists. reflexivity.
  - exists []. now rewrite app_nil_r, (revoke_first_serials _ _ _ _ R).
Qed.
Lemma grow_order o h1 h2 p d d' : grow o p d d' -> in_order h1 h2 (map en_serial (d_issued d)) -> in_order h1 h2 (map en_serial (d_issued d')).
Proof.
  intros G (a & b & c & E). destruct (grow_serials _ _ _ _ G) as (t & ->). rewrite E. exists a, b, (c ++ t).
  rewrite <- !app_assoc. cbn. now rewrite <- app_assoc.
Qed.

(** What holds on disk after an operation that has left manager [i] with the data on disk
    holds later in manager [i] and in those that are started later. *)
Lemma from_then o (P : db -> Prop) ops p between j i :
  (forall p d d', grow o p d d' -> P d -> P d') ->
  P (s_disk (after o (ops ++ [p]))) ->
  (forall m, s_managers (after o (ops ++ [p])) i = Some m -> m_db m = s_disk (after o (ops ++ [p]))) ->
  j = i \/ starts j between ->
  forall m, s_managers (after o (ops ++ p :: between)) j = Some m -> P (m_db m).
Proof.
  intros G FD S J. replace (ops ++ p :: between) with ((ops ++ [p]) ++ between) by (rewrite <- app_assoc; reflexivity).
  destruct J as [->|(key & n & t & y & I)].
  - destruct (db_from o P G (ops ++ [p]) between FD) as [_ K]. apply K. intros m M. rewrite (S _ M). exact FD.
  - apply in_split in I as (l1 & l2 & ->).
    replace ((ops ++ [p]) ++ l1 ++ Start j key n t y :: l2) with (((ops ++ [p]) ++ l1 ++ [Start j key n t y]) ++ l2)
      by (rewrite <- !app_assoc; reflexivity).
    destruct (db_from o P G (ops ++ [p]) (l1 ++ [Start j key n t y]) FD) as [FD2 _].
    destruct (db_from o P G _ l2 FD2) as [_ K]. apply K.
    intros m M. rewrite app_assoc in M, FD2. rewrite after_snoc in M, FD2.
    destruct (step_start _ _ _ _ _ _ _ _ M) as [Ed _]. rewrite <- Ed. exact FD2.
Qed.

Lemma issued_known o before i w sn now x between c j m :
  NoDup (serials (before ++ Issue i w sn now x :: between)) ->
  PkiSpec.answer o before (Issue i w sn now x) = OCert c -> j = i \/ starts j between ->
  s_managers (after o (before ++ Issue i w sn now x :: between)) j = Some m ->
  exists e, In e (d_issued (m_db m)) /\ en_serial e = serial_hex sn /\ en_cert e = c.
Proof.
  intros N A J M. destruct (issue_answer _ _ _ _ _ _ _ _ A) as (m0 & cr & M0 & D0 & R0 & _ & Ec).
  assert (H : has_cert (serial_hex sn) c (m_db m)).
  { eapply (from_then o (has_cert (serial_hex sn) c)); [apply grow_has_cert| | |exact J|exact M].
    - replace (before ++ [Issue i w sn now x]) with (before ++ Issue i w sn now x :: []) by reflexivity.
      eapply issued_has_cert; [|exact A].
      rewrite serials_app in *. change (Issue i w sn now x :: between) with ([Issue i w sn now x] ++ between) in N.
      rewrite serials_app, app_assoc in N. exact (NoDup_prefix _ _ N).
    - intros m1 M1. rewrite after_snoc in *. rewrite M0 in M1. injection M1 as <-. exact D0. }
  destruct H as (e & F & E). apply find_In in F as [I F]. eauto.
Qed.

Lemma serials_all o ops :
  let P d := forall e, In e (d_issued d) -> en_serial e = serial_hex (xc_serial (en_cert e)) in
  P (s_disk (after o ops)) /\ forall j m, s_managers (after o ops) j = Some m -> P (m_db m).
Proof.
  cbv zeta. refine (db_inv o (fun d => forall e, In e (d_issued d) -> en_serial e = serial_hex (xc_serial (en_cert e))) _ _ ops).
  - intros e [].
  - intros p d d' G A e Ie. destruct (grow_issued o p d d' G) as [[E _]|[(c & E & _ & S & _)|(i & sn & now & x & -> & _ & R)]].
    + rewrite E in Ie. auto.
    + rewrite E in Ie. apply in_app_iff in Ie as [Ie|[<-|[]]]; [auto|reflexivity].
    + apply revoke_first_spec in R as (a & e0 & b & Ed & Ed' & Es & _). rewrite Ed' in Ie. rewrite in_app_iff in Ie. cbn [In] in Ie.
      destruct Ie as [Ie|[<-|Ie]].
      * apply A. rewrite Ed. apply in_or_app. auto.
      * cbn. apply A. rewrite Ed. apply in_elt.
      * apply A. rewrite Ed. apply in_or_app. right. right. exact Ie.
Qed.
Lemma page_ca o files q now d p : manage o files q now d = APage p -> d_ca d <> None.
Proof. intros H. destruct (page_inv _ _ _ _ _ _ H) as (? & _ & _ & C & _). exact C. Qed.

(** ** Requests for one certificate *)
Lemma found d e : NoDup (map en_serial (d_issued d)) -> d_ca d <> None -> In e (d_issued d) ->
  find_cert (en_serial e) d = match en_rev e with None => Some (en_cert e) | Some _ => None end.
Proof. intros N C I. unfold find_cert. destruct (d_ca d); [|congruence]. now rewrite (find_unique _ _ N I). Qed.
Lemma found_inv sn d c : find_cert sn d = Some c -> exists e, In e (d_issued d) /\ en_serial e = sn /\ en_cert e = c /\ en_rev e = None.
Proof.
  unfold find_cert. destruct (d_ca d); [|discriminate]. destruct (find_serial sn (d_issued d)) as [e|] eqn:F; [|discriminate].
  destruct (en_rev e) eqn:R; [discriminate|]. intros [= <-]. apply find_In in F as [I E]. eauto.
Qed.

(** A request that is sent for revocation. *)
Definition revocation_of (q : query) (sn : str) : Prop :=
  q_method q = lit "POST" /\ q_csrf q = lit "1" /\ form q (lit "get") = lit "revokeCert" /\ form q (lit "sn") = sn.
Lemma revoke_at o files q email now d sn : user q email -> revocation_of q sn ->
  manage o files q now d =
    match find_cert sn d with
    | None => AError 500
    | Some x => if xc_not_after x <? now then AError 400
                else if is_admin o q email || mem email (xc_emails x) then ARevoke (xc_serial x) else ADenied
    end.
Proof.
  intros (c & C & ->) (M & X & G & S). unfold manage. rewrite C, G. cbn [str_eqb]. cbv zeta.
  change (str_eqb (lit "revokeCert") (lit "requestCert")) with false. rewrite str_eqb_refl. unfold handle_revoke.
  rewrite M, X, S, !str_eqb_refl. cbn [negb]. destruct (find_cert sn d) as [x|]; [|reflexivity]. destruct (_ <? _); [reflexivity|].
  replace (match c with Some e => e | None => [] end) with (email_of c) by (destruct c; reflexivity).
  destruct (is_admin o q (email_of c)), (mem (email_of c) (xc_emails x)); reflexivity.
Qed.
Lemma press_is q sn : revocation_of (press_revoke q sn) sn.
Proof. repeat split. Qed.
Lemma press_not_admin o q sn email : is_admin o (press_revoke q sn) email = false.
Proof. reflexivity. Qed.
Lemma press_user q sn email : user q email -> user (press_revoke q sn) email.
Proof. intros (c & C & E). exists c. auto. Qed.
Lemma press_revoke_own o files q email now d e :
  NoDup (map en_serial (d_issued d)) -> d_ca d <> None -> In e (d_issued d) -> en_rev e = None -> user q email ->
  In email (xc_emails (en_cert e)) -> now <= xc_not_after (en_cert e) ->
  manage o files (press_revoke q (en_serial e)) now d = ARevoke (xc_serial (en_cert e)).
Proof.
  intros N C I R U E T. rewrite (revoke_at o files _ email now d (en_serial e) (press_user _ _ _ U) (press_is _ _)).
  rewrite (found _ _ N C I), R. destruct (Z.ltb_spec (xc_not_after (en_cert e)) now); [lia|].
  rewrite press_not_admin. apply mem_spec in E. now rewrite E.
Qed.

(** What a request must have in it to change something. *)
Lemma manage_change o files q now d a : manage o files q now d = a ->
  (exists cr, a = ARequest cr) \/ (exists n, a = ARevoke n) ->
  q_claims q <> None /\ q_method q = lit "POST" /\ q_csrf q = lit "1".
Proof.
  intros <-. unfold manage. destruct (q_claims q) as [c|]; [|intros [[? H]|[? H]]; discriminate]. cbv zeta.
  destruct (str_eqb _ (lit "requestCert")).
  { destruct (request_cert (to_web q)) as [cr|] eqn:R; [|intros [[? H]|[? H]]; discriminate]. intros _.
    destruct (request_cert_inv _ _ R) as (cl & r & _ & _ & M & X & _). cbn in M, X. repeat split; auto; discriminate. }
  destruct (str_eqb _ (lit "revokeCert")).
  { unfold handle_revoke. destruct (str_eqb (q_method q) (lit "POST")) eqn:M; cbn [negb]; [|intros [[? H]|[? H]]; discriminate].
    destruct (str_eqb (q_csrf q) (lit "1")) eqn:X; cbn [negb]; [|intros [[? H]|[? H]]; discriminate].
    intros _. apply str_eqb_spec in M. apply str_eqb_spec in X. repeat split; auto; discriminate. }
  destruct (str_eqb _ (lit "downloadCert")).
  { unfold handle_download. destruct (negb _); [|destruct (find_cert _ d)]; intros [[? H]|[? H]]; discriminate. }
  destruct (str_eqb _ (lit "static")).
  { unfold handle_static. destruct (negb _); [|destruct (assoc _ files); [destruct (str_eqb _ _)|]]; intros [[? H]|[? H]]; discriminate. }
  destruct (negb _); [intros [[? H]|[? H]]; discriminate|]. destruct (d_ca d); intros [[? H]|[? H]]; discriminate.
Qed.
Lemma manage_download o files q now d f c : manage o files q now d = ADownload f c ->
  exists e, In e (d_issued d) /\ en_serial e = form q (lit "sn") /\ en_cert e = c /\ en_rev e = None.
Proof.
  unfold manage. destruct (q_claims q) as [cl|]; [|discriminate]. cbv zeta.
  destruct (str_eqb _ (lit "requestCert")). { destruct (request_cert (to_web q)); discriminate. }
  destruct (str_eqb _ (lit "revokeCert")).
  { unfold handle_revoke. destruct (negb _); [discriminate|]. destruct (negb _); [discriminate|].
    destruct (find_cert _ d) as [x|]; [|discriminate]. destruct (_ <? _); [discriminate|]. destruct (_ && _)%bool; discriminate. }
  destruct (str_eqb _ (lit "downloadCert")).
  { unfold handle_download. destruct (negb _); [discriminate|]. destruct (find_cert _ d) as [x|] eqn:F; [|discriminate].
    intros [= _ <-]. apply found_inv. exact F. }
  destruct (str_eqb _ (lit "static")).
  { unfold handle_static. destruct (negb _); [discriminate|]. destruct (assoc _ files); [|discriminate]. destruct (str_eqb _ _); discriminate. }
  destruct (negb _); [discriminate|]. destruct (d_ca d); discriminate.
Qed.
(** The two models of handleRevokeCert agree. *)
Lemma revoke_agrees o files q now d n : form q (lit "get") = lit "revokeCert" ->
  manage o files q now d = ARevoke n <-> revoke_cert o (to_web q) now d = OAllowed n.
Proof.
  intros G. unfold manage, revoke_cert. cbn [to_web w_claims w_method w_csrf w_admin w_sn].
  destruct (q_claims q) as [c|]; [|split; discriminate]. cbv zeta. rewrite G.
  change (str_eqb (lit "revokeCert") (lit "requestCert")) with false. rewrite str_eqb_refl. unfold handle_revoke.
  destruct (negb _); [split; discriminate|]. destruct (negb _); [split; discriminate|].
  destruct (find_cert _ d) as [x|]; [|split; discriminate]. destruct (_ <? _); [split; discriminate|].
  unfold is_admin. destruct (form q (lit "admin")) as [|a s] eqn:F; cbn [str_eqb negb andb].
  - destruct (negb (mem _ _)); cbn; split; congruence.
  - destruct (negb (mem _ _)), (negb (mem _ _)); cbn; split; congruence.
Qed.
