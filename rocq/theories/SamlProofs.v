(** Lemmas about SamlModel: the request. *)
From Coq Require Import Permutation.
From Verif Require Import Base XfccModel SamlModel SamlSpec.
From Verif Require KeygenModel KeygenProofs AuthoritySpec AuthorityProofs XfccProofs ConsoleModel ConsoleProofs RefreshModel LoginModel.
Open Scope nat_scope.

(** *** XML *)

Lemma upto_at : forall stop a c r, (forall x, In x a -> has_char x stop = false) -> has_char c stop = true ->
  upto stop (a ++ c :: r) = (a, c :: r).
Proof.
  induction a as [|x a IH]; intros c r H C; cbn [app upto].
  - rewrite C. reflexivity.
  - rewrite (H x) by now left. rewrite IH; [reflexivity| |exact C]. intros y Hy. apply H. now right.
Qed.
Lemma resolve_byte : forall c b r, (32 <= N_of_ascii c)%N \/ In (N_of_ascii c) [9; 10; 13]%N ->
  resolve b None (xml_byte c ++ r) = option_map (cons c) (resolve b None r).
Proof.
  intros [[] [] [] [] [] [] [] []] b r H; cbv [N_of_ascii N_of_digits] in H; cbn in H;
    first [reflexivity | exfalso; destruct H as [H|H]; [vm_compute in H; congruence|intuition discriminate]
          | cbn; destruct (resolve b None r); reflexivity].
Qed.
Lemma resolve_escape : forall s b, carried s -> resolve b None (xml_escape s) = Some s.
Proof.
  intros s b H. induction H as [|c s C H IH]; [reflexivity|]. unfold xml_escape in *. cbn [map List.concat].
  rewrite resolve_byte by exact C. rewrite IH. reflexivity.
Qed.
Lemma byte_no : forall c, forallb (fun x => negb (has_char x ("<"%char :: [quote]))) (xml_byte c) = true.
Proof. intros [[] [] [] [] [] [] [] []]; reflexivity. Qed.
Lemma escape_no : forall s x, In x (xml_escape s) -> has_char x ("<"%char :: [quote]) = false.
Proof.
  intros s x H. unfold xml_escape in H. apply in_concat in H as [b [B H]]. apply in_map_iff in B as [c [<- _]].
  pose proof (byte_no c) as P. rewrite forallb_forall in P. apply negb_true_iff. exact (P x H).
Qed.
Lemma escape_no_quote : forall s x, In x (xml_escape s) -> has_char x [quote] = false.
Proof. intros s x H. apply escape_no in H. cbn [has_char] in *. apply orb_false_iff in H as [_ H]. exact H. Qed.
Lemma escape_no_lt : forall s x, In x (xml_escape s) -> has_char x (lit "<") = false.
Proof. intros s x H. apply escape_no in H. cbn [has_char lit list_ascii_of_string] in *. apply orb_false_iff in H as [H _]. rewrite H. reflexivity. Qed.
Lemma escape_nonempty : forall s, s <> [] -> exists c r, xml_escape s = c :: r /\ Ascii.eqb c "<" = false.
Proof.
  intros [|c s] H; [congruence|]. assert (N : xml_escape (c :: s) <> []).
  { unfold xml_escape. cbn [map List.concat]. destruct c as [[] [] [] [] [] [] [] []]; discriminate. }
  destruct (xml_escape (c :: s)) as [|x r] eqn:E; [congruence|]. exists x, r. split; [reflexivity|].
  assert (I : has_char x (lit "<") = false) by (apply (escape_no_lt (c :: s)); rewrite E; now left).
  cbn in I. apply orb_false_iff in I as [I _]. rewrite Ascii.eqb_sym in *. exact I || (rewrite Ascii.eqb_sym; exact I).
Qed.

Definition name_ok (n : str) : Prop := forall x, In x n -> has_char x (lit "=<> ") = false.
Lemma read_attrs_ok : forall l fuel r, List.length l < fuel -> Forall (fun nv => name_ok (fst nv) /\ carried (snd nv)) l ->
  read_attrs fuel (List.concat (map xml_attr l) ++ ">"%char :: r) = Some (l, r).
Proof.
  induction l as [|[n v] l IH]; intros fuel r F H; destruct fuel as [|fuel]; try (cbn in F; lia).
  - reflexivity.
  - inversion H as [|? ? [N C] Hl]; subst. cbn [map List.concat]. unfold xml_attr at 1. cbn [fst snd].
    rewrite <- !app_assoc. cbn [lit list_ascii_of_string app read_attrs].
    change (Ascii.eqb " " ">") with false. change (Ascii.eqb " " " ") with true. cbv beta iota.
    rewrite (upto_at _ n "="%char) by (exact N || reflexivity).
    cbn [fst snd] in *. change (Ascii.eqb "=" "=" && Ascii.eqb quote """") with true. cbv beta iota.
    rewrite (upto_at [quote] (xml_escape v) quote) by (apply escape_no_quote || reflexivity).
    rewrite (resolve_escape _ true C). rewrite IH; [reflexivity| |exact Hl]. cbn in F. lia.
Qed.

Lemma skipn_close : forall (a r : str), skipn (List.length a) (a ++ r) = r.
Proof. intros a r. rewrite skipn_app, skipn_all, Nat.sub_diag. reflexivity. Qed.
Lemma read_elem : forall fuel tag attrs content rest kids tail l end_,
  (forall x, In x tag -> has_char x (lit " ><") = false) -> has_prefix tag (lit "/") = false -> tag <> [] ->
  List.length attrs < fuel -> Forall (fun nv => name_ok (fst nv) /\ carried (snd nv)) attrs ->
  (match List.concat (map xml_attr attrs) with [] => True | c :: _ => c = " "%char end) ->
  read_nodes fuel (content ++ lit "</" ++ tag ++ lit ">" ++ rest) = Some (kids, lit "</" ++ tag ++ lit ">" ++ rest) ->
  read_nodes fuel rest = Some (l, end_) -> tail = xml_elem tag attrs content ++ rest ->
  read_nodes (S fuel) tail = Some (Elem tag attrs kids :: l, end_).
Proof.
  intros fuel tag attrs content rest kids tail l end_ T P NE F A SP C R ->. unfold xml_elem. rewrite <- !app_assoc.
  cbn [lit list_ascii_of_string app]. cbn [read_nodes]. change (Ascii.eqb "<" "<") with true. cbv beta iota.
  match goal with |- context [has_prefix (tag ++ ?x) ?p] =>
    assert (Hp : has_prefix (tag ++ x) p = false) by (destruct tag as [|y tag]; [congruence|]; exact P) end.
  rewrite Hp.
  match goal with |- context [upto ?st (tag ++ ?x)] =>
    assert (U : upto st (tag ++ x) = (tag, x)) end.
  { destruct (List.concat (map xml_attr attrs)) as [|c w] eqn:E; cbn [app].
    - apply upto_at; [exact T|reflexivity].
    - subst c. apply upto_at; [exact T|reflexivity]. }
  rewrite U. rewrite read_attrs_ok by assumption.
  change (lit "</" ++ tag ++ lit ">" ++ rest) with ("<"%char :: "/"%char :: tag ++ ">"%char :: rest) in C. rewrite C.
  assert (K : "<"%char :: "/"%char :: tag ++ ">"%char :: rest = ("<"%char :: "/"%char :: tag ++ [">"%char]) ++ rest)
    by (cbn [app]; rewrite <- app_assoc; reflexivity).
  rewrite K, has_prefix_app, skipn_close, R. reflexivity.
Qed.

Lemma carried_lit : forall s, forallb (fun c => (32 <=? N_of_ascii c)%N) s = true -> carried s.
Proof. intros s H. apply Forall_forall. intros c I. left. rewrite forallb_forall in H. apply N.leb_le. exact (H c I). Qed.
Lemma name_lit : forall s, forallb (fun x => negb (has_char x (lit "=<> "))) s = true -> name_ok s.
Proof. intros s H x I. rewrite forallb_forall in H. apply negb_true_iff. exact (H x I). Qed.
Lemma tag_lit : forall s, forallb (fun x => negb (has_char x (lit " ><"))) s = true -> forall x, In x s -> has_char x (lit " ><") = false.
Proof. intros s H x I. rewrite forallb_forall in H. apply negb_true_iff. exact (H x I). Qed.

Lemma text_node : forall fuel s rest, carried s -> s <> [] -> 
  read_nodes (S (S fuel)) (xml_escape s ++ "<"%char :: "/"%char :: rest) = Some ([Chars s], "<"%char :: "/"%char :: rest).
Proof.
  intros fuel s rest C NE. destruct (escape_nonempty s NE) as (c & r & E & L).
  remember (xml_escape s) as x eqn:X. rewrite E. cbn [app]. remember (S fuel) as f eqn:Ef. cbn [read_nodes]. rewrite L.
  change (c :: r ++ "<"%char :: "/"%char :: rest) with ((c :: r) ++ "<"%char :: "/"%char :: rest). rewrite <- E.
  rewrite (upto_at (lit "<") x "<"%char) by (try reflexivity; intros y Hy; subst x; exact (escape_no_lt s y Hy)).
  subst x. rewrite (resolve_escape s false C). rewrite Ef. reflexivity.
Qed.

Lemma request_read : forall cfg id instant, carried id -> carried instant -> carried (c_sso cfg) -> carried (c_acs cfg) ->
  carried (c_entity cfg) -> c_entity cfg <> [] ->
  read_xml (request_xml cfg id instant) = Some (authn_request id instant (c_sso cfg) (c_acs cfg) (c_entity cfg)).
Proof.
  intros cfg id instant Ci Ct Cs Ca Ce NE. unfold read_xml.
  assert (L : exists k, List.length (request_xml cfg id instant) = 20 + k).
  { unfold request_xml, xml_elem. exists (List.length (request_xml cfg id instant) - 20). unfold request_xml, xml_elem.
    rewrite !app_length. cbn [lit list_ascii_of_string List.length]. lia. }
  destruct L as [k ->]. cbn [Nat.add].
  erewrite (read_elem _ (lit "AuthnRequest") _ _ []
    [Elem (lit "Issuer")
       [(lit "xmlns", lit "urn:oasis:names:tc:SAML:2.0:assertion");
        (lit "Format", lit "urn:oasis:names:tc:SAML:2.0:nameid-format:entity")]
       [Chars (c_entity cfg)]] _ [] []).
  10:{ unfold request_xml. rewrite app_nil_r. reflexivity. }
  - reflexivity.
  - apply tag_lit. reflexivity.
  - reflexivity.
  - discriminate.
  - cbn [List.length]. lia.
  - repeat (apply Forall_cons; [split; [apply name_lit; reflexivity|cbn [snd]; first [assumption|apply carried_lit; reflexivity]]|]). constructor.
  - reflexivity.
  - eapply (read_elem _ (lit "Issuer") _ (xml_escape (c_entity cfg)) (lit "</" ++ lit "AuthnRequest" ++ lit ">" ++ []) [Chars (c_entity cfg)]).
    + apply tag_lit. reflexivity.
    + reflexivity.
    + discriminate.
    + cbn [List.length]. lia.
    + repeat (apply Forall_cons; [split; [apply name_lit; reflexivity|cbn [snd]; first [assumption|apply carried_lit; reflexivity]]|]). constructor.
    + reflexivity.
    + apply (text_node _ (c_entity cfg)); assumption.
    + reflexivity.
    + reflexivity.
  - reflexivity.
Qed.

(** *** Queries *)

Lemma unescape_escape_byte : forall c rest,
  KeygenModel.query_unescape (escape_byte c ++ rest) = match KeygenModel.query_unescape rest with Some t => Some (c :: t) | None => None end.
Proof. intros [[] [] [] [] [] [] [] []] rest; reflexivity. Qed.
Lemma unescape_query : forall s, KeygenModel.query_unescape (query_escape s) = Some s.
Proof. induction s as [|c s IH]; [reflexivity|]. unfold query_escape in *. cbn [map List.concat]. rewrite unescape_escape_byte, IH. reflexivity. Qed.
Lemma escape_byte_plain : forall c, forallb (fun x => negb (has_char x (lit "&;=?#")) && (32 <=? N_of_ascii x)%N && (N_of_ascii x <? 128)%N) (escape_byte c) = true.
Proof. intros [[] [] [] [] [] [] [] []]; reflexivity. Qed.
Lemma query_escape_plain : forall s x, In x (query_escape s) -> ~ In x (lit "&;=?#") /\ (32 <= N_of_ascii x < 128)%N.
Proof.
  intros s x I. unfold query_escape in I. apply in_concat in I as [b [B I]]. apply in_map_iff in B as [c [<- _]].
  pose proof (escape_byte_plain c) as P. rewrite forallb_forall in P. specialize (P x I).
  apply andb_true_iff in P as [P P3]. apply andb_true_iff in P as [P1 P2].
  apply negb_true_iff, has_char_false in P1. apply N.leb_le in P2. apply N.ltb_lt in P3. auto.
Qed.
Lemma pair_text_plain : forall k v x, In x (pair_text k v) -> ~ In x (lit "&;?#") /\ (32 <= N_of_ascii x < 128)%N.
Proof.
  intros k v x I. unfold pair_text in I. rewrite !in_app_iff in I. cbn [lit list_ascii_of_string] in *.
  destruct I as [I|[[<-|[]]|I]].
  - apply query_escape_plain in I as [I R]. split; [|exact R]. cbn in I |- *. tauto.
  - split; [cbn; intuition discriminate|vm_compute; split; congruence].
  - apply query_escape_plain in I as [I R]. split; [|exact R]. cbn in I |- *. tauto.
Qed.
Lemma query_escape_head : forall k v, cut "=" (pair_text k v) = (query_escape k, query_escape v, true).
Proof.
  intros k v. unfold pair_text. cbn [lit list_ascii_of_string app].
  assert (N : ~ In "="%char (query_escape k)) by (intros I; apply query_escape_plain in I as [I _]; apply I; cbn; tauto).
  revert N. generalize (query_escape k). intros a. induction a as [|y a IH]; intros N; cbn [app cut].
  - reflexivity.
  - destruct (Ascii.eqb y "=") eqn:E; [apply Ascii.eqb_eq in E; subst; exfalso; apply N; now left|].
    rewrite IH; [reflexivity|]. intros I. apply N. now right.
Qed.

Definition flat (m : values) : list (str * str) :=
  flat_map (fun k => map (fun v => (k, v)) (vals k m)) (ConsoleModel.sort_strs (map fst m)).
Lemma flat_map_map : forall {A B C} (f : A -> list B) (g : B -> C) l, map g (flat_map f l) = flat_map (fun x => map g (f x)) l.
Proof. intros A B C f g l. induction l as [|x l IH]; cbn; [reflexivity|]. rewrite map_app, IH. reflexivity. Qed.
Lemma encode_flat : forall m, encode m = join "&" (map (fun kv => pair_text (fst kv) (snd kv)) (flat m)).
Proof.
  intros m. unfold encode, flat. rewrite flat_map_map. f_equal. apply flat_map_ext. intros k. rewrite map_map. reflexivity.
Qed.
Lemma join_in : forall c l x, In x (join c l) -> x = c \/ exists p, In p l /\ In x p.
Proof.
  intros c l x. induction l as [|p l IH]; [intros []|]. destruct l as [|q l].
  - cbn. intros I. right. exists p. auto.
  - rewrite join_cons by discriminate. rewrite in_app_iff. intros [I|[I|I]].
    + right. exists p. split; [now left|exact I].
    + left. congruence.
    + destruct (IH I) as [->|[r [R1 R2]]]; [now left|]. right. exists r. split; [now right|exact R2].
Qed.
Lemma encode_plain : forall m x, In x (encode m) -> ~ In x (lit ";?#") /\ (32 <= N_of_ascii x < 128)%N.
Proof.
  intros m x I. rewrite encode_flat in I. apply join_in in I as [->|[p [P I]]].
  - split; [cbn; intuition discriminate|vm_compute; split; congruence].
  - apply in_map_iff in P as [[k v] [<- _]]. apply pair_text_plain in I as [I R]. split; [|exact R]. cbn in I |- *. tauto.
Qed.
Lemma params_encode : forall m, flat m <> [] -> params (encode m) = flat m.
Proof.
  intros m NE. unfold params. rewrite encode_flat, split_join.
  - induction (flat m) as [|[k v] l IH]; [reflexivity|]. clear IH.
    assert (G : forall l, flat_map (fun p : str => let '(k, v, _) := cut "=" p in
      match KeygenModel.query_unescape k with Some k0 => match KeygenModel.query_unescape v with Some v0 => if str_eqb p [] then [] else [(k0, v0)] | None => [] end | None => [] end)
      (map (fun kv => pair_text (fst kv) (snd kv)) l) = l).
    { clear. induction l as [|[k v] l IH]; [reflexivity|]. cbn [map flat_map fst snd]. rewrite query_escape_head, !unescape_query.
      assert (E : str_eqb (pair_text k v) [] = false) by (apply str_eqb_neq; unfold pair_text; destruct (query_escape k); discriminate).
      rewrite E, IH. reflexivity. }
    apply (G ((k, v) :: l)).
  - intros H. apply map_eq_nil in H. contradiction.
  - apply Forall_forall. intros p P I. apply in_map_iff in P as [[k v] [<- _]]. apply pair_text_plain in I as [I _]. apply I. cbn. tauto.
Qed.

Lemma values_of_app : forall k a b, values_of k (a ++ b) = values_of k a ++ values_of k b.
Proof. intros k a b. unfold values_of. rewrite filter_app, map_app. reflexivity. Qed.
Lemma values_of_same : forall k l, values_of k (map (fun v => (k, v)) l) = l.
Proof. intros k l. unfold values_of. induction l as [|v l IH]; [reflexivity|]. cbn. rewrite str_eqb_refl. cbn. rewrite IH. reflexivity. Qed.
Lemma values_of_other : forall k k' l, k' <> k -> values_of k (map (fun v => (k', v)) l) = [].
Proof. intros k k' l N. unfold values_of. induction l as [|v l IH]; [reflexivity|]. cbn. apply str_eqb_neq in N. rewrite N. exact IH. Qed.
Lemma values_none : forall k m ks, ~ In k ks -> values_of k (flat_map (fun k => map (fun v => (k, v)) (vals k m)) ks) = [].
Proof.
  intros k m ks. induction ks as [|x ks IH]; intros N; [reflexivity|]. cbn [flat_map]. rewrite values_of_app, values_of_other, IH; [reflexivity| |].
  - intros I. apply N. now right.
  - intros ->. apply N. now left.
Qed.
Lemma values_once : forall k m ks, NoDup ks -> In k ks -> values_of k (flat_map (fun k => map (fun v => (k, v)) (vals k m)) ks) = vals k m.
Proof.
  intros k m ks. induction ks as [|x ks IH]; intros N I; [destruct I|]. inversion N; subst. cbn [flat_map]. rewrite values_of_app.
  destruct I as [->|I].
  - rewrite values_of_same, values_none by assumption. apply app_nil_r.
  - rewrite values_of_other, IH by (assumption || congruence). reflexivity.
Qed.
Lemma vals_absent : forall k (m : values), ~ In k (map fst m) -> vals k m = [].
Proof. intros k m N. unfold vals. destruct (assoc k m) as [l|] eqn:E; [|reflexivity]. apply assoc_In in E. exfalso. apply N. apply in_map_iff. exists (k, l). auto. Qed.
Lemma values_flat : forall k m, NoDup (map fst m) -> values_of k (flat m) = vals k m.
Proof.
  intros k m N. unfold flat. pose proof (ConsoleProofs.sort_perm (map fst m)) as P.
  destruct (in_dec str_eq_dec k (map fst m)) as [I|I].
  - apply values_once; [exact (Permutation_NoDup P N)|exact (Permutation_in _ P I)].
  - rewrite vals_absent by exact I. apply values_none. intros J. apply I. exact (Permutation_in _ (Permutation_sym P) J).
Qed.

(** The map that a query is read into. *)
Lemma set_keys : forall k (v : list str) (m : values), NoDup (map fst m) -> NoDup (map fst (assoc_set k v m)).
Proof.
  intros k v m N. unfold assoc_set, assoc_del. cbn [map fst]. constructor.
  - intros I. apply in_map_iff in I as [[k' l] [E I]]. cbn in E. subst. apply filter_In in I as [_ I]. cbn in I. rewrite str_eqb_refl in I. discriminate.
  - clear v. induction m as [|[k' l] m IH]; [constructor|]. inversion N; subst. cbn [filter fst]. destruct (negb (str_eqb k k')) eqn:E; cbn [map fst].
    + constructor; [|auto]. intros I. apply H1. apply in_map_iff in I as [[k2 l2] [E2 I]]. cbn in E2. subst. apply filter_In in I as [I _].
      apply in_map_iff. exists (k', l2). auto.
    + auto.
Qed.
Lemma add_keys : forall l m, NoDup (map fst m) -> NoDup (map fst (fold_left add l m)).
Proof. induction l as [|kv l IH]; intros m N; [exact N|]. cbn [fold_left]. apply IH. unfold add. now apply set_keys. Qed.
Lemma query_keys : forall q, NoDup (map fst (query q)).
Proof.
  intros q. unfold query. assert (N : NoDup (map fst (@nil (str * list str)))) by constructor. revert N. generalize (@nil (str * list str)).
  induction (split_on "&" q) as [|p l IH]; intros m N; [exact N|]. cbn [fold_left]. apply IH.
  destruct (KeygenModel.parse_pair p); [now apply add_keys|exact N].
Qed.
Lemma vals_set : forall k k' v (m : values), vals k (assoc_set k' v m) = if str_eqb k k' then v else vals k m.
Proof.
  intros k k' v m. unfold vals. destruct (str_eqb k k') eqn:E.
  - apply str_eqb_spec in E as ->. rewrite assoc_set_eq. reflexivity.
  - rewrite assoc_set_neq; [reflexivity|]. apply str_eqb_neq in E. congruence.
Qed.
Lemma vals_add : forall k l m, vals k (fold_left add l m) = vals k m ++ values_of k l.
Proof.
  intros k. induction l as [|[k' v] l IH]; intros m; cbn [fold_left].
  - symmetry. apply app_nil_r.
  - rewrite IH. unfold add. cbn [fst snd]. rewrite vals_set. unfold values_of. cbn [filter fst]. rewrite (str_eqb_sym k' k).
    destruct (str_eqb k k') eqn:E; [|reflexivity]. apply str_eqb_spec in E as ->. cbn [map snd]. rewrite <- app_assoc. reflexivity.
Qed.
Definition pieces (l : list str) : list (str * str) :=
  flat_map (fun p => match KeygenModel.parse_pair p with Some l => l | None => [] end) l.
Lemma vals_query : forall k q, vals k (query q) = values_of k (pieces (split_on "&" q)).
Proof.
  intros k q. unfold query. change (values_of k (pieces (split_on "&" q))) with (vals k [] ++ values_of k (pieces (split_on "&" q))).
  generalize (@nil (str * list str)). induction (split_on "&" q) as [|p l IH]; intros m; cbn [fold_left].
  - symmetry. apply app_nil_r.
  - rewrite IH. unfold pieces. cbn [flat_map]. rewrite values_of_app. destruct (KeygenModel.parse_pair p) as [a|]; [|reflexivity].
    rewrite vals_add, <- app_assoc. reflexivity.
Qed.
Lemma well_formed_pieces : forall q, well_formed q -> pieces (split_on "&" q) = params q.
Proof.
  intros q H. unfold pieces, params. unfold well_formed in H. induction H as [|p l [P1 P2] H IH]; [reflexivity|]. cbn [flat_map]. rewrite IH. f_equal.
  unfold KeygenModel.parse_pair. apply has_char_false in P1. rewrite P1.
  destruct (cut "=" p) as [[k v] f]. destruct P2 as [K V]. destruct (KeygenModel.query_unescape k); [|congruence]. destruct (KeygenModel.query_unescape v); [|congruence].
  destruct (str_eqb p []); reflexivity.
Qed.

(** *** URLs *)

Lemma cut_no : forall c a, ~ In c a -> cut c a = (a, [], false).
Proof. intros c a N. destruct (cut_spec c a) as [(x & y & -> & _)|[_ E]]; [|exact E]. exfalso. apply N. apply in_or_app. right. now left. Qed.
Lemma cut_at : forall c a r, ~ In c a -> cut c (a ++ c :: r) = (a, r, true).
Proof.
  intros c a r. induction a as [|x a IH]; intros N; cbn [app cut]; [rewrite Ascii.eqb_refl; reflexivity|].
  destruct (Ascii.eqb x c) eqn:E; [apply Ascii.eqb_eq in E; subst; exfalso; apply N; now left|].
  rewrite IH; [reflexivity|]. intros I. apply N. now right.
Qed.
Lemma cut_before : forall c s a b f, cut c s = (a, b, f) -> ~ In c a /\ (forall x, In x a -> In x s) /\ (forall x, In x b -> In x s).
Proof.
  intros c s a b f E. destruct (cut_spec c s) as [(x & y & -> & N & E2)|[N E2]]; rewrite E2 in E; injection E as <- <- <-.
  - split; [exact N|]. split; intros z I; apply in_or_app; [now left|right; now right].
  - split; [exact N|]. split; [auto|intros z []].
Qed.

Definition the_values (deflate : str -> str) (cfg : config) (id instant : str) : values :=
  assoc_set (lit "SAMLRequest") [base64 (deflate (request_xml cfg id instant))] (query (query_of (c_sso cfg))).
Lemma request_url_parts : forall deflate cfg id instant, exists frag,
  request_url deflate cfg id instant = page_of (c_sso cfg) ++ lit "?" ++ encode (the_values deflate cfg id instant) ++ frag /\
  (frag = [] \/ exists f, frag = "#"%char :: f) /\ (forall x, In x frag -> x = "#"%char \/ In x (c_sso cfg)).
Proof.
  intros deflate cfg id instant. unfold request_url, page_of, the_values, query_of.
  destruct (cut "#" (c_sso cfg)) as [[u frag] f] eqn:E1. destruct (cut "?" u) as [[base q] g] eqn:E2.
  exists (if str_eqb frag [] then [] else lit "#" ++ frag). split; [reflexivity|].
  apply cut_before in E1 as (_ & _ & B). split.
  - destruct (str_eqb frag []); [now left|right; eexists; reflexivity].
  - intros x I. destruct (str_eqb frag []); [destruct I|]. destruct I as [<-|I]; [now left|right; auto].
Qed.
Lemma page_plain : forall url x, In x (page_of url) -> In x url /\ x <> "#"%char /\ x <> "?"%char.
Proof.
  intros url x. unfold page_of. destruct (cut "#" url) as [[u frag] f] eqn:E1. destruct (cut "?" u) as [[base q] g] eqn:E2. intros I.
  apply cut_before in E1 as (N1 & A & _). apply cut_before in E2 as (N2 & A2 & _).
  split; [auto|]. split; intros ->; [apply N1; auto|contradiction].
Qed.
Lemma request_url_query : forall deflate cfg id instant,
  query_of (request_url deflate cfg id instant) = encode (the_values deflate cfg id instant) /\
  page_of (request_url deflate cfg id instant) = page_of (c_sso cfg).
Proof.
  intros deflate cfg id instant. destruct (request_url_parts deflate cfg id instant) as (frag & E & F & _).
  set (m := the_values deflate cfg id instant) in *.
  assert (N1 : ~ In "#"%char (page_of (c_sso cfg) ++ lit "?" ++ encode m)).
  { rewrite !in_app_iff. intros [I|[I|I]].
    - apply page_plain in I as (_ & I & _). congruence.
    - cbn in I. intuition discriminate.
    - apply encode_plain in I as [I _]. apply I. cbn. tauto. }
  assert (N2 : ~ In "?"%char (page_of (c_sso cfg))) by (intros I; apply page_plain in I as (_ & _ & I); congruence).
  assert (C : exists r f, cut "#" (request_url deflate cfg id instant) = (page_of (c_sso cfg) ++ lit "?" ++ encode m, r, f)).
  { rewrite E. destruct F as [->|[f ->]].
    - rewrite app_nil_r. exists [], false. now apply cut_no.
    - exists f, true. rewrite !app_assoc. rewrite <- (app_assoc (page_of _)). now apply cut_at. }
  destruct C as (r & f & C). unfold query_of at 1, page_of at 1. rewrite C.
  change (lit "?" ++ encode m) with ("?"%char :: encode m). rewrite (cut_at _ _ _ N2). auto.
Qed.

Lemma the_values_keys : forall deflate cfg id instant, NoDup (map fst (the_values deflate cfg id instant)).
Proof. intros. apply set_keys, query_keys. Qed.
Lemma the_values_flat : forall deflate cfg id instant, flat (the_values deflate cfg id instant) <> [].
Proof.
  intros deflate cfg id instant H. pose proof (values_flat (lit "SAMLRequest") _ (the_values_keys deflate cfg id instant)) as V. rewrite H in V.
  unfold the_values in V. rewrite vals_set, str_eqb_refl in V. discriminate V.
Qed.
Lemma request_params : forall deflate cfg id instant k,
  values_of k (params (query_of (request_url deflate cfg id instant))) =
  if str_eqb k (lit "SAMLRequest") then [base64 (deflate (request_xml cfg id instant))]
  else vals k (query (query_of (c_sso cfg))).
Proof.
  intros deflate cfg id instant k. rewrite (proj1 (request_url_query deflate cfg id instant)).
  rewrite params_encode by apply the_values_flat. rewrite values_flat by apply the_values_keys. unfold the_values. apply vals_set.
Qed.

(** The Location. *)
Definition scheme_ok (s : str) : Prop :=
  exists c r, s = c :: r /\ let letter c := let n := N_of_ascii (lower_char c) in ((97 <=? n) && (n <=? 122))%N in
  let other c := let n := N_of_ascii c in ((48 <=? n) && (n <=? 57))%N || has_char c (lit "+-.") in
  letter c = true /\ forallb (fun c => letter c || other c) r = true.
Lemma scheme_char : forall c, ((97 <=? N_of_ascii (lower_char c)) && (N_of_ascii (lower_char c) <=? 122))%N
    || (((48 <=? N_of_ascii c) && (N_of_ascii c <=? 57))%N || has_char c (lit "+-.")) = true -> ~ In c (lit ":?#").
Proof. intros [[] [] [] [] [] [] [] []] H; first [vm_compute in H; discriminate H | cbv; intuition discriminate]. Qed.
Lemma scheme_plain : forall s x, scheme_ok s -> In x s -> ~ In x (lit ":?#").
Proof.
  intros s x (c & r & -> & L & F) [<-|I].
  - apply scheme_char. cbv beta zeta in L. rewrite L. reflexivity.
  - apply scheme_char. rewrite forallb_forall in F. exact (F x I).
Qed.
Lemma has_scheme_spec : forall u, has_scheme u = true -> exists s r, u = s ++ ":"%char :: r /\ scheme_ok s.
Proof.
  intros u H. unfold has_scheme in H. destruct (cut_spec ":" u) as [(a & b & -> & N & E)|[N E]]; rewrite E in H; [|discriminate H].
  exists a, b. split; [reflexivity|]. cbn [andb] in H. destruct a as [|c r]; [discriminate H|]. apply andb_true_iff in H as [H1 H2].
  exists c, r. split; [reflexivity|]. split; assumption.
Qed.
Lemma has_scheme_intro : forall s r, scheme_ok s -> has_scheme (s ++ ":"%char :: r) = true.
Proof.
  intros s r S. assert (N : ~ In ":"%char s) by (intros I; apply (scheme_plain s _ S I); cbn; tauto).
  unfold has_scheme. rewrite (cut_at _ _ _ N). destruct S as (c & t & -> & L & F). cbn [andb]. apply andb_true_iff. split; assumption.
Qed.
Lemma cut_app : forall c a b, ~ In c a -> cut c (a ++ b) = let '(x, y, f) := cut c b in (a ++ x, y, f).
Proof.
  intros c a b. induction a as [|z a IH]; intros N; cbn [app].
  - destruct (cut c b) as [[x y] f]. reflexivity.
  - cbn [cut]. destruct (Ascii.eqb z c) eqn:E; [apply Ascii.eqb_eq in E; subst; exfalso; apply N; now left|].
    rewrite IH by (intros I; apply N; now right). destruct (cut c b) as [[x y] f]. reflexivity.
Qed.
Lemma page_scheme : forall url, has_scheme url = true -> forall r, has_scheme (page_of url ++ r) = true.
Proof.
  intros url H r. apply has_scheme_spec in H as (s & t & -> & S).
  assert (N : forall c, In c (lit "?#") -> ~ In c (s ++ [":"%char])).
  { intros c C I. apply in_app_iff in I as [I|[<-|[]]].
    - apply (scheme_plain s c S I). cbn in C |- *. tauto.
    - cbn in C. intuition discriminate. }
  unfold page_of. replace (s ++ ":"%char :: t) with ((s ++ [":"%char]) ++ t) by (rewrite <- app_assoc; reflexivity).
  rewrite cut_app by (apply N; cbn; tauto). destruct (cut "#" t) as [[x y] f]. rewrite cut_app by (apply N; cbn; tauto).
  destruct (cut "?" x) as [[x2 y2] f2]. rewrite <- !app_assoc. cbn [app]. now apply has_scheme_intro.
Qed.
Lemma hex_escape_ascii : forall s, (forall x, In x s -> (N_of_ascii x < 128)%N) -> RefreshModel.hex_escape s = s.
Proof.
  induction s as [|c s IH]; intros H; [reflexivity|]. unfold RefreshModel.hex_escape in *. cbn [map List.concat].
  assert (L : (N_of_ascii c <? 128)%N = true) by (apply N.ltb_lt, H; now left). rewrite L, IH; [reflexivity|]. intros x I. apply H. now right.
Qed.
Lemma location_request : forall deflate cfg dir id instant, has_scheme (c_sso cfg) = true ->
  Forall (fun c => (32 <= N_of_ascii c < 128)%N) (c_sso cfg) ->
  location dir (request_url deflate cfg id instant) = request_url deflate cfg id instant.
Proof.
  intros deflate cfg dir id instant H A. unfold location.
  destruct (request_url_parts deflate cfg id instant) as (frag & E & _ & F).
  assert (S : has_scheme (request_url deflate cfg id instant) = true) by (rewrite E; now apply page_scheme).
  rewrite S. cbn [orb]. apply hex_escape_ascii. rewrite Forall_forall in A. rewrite E. intros x I. rewrite !in_app_iff in I. destruct I as [I|[I|[I|I]]].
  - apply page_plain in I as (I & _). apply A in I. tauto.
  - destruct I as [<-|[]]. reflexivity.
  - apply encode_plain in I as [_ I]. tauto.
  - destruct (F x I) as [->|J]; [reflexivity|]. apply A in J. tauto.
Qed.

Lemma carried_ascii : forall s, Forall (fun c => (32 <= N_of_ascii c < 128)%N) s -> carried s.
Proof. intros s H. eapply Forall_impl; [|exact H]. intros c [L _]. now left. Qed.
Lemma hex_chars : forall c, forallb (fun x => name_char x && (32 <=? N_of_ascii x)%N) [XfccModel.hex_digit false (N_of_ascii c / 16); XfccModel.hex_digit false (N_of_ascii c mod 16)] = true.
Proof. intros [[] [] [] [] [] [] [] []]; reflexivity. Qed.
Lemma hex_plain : forall s x, In x (hex s) -> name_char x = true /\ (32 <= N_of_ascii x)%N.
Proof.
  intros s x I. unfold hex in I. apply in_concat in I as [b [B I]]. apply in_map_iff in B as [c [<- _]].
  pose proof (hex_chars c) as P. rewrite forallb_forall in P. specialize (P x I). apply andb_true_iff in P as [P1 P2].
  split; [exact P1|]. now apply N.leb_le.
Qed.
Lemma carried_hex : forall s, carried (hex s).
Proof. intros s. apply Forall_forall. intros x I. left. now apply hex_plain in I as [_ I]. Qed.
