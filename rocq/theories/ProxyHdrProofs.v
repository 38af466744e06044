(** Proofs about PROXY protocol headers. *)
From Coq Require Import DecimalString DecimalN DecimalPos Lia.
From Verif Require Import Base IPModel ProxyHdrModel ProxyHdrSpec.

Lemma some_inj {A} (x y : A) : Some x = Some y -> x = y.
Proof. congruence. Qed.

(** ** Decimal numbers *)

Lemma dec_nonempty n : dec n <> [].
Proof.
  unfold dec. destruct n as [|p]; [discriminate|].
  cbn [N.to_uint]. pose proof (Unsigned.to_uint_nonnil p) as H.
  destruct (Pos.to_uint p); cbn; congruence.
Qed.

Lemma dec_string n : string_of_list_ascii (dec n) = NilEmpty.string_of_uint (N.to_uint n).
Proof. apply string_of_list_ascii_of_string. Qed.

Lemma undec_dec max n : (n <= max)%N -> undec max (dec n) = Some n.
Proof.
  intros H. unfold undec. pose proof (dec_nonempty n) as Hn.
  destruct (dec n) eqn:E; [congruence|]. rewrite <- E, dec_string, NilEmpty.usu.
  rewrite DecimalN.Unsigned.of_to.
  destruct (N.leb_spec n max); [reflexivity|lia].
Qed.

Definition is_digit (c : ascii) : Prop := (48 <= N_of_ascii c <= 57)%N.

Lemma uint_digits u c : In c (list_ascii_of_string (NilEmpty.string_of_uint u)) -> is_digit c.
Proof.
  unfold is_digit. induction u; cbn; intros H; [tauto|..]; destruct H as [<-|H]; auto; cbn; lia.
Qed.

Lemma dec_digits n c : In c (dec n) -> is_digit c.
Proof. apply uint_digits. Qed.

Lemma dec_no c n : ~ is_digit c -> ~ In c (dec n).
Proof. intros H I. exact (H (dec_digits _ _ I)). Qed.

Lemma sp_no_digit : ~ is_digit sp. Proof. unfold is_digit. cbn. lia. Qed.
Lemma dot_no_digit : ~ is_digit dot. Proof. unfold is_digit. cbn. lia. Qed.
Lemma lf_no_digit : ~ is_digit lf. Proof. unfold is_digit. cbn. lia. Qed.
Lemma cr_no_digit : ~ is_digit cr. Proof. unfold is_digit. cbn. lia. Qed.
Lemma colon_no_digit : ~ is_digit ":"%char. Proof. unfold is_digit. cbn. lia. Qed.
#[local] Hint Resolve sp_no_digit dot_no_digit lf_no_digit cr_no_digit colon_no_digit dec_no : core.

(** ** Addresses in text *)

Lemma in_join c d l : In c (join d l) -> c = d \/ exists p, In p l /\ In c p.
Proof.
  induction l as [|x l IH]; cbn [join]; [intros []|].
  destruct l as [|y l]; [intros H; right; exists x; cbn; auto|].
  rewrite in_app_iff. intros [H|[H|H]].
  - right. exists x. cbn; auto.
  - auto.
  - destruct (IH H) as [?|[p [? ?]]]; [auto|]. right. exists p. cbn [In]. auto.
Qed.

Lemma dotted_no c a : ~ is_digit c -> c <> dot -> ~ In c (dotted a).
Proof.
  intros H1 H2 H. apply in_join in H as [H|[p [Hp H]]]; [congruence|].
  apply in_map_iff in Hp as [n [<- _]]. exact (dec_no c n H1 H).
Qed.

Lemma all_some_map_undec a : (forall b, In b a -> (b < 256)%N) ->
  all_some (map (undec 255) (map dec a)) = Some a.
Proof.
  induction a as [|x a IH]; intros H; [reflexivity|].
  cbn [map all_some]. rewrite undec_dec by (specialize (H x (or_introl eq_refl)); lia).
  rewrite IH; [reflexivity|]. intros b Hb. apply H. right; exact Hb.
Qed.

Lemma undotted_dotted a : List.length a = 4%nat -> (forall b, In b a -> (b < 256)%N) ->
  undotted (dotted a) = Some a.
Proof.
  intros L H. unfold undotted, dotted. rewrite split_join.
  - rewrite all_some_map_undec by exact H. rewrite L. reflexivity.
  - destruct a; discriminate.
  - apply Forall_forall. intros p Hp. apply in_map_iff in Hp as [n [<- _]]. auto.
Qed.

Lemma to4_length a b : to4 a = Some b -> List.length b = 4%nat.
Proof.
  unfold to4. destruct (Nat.eqb_spec (List.length a) 4); [intros [= <-]; auto|].
  destruct (Nat.eqb_spec (List.length a) 16); cbn [andb]; [|discriminate].
  destruct (nlist_eqb _ _); [|discriminate]. intros E. injection E as <-. change (List.length (skipn 12 a) = 4%nat). rewrite skipn_length. lia.
Qed.

Lemma to4_bytes a b : to4 a = Some b -> incl b a.
Proof.
  unfold to4. destruct (List.length a =? 4); [intros [= <-]; apply incl_refl|].
  destruct (_ && _); [|discriminate]. intros [= <-] x Hx.
  rewrite <- (firstn_skipn 12 a). apply in_or_app; auto.
Qed.

Lemma to4_ok a b : ip_ok a -> to4 a = Some b -> ip_ok b /\ List.length b = 4%nat.
Proof.
  intros [H1 H2] E. pose proof (to4_length _ _ E). split; [split; auto|assumption].
  intros x Hx. apply H2. exact (to4_bytes _ _ E x Hx).
Qed.

Lemma to4_idem a b : to4 a = Some b -> to4 b = Some b.
Proof. intros E. unfold to4. rewrite (to4_length _ _ E). reflexivity. Qed.

Lemma canon_to4 a b : to4 a = Some b -> canon b = canon a.
Proof. intros E. unfold canon. rewrite (to4_idem _ _ E), E. reflexivity. Qed.

Lemma nlist_eqb_refl l : nlist_eqb l l = true.
Proof. induction l; cbn; [reflexivity|]. rewrite N.eqb_refl. exact IHl. Qed.

Lemma to16_canon a b : to16 a = Some b -> canon b = canon a.
Proof.
  unfold to16. destruct (Nat.eqb_spec (List.length a) 4) as [L|L].
  - intros E%some_inj. subst b. unfold canon, to4. rewrite app_length, L. cbn [v4_prefix List.length Nat.add Nat.eqb].
    change (Datatypes.length v4_prefix) with 12%nat. cbn [Nat.add Nat.eqb andb].
    change 12%nat with (List.length v4_prefix).
    rewrite firstn_app, firstn_all, Nat.sub_diag, firstn_O, app_nil_r, nlist_eqb_refl.
    rewrite skipn_app, skipn_all, Nat.sub_diag. reflexivity.
  - destruct (_ =? 16); [intros [= <-]; reflexivity|discriminate].
Qed.

Lemma to16_ok a b : ip_ok a -> to16 a = Some b -> ip_ok b /\ List.length b = 16%nat.
Proof.
  intros [H1 H2]. unfold to16. destruct (Nat.eqb_spec (List.length a) 4) as [L|L].
  - intros E%some_inj. subst b. split; [split|].
    + right. rewrite app_length, L. reflexivity.
    + intros x Hx. apply in_app_or in Hx as [Hx|Hx]; [|auto].
      cbn in Hx. repeat destruct Hx as [<-|Hx]; try lia; tauto.
    + rewrite app_length, L. reflexivity.
  - destruct (Nat.eqb_spec (List.length a) 16) as [L6|]; [|discriminate]. intros [= <-]. split; [split; auto|auto].
Qed.

Lemma to16_some a : ip_ok a -> exists b, to16 a = Some b.
Proof. intros [[L|L] _]; unfold to16; rewrite L; cbn; eauto. Qed.

Section Text.
  Context (s6 : ip -> str) (p6 : str -> option ip) (T6 : text6 s6 p6).

  Lemma parse_ip_string a : ip_ok a -> parse_ip p6 (ip_string s6 a) = Some (canon a).
  Proof.
    intros H. unfold ip_string, canon, parse_ip. destruct (to4 a) as [b|] eqn:E.
    - assert (has_char ":"%char (dotted b) = false) as ->.
      { apply has_char_false. apply dotted_no; auto. discriminate. }
      destruct (to4_ok _ _ H E) as [[_ ?] ?]. apply undotted_dotted; auto.
    - destruct (T6 a H E) as [P [C _]]. apply has_char_spec in C. rewrite C. exact P.
  Qed.

  Lemma ip_string_no_sp a : ip_ok a -> ~ In sp (ip_string s6 a).
  Proof.
    intros H. unfold ip_string. destruct (to4 a) eqn:E; [apply dotted_no; auto; discriminate|].
    apply (T6 a H E).
  Qed.
  Lemma ip_string_no_lf a : ip_ok a -> ~ In lf (ip_string s6 a).
  Proof.
    intros H. unfold ip_string. destruct (to4 a) eqn:E; [apply dotted_no; auto; discriminate|].
    apply (T6 a H E).
  Qed.

  Lemma cut_app c a b : ~ In c a -> cut c (a ++ c :: b) = (a, b, true).
  Proof.
    induction a as [|x a IH]; intros H.
    - cbn. rewrite Ascii.eqb_refl. reflexivity.
    - cbn. destruct (Ascii.eqb_spec x c) as [->|_]; [cbn in H; tauto|].
      rewrite IH; [reflexivity|]. cbn in H; tauto.
  Qed.

  Lemma strip_cr_app a : strip_cr (a ++ [cr]) = Some a.
  Proof. unfold strip_cr. rewrite rev_app_distr. cbn. rewrite rev_involutive. reflexivity. Qed.

  (** The line that version 1 writes, and what a reader makes of it. *)
  Lemma parse_line fam a b p q rest :
    (fam = lit "TCP4" \/ fam = lit "TCP6") -> ip_ok a -> ip_ok b -> (p < 65536)%N -> (q < 65536)%N ->
    pp_parse p6 ((lit "PROXY " ++ fam ++ [sp] ++ ip_string s6 a ++ [sp] ++ ip_string s6 b ++ [sp] ++
                  dec p ++ [sp] ++ dec q ++ [cr; lf]) ++ rest) =
    PPProxy {| pp_stream := true; pp_src := canon a; pp_dst := canon b; pp_sport := p; pp_dport := q; pp_tlvs := [] |} rest.
  Proof.
    intros Hf Ha Hb Hp Hq.
    pose proof (ip_string_no_sp a Ha) as Sa. pose proof (ip_string_no_sp b Hb) as Sb.
    pose proof (ip_string_no_lf a Ha) as La. pose proof (ip_string_no_lf b Hb) as Lb.
    set (ta := ip_string s6 a) in *. set (tb := ip_string s6 b) in *.
    set (line := lit "PROXY" ++ [sp] ++ fam ++ [sp] ++ ta ++ [sp] ++ tb ++ [sp] ++ dec p ++ [sp] ++ dec q).
    replace ((lit "PROXY " ++ fam ++ [sp] ++ ta ++ [sp] ++ tb ++ [sp] ++ dec p ++ [sp] ++ dec q ++ [cr; lf]) ++ rest)
      with ((line ++ [cr]) ++ lf :: rest)
      by (unfold line; change (lit "PROXY ") with (lit "PROXY" ++ [sp]); rewrite <- !app_assoc; reflexivity).
    assert (N : ~ In lf (line ++ [cr])).
    { unfold line. rewrite !in_app_iff.
      assert (~ In lf fam) by (destruct Hf; subst fam; cbn; intuition discriminate).
      assert (~ In lf [sp]) by (cbn; intuition discriminate).
      assert (~ In lf [cr]) by (cbn; intuition discriminate).
      assert (~ In lf (lit "PROXY")) by (cbn; intuition discriminate).
      pose proof (dec_no lf p lf_no_digit). pose proof (dec_no lf q lf_no_digit). tauto. }
    unfold pp_parse.
    assert (P : has_prefix ((line ++ [cr]) ++ lf :: rest) (lit "PROXY") = true) by reflexivity.
    rewrite P. unfold pp_parse_v1. rewrite (cut_app lf _ _ N). cbn [negb].
    rewrite strip_cr_app.
    assert (S : split_on sp line = [lit "PROXY"; fam; ta; tb; dec p; dec q]).
    { unfold line. cbn [app].
      rewrite split_on_app by (cbn; intuition discriminate).
      rewrite split_on_app by (destruct Hf; subst fam; cbn; intuition discriminate).
      rewrite split_on_app by exact Sa. rewrite split_on_app by exact Sb.
      rewrite split_on_app by auto. rewrite split_on_no_char by auto. reflexivity. }
    rewrite S.
    change (str_eqb (lit "PROXY") (lit "PROXY")) with true. cbn [negb].
    assert (str_eqb fam (lit "UNKNOWN") = false) as -> by (destruct Hf; subst fam; reflexivity).
    assert (str_eqb fam (lit "TCP4") || str_eqb fam (lit "TCP6") = true) as -> by (destruct Hf; subst fam; reflexivity).
    unfold ta, tb. rewrite !parse_ip_string by assumption.
    rewrite !undec_dec by lia. reflexivity.
  Qed.

  Lemma format_v1_parse c hdr rest : endpoints_ok c -> is_tcp (cl_remote c) = true ->
    format_v1 s6 (transport_of (cl_remote c) (cl_local c)) (cl_remote c) (cl_local c) = Some hdr ->
    pp_parse p6 (hdr ++ rest) =
    PPProxy {| pp_stream := true; pp_src := canon (addr_ip (cl_remote c)); pp_dst := canon (addr_ip (cl_local c));
               pp_sport := addr_port (cl_remote c); pp_dport := addr_port (cl_local c); pp_tlvs := [] |} rest.
  Proof.
    intros [Hr [Hl Hs]] Ht. destruct (cl_remote c) as [a p| |]; cbn in Ht; try discriminate.
    destruct (cl_local c) as [b q| |]; cbn in Hs; try discriminate.
    cbn [addr_ok] in Hr, Hl. destruct Hr as [Ha Hp], Hl as [Hb Hq].
    cbn [transport_of]. unfold format_v1. cbn [addr_ip addr_port].
    destruct (to4 a) as [a4|] eqn:E.
    - destruct (to4 b) as [b4|] eqn:Eb; [|discriminate]. intros [= <-].
      destruct (to4_ok _ _ Ha E) as [Oa _]. destruct (to4_ok _ _ Hb Eb) as [Ob _].
      pose proof (parse_line (lit "TCP4") a4 b4 p q rest (or_introl eq_refl) Oa Ob Hp Hq) as P.
      rewrite (canon_to4 _ _ E), (canon_to4 _ _ Eb) in P. exact P.
    - destruct Ha as [[La|La] Hba].
      { unfold to4 in E. rewrite La in E. discriminate. }
      rewrite La. cbn [Nat.eqb]. assert (ip_ok a) as Ha by (split; auto).
      destruct (to16_some _ Ha) as [a6 E6]. destruct (to16_some _ Hb) as [b6 Eb6]. rewrite E6, Eb6.
      intros [= <-].
      destruct (to16_ok _ _ Ha E6) as [Oa _]. destruct (to16_ok _ _ Hb Eb6) as [Ob _].
      pose proof (parse_line (lit "TCP6") a6 b6 p q rest (or_intror eq_refl) Oa Ob Hp Hq) as P.
      rewrite (to16_canon _ _ E6), (to16_canon _ _ Eb6) in P. exact P.
  Qed.
End Text.

(** ** Version 2 *)

Lemma u8_chr n : (n < 256)%N -> u8 (chr n) = n.
Proof. intros H. apply N_ascii_embedding. exact H. Qed.

Lemma u16_be16 n : (n < 65536)%N -> u16 (chr (n / 256)) (chr (n mod 256)) = n.
Proof.
  intros H. unfold u16. rewrite !u8_chr.
  - symmetry. apply N.div_mod'.
  - apply N.mod_upper_bound. lia.
  - apply N.div_lt_upper_bound; lia.
Qed.

Lemma map_u8_chr a : (forall b, In b a -> (b < 256)%N) -> map u8 (map chr a) = a.
Proof.
  intros H. rewrite map_map. rewrite <- (map_id a) at 2. apply map_ext_in.
  intros b Hb. apply u8_chr. auto.
Qed.

Lemma tlvs_parse l s fuel : join_tlvs l = Some s -> (forall t, In t l -> (tlv_type t < 256)%N) ->
  (List.length l < fuel)%nat ->
  pp_tlv_list fuel s = Some (map (fun t => (tlv_type t, tlv_value t)) l).
Proof.
  revert s fuel. induction l as [|t l IH]; intros s fuel J H F.
  - cbn in J. injection J as <-. destruct fuel; [lia|]. reflexivity.
  - cbn [join_tlvs] in J.
    destruct (N.ltb_spec 65535 (N.of_nat (List.length (tlv_value t)))) as [|L]; [discriminate|].
    destruct (join_tlvs l) as [r|] eqn:E; [|discriminate]. injection J as <-.
    destruct fuel as [|fuel]; [cbn in F; lia|].
    cbn [app be16 pp_tlv_list]. rewrite u16_be16 by lia. rewrite Nat2N.id.
    rewrite app_length.
    destruct (Nat.ltb_spec (List.length (tlv_value t) + List.length r) (List.length (tlv_value t))); [lia|].
    rewrite skipn_app, skipn_all, Nat.sub_diag. cbn [skipn app].
    rewrite (IH r fuel); [|reflexivity|intros; apply H; right; auto|cbn in F; lia].
    rewrite firstn_app, firstn_all, Nat.sub_diag. cbn [firstn]. rewrite app_nil_r.
    rewrite u8_chr by (apply H; left; reflexivity). reflexivity.
Qed.

Lemma join_tlvs_length l s : join_tlvs l = Some s -> (List.length l <= List.length s)%nat.
Proof.
  revert s. induction l as [|t l IH]; intros s J; cbn in *; [lia|].
  destruct (_ <? _)%N; [discriminate|]. destruct (join_tlvs l); [|discriminate].
  injection J as <-. cbn. rewrite app_length. specialize (IH _ eq_refl). lia.
Qed.

Lemma v2_addrs fam stream k (a b : ip) p q tlvs l rest :
  (u8 (chr fam) = fam /\ (fam = 17 /\ stream = true /\ k = 4%nat \/ fam = 18 /\ stream = false /\ k = 4%nat \/
    fam = 33 /\ stream = true /\ k = 16%nat \/ fam = 34 /\ stream = false /\ k = 16%nat))%N ->
  List.length a = k -> List.length b = k ->
  (forall x, In x a -> (x < 256)%N) -> (forall x, In x b -> (x < 256)%N) ->
  (p < 65536)%N -> (q < 65536)%N ->
  join_tlvs l = Some tlvs -> (forall t, In t l -> (tlv_type t < 256)%N) ->
  let addrs := map chr a ++ map chr b ++ be16 p ++ be16 q in
  let n := N.of_nat (List.length addrs + List.length tlvs) in
  (n <= 65535)%N ->
  pp_parse_v2 ([chr 33; chr fam] ++ be16 n ++ addrs ++ tlvs ++ rest) =
  PPProxy {| pp_stream := stream; pp_src := a; pp_dst := b; pp_sport := p; pp_dport := q;
             pp_tlvs := map (fun t => (tlv_type t, tlv_value t)) l |} rest.
Proof.
  intros [Hf8 Hf] La Lb Ha Hb Hp Hq J Ht addrs n Hn.
  unfold pp_parse_v2, be16 at 1. cbn [app]. rewrite u16_be16 by lia. 
  assert (Nn : N.to_nat n = List.length (addrs ++ tlvs)) by (unfold n; rewrite Nat2N.id, app_length; reflexivity).
  rewrite Nn.
  rewrite (app_assoc addrs), (app_length (addrs ++ tlvs)).
  destruct (Nat.ltb_spec (List.length (addrs ++ tlvs) + List.length rest) (List.length (addrs ++ tlvs))); [lia|].
  rewrite firstn_app, firstn_all, Nat.sub_diag, firstn_O, app_nil_r.
  rewrite skipn_app, skipn_all, Nat.sub_diag. cbn [skipn app].
  change (u8 (chr 33) =? 32)%N with false. change (u8 (chr 33) =? 33)%N with true. cbn match.
  rewrite Hf8.
  assert (PL : pp_payload stream k (addrs ++ tlvs) rest =
    PPProxy {| pp_stream := stream; pp_src := a; pp_dst := b; pp_sport := p; pp_dport := q;
             pp_tlvs := map (fun t => (tlv_type t, tlv_value t)) l |} rest).
  { unfold pp_payload, addrs. rewrite <- !app_assoc.
    assert (Lca : List.length (map chr a) = k) by (rewrite map_length; exact La).
    assert (Lcb : List.length (map chr b) = k) by (rewrite map_length; exact Lb).
    assert (F : forall x y : str, List.length x = k -> firstn k (x ++ y) = x).
    { intros x y <-. rewrite firstn_app, firstn_all, Nat.sub_diag, firstn_O, app_nil_r. reflexivity. }
    rewrite (F _ _ Lca).
    assert (S1 : skipn k (map chr a ++ map chr b ++ be16 p ++ be16 q ++ tlvs) = map chr b ++ be16 p ++ be16 q ++ tlvs).
    { rewrite <- Lca. rewrite skipn_app, skipn_all, Nat.sub_diag. reflexivity. }
    rewrite S1, (F _ _ Lcb).
    assert (S2 : skipn (k + k) (map chr a ++ map chr b ++ be16 p ++ be16 q ++ tlvs) = be16 p ++ be16 q ++ tlvs).
    { rewrite app_assoc. replace (k + k)%nat with (List.length (map chr a ++ map chr b)) by (rewrite app_length; lia).
      rewrite skipn_app, skipn_all, Nat.sub_diag. reflexivity. }
    rewrite S2. unfold be16. cbn [app]. rewrite !u16_be16 by assumption.
    rewrite (tlvs_parse l tlvs) by (try assumption; pose proof (join_tlvs_length _ _ J); lia).
    rewrite !map_u8_chr by assumption. reflexivity. }
  destruct Hf as [[-> [-> ->]]|[[-> [-> ->]]|[[-> [-> ->]]|[-> [-> ->]]]]]; cbn [N.eqb Pos.eqb]; exact PL.
Qed.

Lemma sig_prefix s : has_prefix (sig_v2 ++ s) (lit "PROXY") = false /\
  has_prefix (sig_v2 ++ s) pp_signature = true /\ skipn 12 (sig_v2 ++ s) = s.
Proof. repeat split. Qed.

Lemma client_tlv_types c t : In t (client_tlvs c) -> (tlv_type t < 256)%N.
Proof.
  unfold client_tlvs. rewrite in_app_iff.
  destruct (str_eqb _ _), (str_eqb _ _); cbn; intuition (subst; cbn; lia).
Qed.

Definition info_of (c : client) (l : list (N * str)) (i : pp_info) : Prop :=
  pp_stream i = is_tcp (cl_remote c) /\
  same_ip (pp_src i) (addr_ip (cl_remote c)) /\ pp_sport i = addr_port (cl_remote c) /\
  same_ip (pp_dst i) (addr_ip (cl_local c)) /\ pp_dport i = addr_port (cl_local c) /\
  pp_tlvs i = l.

Lemma canon_canon a : canon (canon a) = canon a.
Proof.
  unfold canon at 2 3. destruct (to4 a) as [b|] eqn:E.
  - unfold canon. rewrite (to4_idem _ _ E). reflexivity.
  - unfold canon. rewrite E. reflexivity.
Qed.

Lemma format_v2_parse p6 c tlvs hdr rest : endpoints_ok c ->
  join_tlvs (client_tlvs c) = Some tlvs ->
  format_v2 (transport_of (cl_remote c) (cl_local c)) (cl_remote c) (cl_local c) tlvs = Some hdr ->
  exists i, pp_parse p6 (hdr ++ rest) = PPProxy i rest /\
    info_of c (map (fun t => (tlv_type t, tlv_value t)) (client_tlvs c)) i.
Proof.
  intros [Hr [Hl Hs]] J.
  assert (G : forall t fam stream k a b p q hdr,
    transport_byte t = fam ->
    (u8 (chr fam) = fam /\ (fam = 17 /\ stream = true /\ k = 4%nat \/ fam = 18 /\ stream = false /\ k = 4%nat \/
      fam = 33 /\ stream = true /\ k = 16%nat \/ fam = 34 /\ stream = false /\ k = 16%nat))%N ->
    ip_ok a -> ip_ok b -> List.length a = k -> List.length b = k -> (p < 65536)%N -> (q < 65536)%N ->
    (let addrs := map chr a ++ map chr b ++ be16 p ++ be16 q in
     let n := N.of_nat (List.length addrs + List.length tlvs) in
     if (65535 <? n)%N then None
     else Some (sig_v2 ++ [chr 33; chr (transport_byte t)] ++ be16 n ++ addrs ++ tlvs)) = Some hdr ->
    pp_parse p6 (hdr ++ rest) = PPProxy {| pp_stream := stream; pp_src := a; pp_dst := b; pp_sport := p; pp_dport := q;
             pp_tlvs := map (fun t => (tlv_type t, tlv_value t)) (client_tlvs c) |} rest).
  { intros t fam stream k a b p q h Ht Hf [_ Ha] [_ Hb] La Lb Hp Hq. cbv zeta. rewrite Ht.
    destruct (N.ltb_spec 65535 (N.of_nat (List.length (map chr a ++ map chr b ++ be16 p ++ be16 q) + List.length tlvs))) as [|Hn];
      [discriminate|]. intros E%some_inj. subst h.
    rewrite <- app_assoc.
    match goal with |- pp_parse p6 (sig_v2 ++ ?X) = _ => destruct (sig_prefix X) as [S1 [S2 S3]] end.
    unfold pp_parse. rewrite S1, S2, S3.
    pose proof (v2_addrs fam stream k a b p q tlvs (client_tlvs c) rest Hf La Lb Ha Hb Hp Hq J (client_tlv_types c) Hn) as V.
    cbv zeta in V. rewrite <- V. f_equal. rewrite <- !app_assoc. reflexivity. }
  unfold format_v2, info_of, same_ip.
  destruct (cl_remote c) as [a p|a p|], (cl_local c) as [b q|b q|]; cbn [addr_ok is_tcp] in *; try discriminate; try tauto;
    destruct Hr as [Ha Hp], Hl as [Hb Hq]; cbn [transport_of addr_ip addr_port].
  - destruct (to4 a) as [a4|] eqn:E.
    + destruct (to4 b) as [b4|] eqn:Eb; [|discriminate]. intros F.
      destruct (to4_ok _ _ Ha E) as [Oa ?]. destruct (to4_ok _ _ Hb Eb) as [Ob ?].
      eexists. split.
      { apply (G TCPv4 17%N true 4%nat a4 b4 p q hdr); try assumption; try reflexivity. split; [reflexivity|tauto]. }
      cbn. rewrite (canon_to4 _ _ E), (canon_to4 _ _ Eb). repeat split.
    + destruct Ha as [[La|La] Hba]; [unfold to4 in E; rewrite La in E; discriminate|].
      rewrite La. cbn [Nat.eqb]. assert (ip_ok a) as Ha by (split; auto).
      destruct (to16_some _ Ha) as [a6 E6]. destruct (to16_some _ Hb) as [b6 Eb6]. rewrite E6, Eb6. intros F.
      destruct (to16_ok _ _ Ha E6) as [Oa ?]. destruct (to16_ok _ _ Hb Eb6) as [Ob ?].
      eexists. split.
      { apply (G TCPv6 33%N true 16%nat a6 b6 p q hdr); try assumption; try reflexivity. split; [reflexivity|tauto]. }
      cbn. rewrite (to16_canon _ _ E6), (to16_canon _ _ Eb6). repeat split.
  - destruct (to4 a) as [a4|] eqn:E.
    + destruct (to4 b) as [b4|] eqn:Eb; [|discriminate]. intros F.
      destruct (to4_ok _ _ Ha E) as [Oa ?]. destruct (to4_ok _ _ Hb Eb) as [Ob ?].
      eexists. split.
      { apply (G UDPv4 18%N false 4%nat a4 b4 p q hdr); try assumption; try reflexivity. split; [reflexivity|tauto]. }
      cbn. rewrite (canon_to4 _ _ E), (canon_to4 _ _ Eb). repeat split.
    + destruct Ha as [[La|La] Hba]; [unfold to4 in E; rewrite La in E; discriminate|].
      rewrite La. cbn [Nat.eqb]. assert (ip_ok a) as Ha by (split; auto).
      destruct (to16_some _ Ha) as [a6 E6]. destruct (to16_some _ Hb) as [b6 Eb6]. rewrite E6, Eb6. intros F.
      destruct (to16_ok _ _ Ha E6) as [Oa ?]. destruct (to16_ok _ _ Hb Eb6) as [Ob ?].
      eexists. split.
      { apply (G UDPv6 34%N false 16%nat a6 b6 p q hdr); try assumption; try reflexivity. split; [reflexivity|tauto]. }
      cbn. rewrite (to16_canon _ _ E6), (to16_canon _ _ Eb6). repeat split.
Qed.
