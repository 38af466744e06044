(** Lemmas about ScriptModel: JSON and forms. *)
From Coq Require Import Lia.
From Verif Require Import Base XfccModel OcspGetModel PasskeyModel PasskeyHttpModel ScriptModel ScriptSpec.
From Verif Require JwksModel KeygenModel ProxyHdrModel.
Open Scope list_scope.
Open Scope N_scope.

(** ** Strings *)

Lemma js_read : forall c tail, read_string (js_escape c ++ tail) = match read_string tail with Some (t, rest) => Some (c :: t, rest) | None => None end.
Proof. intros [[] [] [] [] [] [] [] []] tail; reflexivity. Qed.
Lemma go_read : forall c tail, read_string (go_escape c ++ tail) = match read_string tail with Some (t, rest) => Some (c :: t, rest) | None => None end.
Proof. intros [[] [] [] [] [] [] [] []] tail; reflexivity. Qed.
Lemma writer_read : forall esc c tail, writer esc -> read_string (esc c ++ tail) = match read_string tail with Some (t, rest) => Some (c :: t, rest) | None => None end.
Proof. intros esc c tail [ -> | -> ]; [apply js_read|apply go_read]. Qed.
Lemma string_read : forall esc s rest, writer esc -> read_string (List.concat (map esc s) ++ dquote :: rest) = Some (s, rest).
Proof.
  intros esc s rest W. induction s as [|c s IH]; [reflexivity|].
  cbn [map List.concat]. rewrite <- app_assoc, writer_read, IH by exact W. reflexivity.
Qed.

(** ** Values *)

Fixpoint jsize (v : json) : nat :=
  match v with
  | JArr l => S (list_sum (map (fun x => S (jsize x)) l))
  | JObj l => S (list_sum (map (fun kv => S (jsize (snd kv))) l))
  | _ => 1
  end.

Definition stops (rest : str) : Prop := match rest with c :: _ => num_char c = false | [] => True end.

Lemma take_number_app : forall n rest, forallb num_char n = true -> stops rest -> take_number (n ++ rest) = (n, rest).
Proof.
  induction n as [|c n IH]; intros rest H S; cbn [app take_number].
  - destruct rest as [|c r]; [reflexivity|]. cbn in S |- *. rewrite S. reflexivity.
  - cbn in H. apply andb_true_iff in H as [H1 H2]. rewrite H1, IH; auto.
Qed.

Lemma number_head : forall n, number n = true -> exists c r, n = c :: r /\ white c = false /\ Ascii.eqb c dquote = false /\
  Ascii.eqb c "[" = false /\ Ascii.eqb c "{" = false /\ Ascii.eqb c "]" = false /\
  Ascii.eqb c "n" = false /\ Ascii.eqb c "t" = false /\ Ascii.eqb c "f" = false.
Proof.
  intros [|c r] H; [discriminate|]. exists c, r. split; [reflexivity|].
  destruct c as [[] [] [] [] [] [] [] []]; cbn in H; try discriminate H; repeat split; reflexivity.
Qed.

Lemma print_head : forall esc v, valid v = true -> exists c r, print esc v = c :: r /\ white c = false /\ Ascii.eqb c "]" = false.
Proof.
  intros esc [|[]|n|s|l|l] V; cbn [print] in *; try (eexists; eexists; split; [reflexivity|split; reflexivity]).
  cbn in V. apply andb_true_iff in V as [V _]. destruct (number_head _ V) as (c & r & -> & A & B & C & D & E & _).
  exists c, r. auto.
Qed.

Lemma prefix_no : forall c r p x, Ascii.eqb c x = false -> has_prefix (c :: r) (x :: p) = false.
Proof. intros c r p x H. cbn. rewrite ?H. rewrite ?(Ascii.eqb_sym x c), ?H. reflexivity. Qed.

Definition reads (esc : ascii -> str) (v : json) : Prop :=
  forall fuel rest, (jsize v <= fuel)%nat -> stops rest -> read_value fuel (print esc v ++ rest) = Some (v, rest).

Lemma elements_read : forall esc l, l <> [] -> Forall (fun v => valid v = true /\ reads esc v) l ->
  forall fuel rest, (list_sum (map (fun x => S (jsize x)) l) <= fuel)%nat ->
  read_elements fuel (join "," (map (print esc) l) ++ "]"%char :: rest) = Some (l, rest).
Proof.
  intros esc l N F. induction F as [|v l [V R] F IH]; [congruence|]. intros fuel rest L.
  cbn [map] in L |- *. cbn [list_sum fold_right] in L. change (fold_right Nat.add 0%nat) with list_sum in L.
  destruct fuel as [|f]; [lia|]. cbn [read_elements].
  destruct l as [|w l].
  - cbn [map join]. rewrite R; [reflexivity|lia|reflexivity].
  - rewrite join_cons by discriminate. rewrite <- app_assoc. cbn [app].
    rewrite R; [|lia|reflexivity]. cbn [skip]. change (white ",") with false. cbn [Ascii.eqb].
    change (Ascii.eqb "," "]") with false. change (Ascii.eqb "," ",") with true. cbv iota.
    rewrite IH; [reflexivity|discriminate|lia].
Qed.

Lemma members_read : forall esc l, writer esc -> l <> [] -> Forall (fun kv => valid (snd kv) = true /\ reads esc (snd kv)) l ->
  forall fuel rest, (list_sum (map (fun kv => S (jsize (snd kv))) l) <= fuel)%nat ->
  read_members fuel (join "," (map (fun kv => (dquote :: List.concat (map esc (fst kv)) ++ [dquote]) ++ ":"%char :: print esc (snd kv)) l) ++ "}"%char :: rest) = Some (l, rest).
Proof.
  intros esc l W N F. induction F as [|[k v] l [V R] F IH]; [congruence|]. intros fuel rest L.
  cbn [map fst snd] in L, V, R |- *. cbn [list_sum fold_right] in L. change (fold_right Nat.add 0%nat) with list_sum in L.
  destruct fuel as [|f]; [lia|]. cbn [read_members].
  assert (J : exists tail,
    join "," (((dquote :: List.concat (map esc k) ++ [dquote]) ++ ":"%char :: print esc v) ::
      map (fun kv => (dquote :: List.concat (map esc (fst kv)) ++ [dquote]) ++ ":"%char :: print esc (snd kv)) l) ++ "}"%char :: rest =
    dquote :: List.concat (map esc k) ++ dquote :: ":"%char :: print esc v ++ tail /\
    ((l = [] /\ tail = "}"%char :: rest) \/
     (l <> [] /\ tail = ","%char :: join "," (map (fun kv => (dquote :: List.concat (map esc (fst kv)) ++ [dquote]) ++ ":"%char :: print esc (snd kv)) l) ++ "}"%char :: rest))).
  { destruct l as [|w l].
    - eexists. split; [|left; split; reflexivity]. cbn [map join]. cbn [app]. rewrite <- !app_assoc. reflexivity.
    - eexists. split; [|right; split; [discriminate|reflexivity]].
      rewrite join_cons by discriminate. cbn [app]. rewrite <- !app_assoc. cbn [app]. rewrite <- ?app_assoc. reflexivity. }
  destruct J as (tail & -> & T). cbn [skip]. change (white dquote) with false. cbv iota. rewrite Ascii.eqb_refl. cbn [negb].
  rewrite string_read by exact W. cbn [skip]. change (white ":") with false. cbv iota.
  change (Ascii.eqb ":" ":") with true. cbn [negb].
  destruct T as [[ -> -> ] | [Nl -> ]].
  - rewrite R; [reflexivity|lia|reflexivity].
  - rewrite R; [|lia|reflexivity]. cbn [skip]. change (white ",") with false. cbv iota.
    change (Ascii.eqb "," "}") with false. change (Ascii.eqb "," ",") with true. cbv iota.
    rewrite IH; [reflexivity|exact Nl|lia].
Qed.

Lemma value_read : forall esc, writer esc -> forall n v, (jsize v <= n)%nat -> valid v = true -> reads esc v.
Proof.
  intros esc W. induction n as [|n IH]; intros v L V; [destruct v; cbn in L; lia|].
  intros fuel rest F St. destruct fuel as [|f]; [destruct v; cbn in F; lia|].
  destruct v as [|[]|t|s|l|l].
  - reflexivity.
  - reflexivity.
  - reflexivity.
  - cbn [valid print] in *. apply andb_true_iff in V as [V1 V2].
    pose proof (take_number_app t rest V2 St) as T. destruct (number_head _ V1) as (c & r & -> & A & B & C & D & E & G & H & I).
    cbn [read_value app] in *. cbn [skip]. rewrite A, B, C, D.
    change (lit "null") with ("n"%char :: lit "ull"). change (lit "true") with ("t"%char :: lit "rue"). change (lit "false") with ("f"%char :: lit "alse").
    rewrite !prefix_no by assumption. rewrite T, V1. reflexivity.
  - cbn [print read_value app skip]. change (white dquote) with false. cbv iota. rewrite Ascii.eqb_refl.
    rewrite <- app_assoc. cbn [app]. rewrite string_read by exact W. reflexivity.
  - cbn [print read_value app]. cbn [skip]. change (white "[") with false. cbv iota.
    change (Ascii.eqb "[" dquote) with false. change (Ascii.eqb "[" "[") with true. cbv iota. rewrite <- app_assoc. cbn [app].
    destruct l as [|v l]; [reflexivity|].
    assert (Fl : Forall (fun v => valid v = true /\ reads esc v) (v :: l)).
    { apply Forall_forall. intros x X. cbn [valid] in V. rewrite forallb_forall in V. split; [apply V; exact X|]. apply IH; [|apply V; exact X].
      cbn [jsize] in L. assert (jsize x < list_sum (map (fun x => S (jsize x)) (v :: l)))%nat; [|lia].
      clear - X. induction (v :: l) as [|y z IHz]; [destruct X|]. cbn [map list_sum fold_right]. change (fold_right Nat.add 0%nat) with list_sum.
      destruct X as [ -> | X]; [lia|]. specialize (IHz X). lia. }
    pose proof (elements_read esc (v :: l) ltac:(discriminate) Fl f rest) as R.
    assert (Hd : exists c r, join "," (map (print esc) (v :: l)) ++ "]"%char :: rest = c :: r /\ white c = false /\ Ascii.eqb c "]" = false).
    { cbn [valid forallb] in V. apply andb_true_iff in V as [V _]. destruct (print_head esc v V) as (c & r & P & A & B).
      cbn [map]. destruct l as [|w l]; [cbn [map join]; rewrite P; eexists; eexists; split; [reflexivity|auto]|].
      cbn [map]. rewrite join_cons by discriminate. rewrite P. eexists; eexists; split; [reflexivity|auto]. }
    destruct Hd as (c & r & Eq & A & B). cbn [lit list_ascii_of_string] in *. change (lit "]") with ["]"%char]. cbn [app] in *. rewrite Eq in R |- *.
    cbn [skip]. rewrite A, B. rewrite R; [reflexivity|]. cbn [jsize] in F. lia.
  - cbn [print read_value app]. cbn [skip]. change (white "{") with false. cbv iota.
    change (Ascii.eqb "{" dquote) with false. change (Ascii.eqb "{" "[") with false. change (Ascii.eqb "{" "{") with true. cbv iota. rewrite <- app_assoc. cbn [app].
    destruct l as [|v l]; [reflexivity|].
    assert (Fl : Forall (fun kv => valid (snd kv) = true /\ reads esc (snd kv)) (v :: l)).
    { apply Forall_forall. intros x X. cbn [valid] in V. rewrite forallb_forall in V. split; [apply V; exact X|]. apply IH; [|apply V; exact X].
      cbn [jsize] in L. assert (jsize (snd x) < list_sum (map (fun kv => S (jsize (snd kv))) (v :: l)))%nat; [|lia].
      clear - X. induction (v :: l) as [|y z IHz]; [destruct X|]. cbn [map list_sum fold_right]. change (fold_right Nat.add 0%nat) with list_sum.
      destruct X as [ -> | X]; [lia|]. specialize (IHz X). lia. }
    pose proof (members_read esc (v :: l) W ltac:(discriminate) Fl f rest) as R.
    change (lit "}") with ["}"%char]. cbn [app].
    assert (Hd : exists r, join "," (map (fun kv => (dquote :: List.concat (map esc (fst kv)) ++ [dquote]) ++ ":"%char :: print esc (snd kv)) (v :: l)) ++ "}"%char :: rest = dquote :: r).
    { cbn [map]. destruct l as [|w l]; [eexists; reflexivity|]. cbn [map]. rewrite join_cons by discriminate. eexists; reflexivity. }
    destruct Hd as (r & Eq).
    match goal with |- context [skip ?X] => change X with (join "," (map (fun kv => (dquote :: List.concat (map esc (fst kv)) ++ [dquote]) ++ ":"%char :: print esc (snd kv)) (v :: l)) ++ "}"%char :: rest) end.
    rewrite Eq in R |- *. cbn [skip]. change (white dquote) with false. cbv iota.
    change (Ascii.eqb dquote "}") with false. cbv iota. rewrite R; [reflexivity|]. cbn [jsize] in F. lia.
Qed.

Lemma list_sum_le : forall {A} (f g : A -> nat) l, (forall x, In x l -> (f x <= g x)%nat) -> (list_sum (map f l) <= list_sum (map g l))%nat.
Proof.
  intros A f g l H. induction l as [|x l IH]; [apply le_n|]. cbn [map list_sum fold_right]. change (fold_right Nat.add 0%nat) with list_sum.
  specialize (H x (or_introl eq_refl)) as H0. assert (list_sum (map f l) <= list_sum (map g l))%nat by (apply IH; intros; apply H; right; assumption). lia.
Qed.
Lemma join_length : forall c (l : list str), l <> [] -> S (List.length (join c l)) = list_sum (map (fun x => S (List.length x)) l).
Proof.
  intros c l N. induction l as [|x l IH]; [congruence|]. destruct l as [|y l].
  - cbn. lia.
  - rewrite join_cons by discriminate. rewrite app_length. cbn [List.length]. rewrite IH by discriminate. cbn [map list_sum fold_right]. lia.
Qed.
Lemma print_length : forall esc n v, (jsize v <= n)%nat -> valid v = true -> (jsize v <= List.length (print esc v))%nat.
Proof.
  intros esc. induction n as [|n IH]; intros v L V; [destruct v; cbn in L; lia|].
  destruct v as [|[]|t|s|l|l]; try (cbn; lia).
  - cbn in V |- *. apply andb_true_iff in V as [V _]. destruct t; [discriminate|]. cbn. lia.
  - cbn [print jsize List.length] in *. rewrite app_length. cbn [List.length lit list_ascii_of_string].
    destruct l as [|v l]; [cbn; lia|].
    pose proof (join_length "," (map (print esc) (v :: l)) ltac:(discriminate)) as J. rewrite map_map in J.
    pose proof (list_sum_le (fun x => S (jsize x)) (fun x => S (List.length (print esc x))) (v :: l)) as S1.
    enough (list_sum (map (fun x => S (jsize x)) (v :: l)) <= list_sum (map (fun x => S (List.length (print esc x))) (v :: l)))%nat as Le by (change (List.length (lit "]")) with 1%nat; cbv beta in J; rewrite <- J in Le; rewrite Nat.add_1_r; apply le_n_S; exact Le).
    apply S1. intros x X. apply le_n_S, IH.
    + assert (jsize x < list_sum (map (fun x => S (jsize x)) (v :: l)))%nat; [|lia].
      clear - X. induction (v :: l) as [|y z IHz]; [destruct X|]. cbn [map list_sum fold_right]. change (fold_right Nat.add 0%nat) with list_sum.
      destruct X as [ -> | X]; [lia|]. specialize (IHz X). lia.
    + cbn [valid] in V. rewrite forallb_forall in V. apply V. exact X.
  - cbn [print jsize List.length] in *. rewrite app_length.
    destruct l as [|v l]; [cbn; lia|].
    match goal with |- context [join "," (map ?f _)] => set (g := f) in * end.
    pose proof (join_length "," (map g (v :: l)) ltac:(discriminate)) as J. rewrite map_map in J.
    pose proof (list_sum_le (fun kv => S (jsize (snd kv))) (fun kv => S (List.length (g kv))) (v :: l)) as S1.
    enough (list_sum (map (fun kv => S (jsize (snd kv))) (v :: l)) <= list_sum (map (fun kv => S (List.length (g kv))) (v :: l)))%nat as Le by (change (List.length (lit "}")) with 1%nat; cbv beta in J; rewrite <- J in Le; rewrite Nat.add_1_r; apply le_n_S; exact Le).
    apply S1. intros x X. apply le_n_S. apply Nat.le_trans with (List.length (print esc (snd x))).
    + apply IH.
      * assert (jsize (snd x) < list_sum (map (fun kv => S (jsize (snd kv))) (v :: l)))%nat; [|lia].
        clear - X. induction (v :: l) as [|y z IHz]; [destruct X|]. cbn [map list_sum fold_right]. change (fold_right Nat.add 0%nat) with list_sum.
        destruct X as [ -> | X]; [lia|]. specialize (IHz X). lia.
      * cbn [valid] in V. rewrite forallb_forall in V. apply (V x X).
    + unfold g. rewrite app_length. cbn [List.length]. lia.
Qed.

Lemma parse_print : forall esc v tail, writer esc -> valid v = true -> Forall (fun c => white c = true) tail -> parse_json (print esc v ++ tail) = Some v.
Proof.
  intros esc v tail W V T. unfold parse_json.
  assert (Sk : skip tail = []).
  { induction T as [|c t H T IH]; [reflexivity|]. cbn. rewrite H. exact IH. }
  assert (St : stops tail).
  { destruct T as [|c t H T]; [exact I|]. cbn. destruct c as [[] [] [] [] [] [] [] []]; try discriminate H; reflexivity. }
  rewrite (value_read esc W (jsize v) v (le_n _) V).
  - rewrite Sk. reflexivity.
  - pose proof (print_length esc (jsize v) v (le_n _) V). rewrite app_length. lia.
  - exact St.
Qed.
Lemma parse_print0 : forall esc v, writer esc -> valid v = true -> parse_json (print esc v) = Some v.
Proof. intros esc v W V. rewrite <- (app_nil_r (print esc v)). apply parse_print; auto. Qed.
