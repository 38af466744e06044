(** Proofs about path.Match: it decides [matches] for the terms that a pattern
    reads as, and fails for texts that are not patterns. *)
From Coq Require Import Lia.
From Verif Require Import Base CertModel CertSpec.
Local Open Scope nat_scope.

(** ** A parser for patterns *)

Definition ostr (o : outcome (ascii * str)) : option (ascii * str) := match o with Ok x => Some x | _ => None end.

Fixpoint prs (fuel : nat) (first : bool) (chunk : str) : option (list (ascii * ascii) * str) :=
  match fuel with
  | O => None
  | S fuel =>
      match chunk with
      | c :: chunk' =>
          if Ascii.eqb c "]" && negb first then Some ([], chunk')
          else
            match get_esc chunk with
            | Ok (lo, x) =>
                match (match x with d :: x' => if Ascii.eqb d "-" then get_esc x' else Ok (lo, x) | [] => Ok (lo, x) end) with
                | Ok (hi, y) => match prs fuel false y with Some (rs, z) => Some ((lo, hi) :: rs, z) | None => None end
                | _ => None
                end
            | _ => None
            end
      | [] => None
      end
  end.

Definition pterm (p : str) : option (term * str) :=
  match p with
  | [] => None
  | c :: p' =>
      if Ascii.eqb c "[" then
        let '(negated, x) :=
          match p' with
          | d :: x => if Ascii.eqb d "^" then (true, x) else (false, p')
          | [] => (false, p')
          end in
        match prs (S (List.length x)) true x with
        | Some (rs, y) => Some (TClass negated rs, y)
        | None => None
        end
      else if Ascii.eqb c "?" then Some (TAny, p')
      else if Ascii.eqb c "*" then Some (TStar, p')
      else if Ascii.eqb c "\" then match p' with [] => None | d :: x => Some (TChar d, x) end
      else Some (TChar c, p')
  end.

Fixpoint pterms (fuel : nat) (p : str) : option (list term) :=
  match fuel with
  | O => None
  | S fuel =>
      match p with
      | [] => Some []
      | _ => match pterm p with
             | Some (t, q) => match pterms fuel q with Some ts => Some (t :: ts) | None => None end
             | None => None
             end
      end
  end.

Definition parse (p : str) : option (list term) := pterms (S (List.length p)) p.

(** *** Characters of a class *)

Lemma get_esc_len s c x : get_esc s = Ok (c, x) -> List.length x < List.length s.
Proof.
  unfold get_esc. destruct s as [|a s]; [discriminate|]. destruct (_ || _); [discriminate|].
  destruct (Ascii.eqb a "\").
  - destruct s as [|b s]; [discriminate|]. destruct s; [discriminate|]. intros [= <- <-]. cbn. lia.
  - destruct s; [discriminate|]. intros [= <- <-]. cbn. lia.
Qed.

Lemma get_esc_text s c x : get_esc s = Ok (c, x) -> exists t, char_text c t /\ s = t ++ x /\ x <> [].
Proof.
  unfold get_esc. destruct s as [|a s]; [discriminate|]. destruct (_ || _) eqn:G; [discriminate|].
  apply Bool.orb_false_iff in G as [G1 G2]. apply Ascii.eqb_neq in G1, G2.
  destruct (Ascii.eqb a "\") eqn:B.
  - apply Ascii.eqb_eq in B. subst a. destruct s as [|b s]; [discriminate|]. destruct s; [discriminate|].
    intros [= <- <-]. exists ["\"%char; b]. split; [constructor|]. split; [reflexivity|discriminate].
  - apply Ascii.eqb_neq in B. destruct s; [discriminate|]. intros [= <- <-]. exists [a].
    split; [constructor; cbn; intuition congruence|]. split; [reflexivity|discriminate].
Qed.

Lemma text_get_esc c t x : char_text c t -> x <> [] -> get_esc (t ++ x) = Ok (c, x).
Proof.
  intros [a H|a] Hx; cbn [app get_esc].
  - cbn in H. destruct (Ascii.eqb a "-") eqn:E1; [apply Ascii.eqb_eq in E1; subst; intuition congruence|].
    destruct (Ascii.eqb a "]") eqn:E2; [apply Ascii.eqb_eq in E2; subst; intuition congruence|].
    destruct (Ascii.eqb a "\") eqn:E3; [apply Ascii.eqb_eq in E3; subst; intuition congruence|].
    cbn. destruct x; [congruence|reflexivity].
  - cbn. destruct x; [congruence|reflexivity].
Qed.

Lemma char_text_head c t : char_text c t -> exists a t', t = a :: t' /\ a <> "-"%char /\ a <> "]"%char.
Proof.
  intros [a H|a]; eexists _, _; (split; [reflexivity|]); cbn in *; [intuition congruence|]. split; discriminate.
Qed.

(** *** Classes *)

Lemma prs_text : forall fuel first s rs z, prs fuel first s = Some (rs, z) ->
  exists texts, Forall2 range_text rs texts /\ s = List.concat texts ++ "]"%char :: z /\ (first = true -> rs <> []).
Proof.
  induction fuel as [|fuel IH]; intros first s rs z; cbn [prs]; [discriminate|].
  destruct s as [|c s]; [discriminate|].
  destruct (Ascii.eqb c "]" && negb first) eqn:E.
  - apply andb_prop in E as [E1 E2]. apply Ascii.eqb_eq in E1. subst c. intros [= <- <-]. exists [].
    split; [constructor|]. split; [reflexivity|]. intros ->. discriminate.
  - clear E. destruct (get_esc (c :: s)) as [[lo x]| | |] eqn:G; try discriminate.
    apply get_esc_text in G as (t & Ht & Es & Hx). rewrite Es. clear Es.
    destruct x as [|d x]; [congruence|]. destruct (Ascii.eqb d "-") eqn:D.
    + apply Ascii.eqb_eq in D. subst d. destruct (get_esc x) as [[hi y]| | |] eqn:G; try discriminate.
      apply get_esc_text in G as (t2 & Ht2 & -> & Hy).
      destruct (prs fuel false y) as [[rs' z']|] eqn:P; [|discriminate]. intros [= <- <-].
      destruct (IH _ _ _ _ P) as (texts & F & -> & _).
      exists ((t ++ lit "-" ++ t2) :: texts). split; [constructor; [constructor; assumption|exact F]|].
      split; [|discriminate]. cbn [List.concat]. rewrite <- !app_assoc. reflexivity.
    + destruct (prs fuel false (d :: x)) as [[rs' z']|] eqn:P; [|discriminate]. intros [= <- <-].
      destruct (IH _ _ _ _ P) as (texts & F & E & _). rewrite E.
      exists (t :: texts). split; [constructor; [constructor; assumption|exact F]|].
      split; [|discriminate]. cbn [List.concat]. rewrite <- !app_assoc. reflexivity.
Qed.

Lemma text_prs rs texts : Forall2 range_text rs texts -> forall fuel first z,
  (first = true -> rs <> []) -> List.length (List.concat texts ++ "]"%char :: z) <= fuel ->
  prs fuel first (List.concat texts ++ "]"%char :: z) = Some (rs, z).
Proof.
  induction 1 as [|r t rs texts Hr F IH]; intros fuel first z Hf Hl.
  - destruct fuel; cbn in Hl; [lia|]. cbn. destruct first; [exfalso; apply Hf; reflexivity|reflexivity].
  - assert (Hne : List.concat texts ++ "]"%char :: z <> []) by (destruct (List.concat texts); discriminate).
    cbn [List.concat] in *. rewrite <- app_assoc in *.
    destruct fuel as [|fuel]; [rewrite app_length in Hl; cbn in Hl; rewrite app_length in Hl; cbn in Hl; lia|].
    assert (Hd : forall t', (exists c', char_text c' t') -> forall w, exists a w', t' ++ w = a :: w' /\ a <> "]"%char).
    { intros t' [c' Hc'] w. destruct (char_text_head _ _ Hc') as (a & t'' & -> & _ & Ha). eexists _, _. split; [reflexivity|exact Ha]. }
    destruct Hr as [c t Hc|lo hi tl th Hlo Hhi].
    + destruct (Hd t (ex_intro _ c Hc) (List.concat texts ++ "]"%char :: z)) as (a & w & E & Na).
      pose proof (text_get_esc c t _ Hc Hne) as G. 
      assert (L : List.length (List.concat texts ++ "]"%char :: z) <= fuel).
      { pose proof (get_esc_len _ _ _ G). lia. }
      rewrite E in *. cbn [prs]. apply Ascii.eqb_neq in Na. rewrite Na. cbn [andb]. rewrite G.
      assert (Nd : exists d v, List.concat texts ++ "]"%char :: z = d :: v /\ d <> "-"%char).
      { destruct F as [|r' t' rs' texts' Hr' F']; [eexists _, _; split; [reflexivity|discriminate]|].
        cbn [List.concat]. rewrite <- app_assoc. destruct Hr' as [c' t' Hc'|lo' hi' tl' th' Hc' _].
        - destruct (char_text_head _ _ Hc') as (a' & t'' & -> & Ha & _). eexists _, _. split; [reflexivity|exact Ha].
        - destruct (char_text_head _ _ Hc') as (a' & t'' & -> & Ha & _). eexists _, _. split; [reflexivity|exact Ha]. }
      destruct Nd as (d & v & Ev & Nd). rewrite Ev in *. apply Ascii.eqb_neq in Nd. rewrite Nd.
      rewrite <- Ev in *. rewrite IH by (assumption || discriminate). reflexivity.
    + rewrite <- !app_assoc in *.
      destruct (Hd tl (ex_intro _ lo Hlo) (lit "-" ++ th ++ List.concat texts ++ "]"%char :: z)) as (a & w & E & Na).
      pose proof (text_get_esc lo tl (lit "-" ++ th ++ List.concat texts ++ "]"%char :: z) Hlo ltac:(discriminate)) as G.
      pose proof (text_get_esc hi th _ Hhi Hne) as G2.
      assert (L : List.length (List.concat texts ++ "]"%char :: z) <= fuel).
      { pose proof (get_esc_len _ _ _ G) as L1. pose proof (get_esc_len _ _ _ G2) as L2. cbn [lit list_ascii_of_string app List.length] in L1, Hl. lia. }
      rewrite E in *. cbn [prs]. apply Ascii.eqb_neq in Na. rewrite Na. cbn [andb]. rewrite G.
      cbn [lit list_ascii_of_string app]. cbn [Ascii.eqb Bool.eqb].
      rewrite G2. rewrite IH by (assumption || discriminate). reflexivity.
Qed.

Lemma ranges_prs : forall fuel first r s m, List.length s < fuel ->
  ranges fuel first r s m =
  match prs fuel first s with
  | Some (rs, z) => Ok (m || existsb (fun q => byte_leb (fst q) r && byte_leb r (snd q)) rs, z)
  | None => Err
  end.
Proof.
  induction fuel as [|fuel IH]; intros first r s m L; [lia|]. cbn [ranges prs].
  destruct s as [|c s]; [reflexivity|].
  destruct (Ascii.eqb c "]" && negb first); [rewrite Bool.orb_false_r; reflexivity|].
  destruct (get_esc (c :: s)) as [[lo x]| | |] eqn:G; try reflexivity; cbn [bind].
  2,3: exfalso; clear - G; unfold get_esc in G; destruct (_ || _); [discriminate|]; destruct (Ascii.eqb c "\");
       repeat (destruct s; try discriminate).
  apply get_esc_len in G. cbn in G, L.
  assert (Next : forall hi y, List.length y <= List.length x ->
    ranges fuel false r y (m || (byte_leb lo r && byte_leb r hi)) =
    match match prs fuel false y with Some (rs, z) => Some ((lo, hi) :: rs, z) | None => None end with
    | Some (rs, z) => Ok (m || existsb (fun q => byte_leb (fst q) r && byte_leb r (snd q)) rs, z)
    | None => Err
    end).
  { intros hi y Hy. rewrite IH by lia. destruct (prs fuel false y) as [[rs z]|]; [|reflexivity].
    cbn [existsb fst snd]. rewrite Bool.orb_assoc. reflexivity. }
  destruct x as [|d x]; [apply Next; lia|].
  destruct (Ascii.eqb d "-"); [|apply Next; lia].
  destruct (get_esc x) as [[hi y]| | |] eqn:G2; try reflexivity.
  - cbn [bind]. apply Next. apply get_esc_len in G2. cbn. lia.
  - exfalso; clear - G2; unfold get_esc in G2; destruct x; [discriminate|]; destruct (_ || _); [discriminate|];
      destruct (Ascii.eqb a "\"); repeat (destruct x; try discriminate).
  - exfalso; clear - G2; unfold get_esc in G2; destruct x; [discriminate|]; destruct (_ || _); [discriminate|];
      destruct (Ascii.eqb a "\"); repeat (destruct x; try discriminate).
Qed.

(** *** Terms *)

Lemma pterm_text p t q : pterm p = Some (t, q) -> exists x, term_text t x /\ p = x ++ q.
Proof.
  unfold pterm. destruct p as [|c p]; [discriminate|].
  destruct (Ascii.eqb c "[") eqn:E1.
  { apply Ascii.eqb_eq in E1. subst c.
    assert (H : forall neg x, (neg = false -> hd "]"%char x <> "^"%char) ->
      match prs (S (List.length x)) true x with Some (rs, y) => Some (TClass neg rs, y) | None => None end = Some (t, q) ->
      exists w, term_text t w /\ lit "[" ++ (if neg then lit "^" else []) ++ x = w ++ q).
    { intros neg x Hn. destruct (prs _ true x) as [[rs y]|] eqn:P; [|discriminate]. intros [= <- <-].
      apply prs_text in P as (texts & F & -> & Hr).
      exists (lit "[" ++ (if neg then lit "^" else []) ++ List.concat texts ++ lit "]"). split.
      - constructor; [apply Hr; reflexivity|exact F|]. intros Ne. specialize (Hn Ne).
        destruct (List.concat texts); [discriminate|exact Hn].
      - rewrite <- !app_assoc. reflexivity. }
    destruct p as [|d p].
    - intros E. apply (H false) in E; [|discriminate]. exact E.
    - destruct (Ascii.eqb d "^") eqn:D.
      + apply Ascii.eqb_eq in D. subst d. intros E. apply (H true) in E; [exact E|discriminate].
      + apply Ascii.eqb_neq in D. intros E. apply (H false) in E; [exact E|]. intros _. exact D. }
  destruct (Ascii.eqb c "?") eqn:E2; [apply Ascii.eqb_eq in E2; subst; intros [= <- <-]; exists (lit "?"); split; [constructor|reflexivity]|].
  destruct (Ascii.eqb c "*") eqn:E3; [apply Ascii.eqb_eq in E3; subst; intros [= <- <-]; exists (lit "*"); split; [constructor|reflexivity]|].
  destruct (Ascii.eqb c "\") eqn:E4.
  { apply Ascii.eqb_eq in E4. subst c. destruct p as [|d p]; [discriminate|]. intros [= <- <-].
    exists ["\"%char; d]. split; [constructor|reflexivity]. }
  intros [= <- <-]. exists [c]. split; [|reflexivity]. apply Ascii.eqb_neq in E1, E2, E3, E4.
  constructor. cbn. intuition congruence.
Qed.

Lemma text_pterm t x q : term_text t x -> pterm (x ++ q) = Some (t, q).
Proof.
  intros [| |c H|c|neg rs texts Hr F Hn]; try reflexivity.
  - cbn in H. cbn [app pterm].
    destruct (Ascii.eqb c "[") eqn:E1; [apply Ascii.eqb_eq in E1; subst; intuition congruence|].
    destruct (Ascii.eqb c "?") eqn:E2; [apply Ascii.eqb_eq in E2; subst; intuition congruence|].
    destruct (Ascii.eqb c "*") eqn:E3; [apply Ascii.eqb_eq in E3; subst; intuition congruence|].
    destruct (Ascii.eqb c "\") eqn:E4; [apply Ascii.eqb_eq in E4; subst; intuition congruence|]. reflexivity.
  - rewrite <- !app_assoc. cbn [lit list_ascii_of_string app].
    assert (P : prs (S (List.length (List.concat texts ++ "]"%char :: q))) true (List.concat texts ++ "]"%char :: q) = Some (rs, q))
      by (apply text_prs; [exact F|auto|lia]).
    destruct neg; cbn [app].
    + unfold pterm. cbn [Ascii.eqb Bool.eqb]. rewrite P. reflexivity.
    + unfold pterm. cbn [Ascii.eqb Bool.eqb]. specialize (Hn eq_refl).
      assert (D : match List.concat texts ++ "]"%char :: q with
                  | d :: x => if Ascii.eqb d "^" then (true, x) else (false, List.concat texts ++ "]"%char :: q)
                  | [] => (false, List.concat texts ++ "]"%char :: q)
                  end = (false, List.concat texts ++ "]"%char :: q)).
      { destruct (List.concat texts) as [|d w]; [reflexivity|]. cbn [app hd] in *. apply Ascii.eqb_neq in Hn. rewrite Hn. reflexivity. }
      rewrite D, P. reflexivity.
Qed.

Lemma term_text_ne t x : term_text t x -> x <> [].
Proof. intros [| |? ?|?|? ? ? ? ? ?]; discriminate. Qed.

Lemma pterm_len p t q : pterm p = Some (t, q) -> List.length q < List.length p.
Proof.
  intros H. apply pterm_text in H as (x & Hx & ->). apply term_text_ne in Hx. rewrite app_length.
  destruct x; [congruence|]. cbn. lia.
Qed.

Lemma pterm_app p t q y : pterm p = Some (t, q) -> pterm (p ++ y) = Some (t, q ++ y).
Proof. intros H. apply pterm_text in H as (x & Hx & ->). rewrite <- app_assoc. apply text_pterm. exact Hx. Qed.

Lemma pterms_reads : forall fuel p ts, pterms fuel p = Some ts -> reads p ts.
Proof.
  induction fuel as [|fuel IH]; intros p ts; cbn [pterms]; [discriminate|].
  destruct p as [|c p]; [intros [= <-]; exists []; split; [constructor|reflexivity]|].
  destruct (pterm (c :: p)) as [[t q]|] eqn:P; [|discriminate].
  destruct (pterms fuel q) as [ts'|] eqn:Q; [|discriminate]. intros [= <-].
  apply pterm_text in P as (x & Hx & ->). destruct (IH _ _ Q) as (texts & F & ->).
  exists (x :: texts). split; [constructor; assumption|reflexivity].
Qed.

Lemma reads_pterms : forall ts texts, Forall2 term_text ts texts -> forall fuel,
  List.length (List.concat texts) < fuel -> pterms fuel (List.concat texts) = Some ts.
Proof.
  induction 1 as [|t x ts texts Hx F IH]; intros fuel L; (destruct fuel as [|fuel]; [lia|]).
  - reflexivity.
  - cbn [List.concat] in *. pose proof (term_text_ne _ _ Hx) as Ne. rewrite app_length in L.
    pose proof (text_pterm t x (List.concat texts) Hx) as P.
    destruct x as [|c x]; [congruence|]. cbn [app pterms] in *. rewrite P, IH by (cbn in L; lia). reflexivity.
Qed.

Lemma parse_reads p ts : parse p = Some ts <-> reads p ts.
Proof.
  split; [apply pterms_reads|]. intros (texts & F & ->). apply reads_pterms; [exact F|lia].
Qed.

Lemma parse_cons p : p <> [] -> parse p =
  match pterm p with Some (t, q) => match parse q with Some ts => Some (t :: ts) | None => None end | None => None end.
Proof.
  intros Ne. destruct (parse p) as [ts|] eqn:P.
  - apply parse_reads in P as (texts & F & ->). destruct F as [|t x ts texts Hx F]; [exfalso; apply Ne; reflexivity|].
    cbn [List.concat]. rewrite (text_pterm _ _ _ Hx).
    assert (Q : parse (List.concat texts) = Some ts) by (apply parse_reads; exists texts; auto). rewrite Q. reflexivity.
  - destruct (pterm p) as [[t q]|] eqn:T; [|reflexivity]. destruct (parse q) as [ts|] eqn:Q; [|reflexivity].
    exfalso. apply pterm_text in T as (x & Hx & ->). apply parse_reads in Q as (texts & F & ->).
    assert (R : parse (x ++ List.concat texts) = Some (t :: ts)).
    { apply parse_reads. exists (x :: texts). split; [constructor; assumption|reflexivity]. }
    congruence.
Qed.

Lemma parse_app c y cts : parse c = Some cts ->
  parse (c ++ y) = match parse y with Some rts => Some (cts ++ rts) | None => None end.
Proof.
  intros P. apply parse_reads in P as (texts & F & ->).
  induction F as [|t x ts texts Hx F IH]; [cbn [List.concat app]; destruct (parse y); reflexivity|].
  cbn [List.concat]. rewrite <- app_assoc. rewrite parse_cons.
  - rewrite (text_pterm _ _ _ Hx), IH. destruct (parse y); reflexivity.
  - apply term_text_ne in Hx. destruct x; [congruence|discriminate].
Qed.

(** *** scanChunk *)

Definition nostar (ts : list term) : Prop := ~ In TStar ts.

Lemma scan_app : forall p b, fst (scan b p) ++ snd (scan b p) = p.
Proof.
  fix IH 1. intros [|c p] b; cbn [scan]; [reflexivity|].
  destruct (Ascii.eqb c "\").
  - destruct p as [|d p]; [reflexivity|]. specialize (IH p b). destruct (scan b p). cbn in *. rewrite IH. reflexivity.
  - destruct (_ && _); [reflexivity|].
    set (b' := if Ascii.eqb c "[" then true else if Ascii.eqb c "]" then false else b).
    specialize (IH p b'). destruct (scan b' p). cbn in *. rewrite IH. reflexivity.
Qed.

Lemma scan_rest : forall p b, snd (scan b p) = [] \/ exists q, snd (scan b p) = "*"%char :: q.
Proof.
  fix IH 1. intros [|c p] b; cbn [scan]; [left; reflexivity|].
  destruct (Ascii.eqb c "\").
  - destruct p as [|d p]; [left; reflexivity|]. specialize (IH p b). destruct (scan b p). exact IH.
  - destruct (_ && _) eqn:E.
    + apply andb_prop in E as [E _]. apply Ascii.eqb_eq in E. subst. right. eexists; reflexivity.
    + set (b' := if Ascii.eqb c "[" then true else if Ascii.eqb c "]" then false else b).
      specialize (IH p b'). destruct (scan b' p). exact IH.
Qed.

Lemma scan_char c t y : char_text c t ->
  scan true (t ++ y) = (t ++ fst (scan true y), snd (scan true y)).
Proof.
  intros [a H|a]; cbn [app scan].
  - cbn in H. destruct (Ascii.eqb a "\") eqn:E1; [apply Ascii.eqb_eq in E1; subst; intuition congruence|].
    rewrite Bool.andb_false_r.
    destruct (Ascii.eqb a "]") eqn:E2; [apply Ascii.eqb_eq in E2; subst; intuition congruence|].
    replace (if Ascii.eqb a "[" then true else true) with true by (destruct (Ascii.eqb a "["); reflexivity).
    destruct (scan true y); reflexivity.
  - cbn. destruct (scan true y); reflexivity.
Qed.

Lemma scan_range r t y : range_text r t -> scan true (t ++ y) = (t ++ fst (scan true y), snd (scan true y)).
Proof.
  intros [c t' H|lo hi tl th H1 H2]; [exact (scan_char _ _ _ H)|].
  rewrite <- !app_assoc, (scan_char lo tl _ H1). cbn [lit list_ascii_of_string app].
  cbn [scan]. cbn [Ascii.eqb Bool.eqb andb negb]. rewrite (scan_char hi th _ H2). reflexivity.
Qed.

Lemma scan_ranges rs texts y : Forall2 range_text rs texts ->
  scan true (List.concat texts ++ y) = (List.concat texts ++ fst (scan true y), snd (scan true y)).
Proof.
  induction 1 as [|r t rs texts H F IH]; cbn [List.concat app]; [destruct (scan true y); reflexivity|].
  rewrite <- !app_assoc, (scan_range r t _ H), IH. reflexivity.
Qed.

Lemma scan_term t x y : term_text t x -> t <> TStar ->
  scan false (x ++ y) = (x ++ fst (scan false y), snd (scan false y)).
Proof.
  intros [| |c H|c|neg rs texts Hr F Hn] Nt; [congruence| | | |].
  - cbn. destruct (scan false y); reflexivity.
  - cbn in H. cbn [app scan].
    destruct (Ascii.eqb c "\") eqn:E1; [apply Ascii.eqb_eq in E1; subst; intuition congruence|].
    destruct (Ascii.eqb c "*") eqn:E2; [apply Ascii.eqb_eq in E2; subst; intuition congruence|].
    destruct (Ascii.eqb c "[") eqn:E3; [apply Ascii.eqb_eq in E3; subst; intuition congruence|].
    cbn [andb]. destruct (Ascii.eqb c "]"); destruct (scan false y); reflexivity.
  - cbn. destruct (scan false y); reflexivity.
  - rewrite <- !app_assoc.
    assert (E : scan true ((if neg then lit "^" else []) ++ List.concat texts ++ lit "]" ++ y) =
      ((if neg then lit "^" else []) ++ List.concat texts ++ lit "]" ++ fst (scan false y), snd (scan false y))).
    { assert (E : scan true (List.concat texts ++ lit "]" ++ y) =
        (List.concat texts ++ lit "]" ++ fst (scan false y), snd (scan false y))).
      { rewrite (scan_ranges rs texts _ F). cbn. destruct (scan false y); reflexivity. }
      destruct neg; cbn [lit list_ascii_of_string app] in *; [|exact E].
      cbn [scan]. cbn [Ascii.eqb Bool.eqb andb negb]. rewrite E. reflexivity. }
    cbn [lit list_ascii_of_string app] in *. cbn [scan]. cbn [Ascii.eqb Bool.eqb andb negb]. rewrite E. reflexivity.
Qed.

Lemma scan_wf ts texts : Forall2 term_text ts texts ->
  exists cts, parse (fst (scan false (List.concat texts))) = Some cts /\ nostar cts.
Proof.
  induction 1 as [|t x ts texts Hx F IH]; [exists []; split; [reflexivity|intros []]|].
  cbn [List.concat]. destruct t as [| |c|neg rs].
  - inversion Hx. exists []. split; [reflexivity|intros []].
  - destruct IH as (cts & P & N). exists (TAny :: cts). rewrite (scan_term _ _ _ Hx) by discriminate.
    cbn [fst]. rewrite parse_cons by (apply term_text_ne in Hx; destruct x; [congruence|discriminate]).
    rewrite (text_pterm _ _ _ Hx), P. split; [reflexivity|]. intros [?|?]; [discriminate|exact (N H)].
  - destruct IH as (cts & P & N). exists (TChar c :: cts). rewrite (scan_term _ _ _ Hx) by discriminate.
    cbn [fst]. rewrite parse_cons by (apply term_text_ne in Hx; destruct x; [congruence|discriminate]).
    rewrite (text_pterm _ _ _ Hx), P. split; [reflexivity|]. intros [?|?]; [discriminate|exact (N H)].
  - destruct IH as (cts & P & N). exists (TClass neg rs :: cts). rewrite (scan_term _ _ _ Hx) by discriminate.
    cbn [fst]. rewrite parse_cons by (apply term_text_ne in Hx; destruct x; [congruence|discriminate]).
    rewrite (text_pterm _ _ _ Hx), P. split; [reflexivity|]. intros [?|?]; [discriminate|exact (N H)].
Qed.

(** What the two halves of [scan] read as. *)
Lemma scan_some p ts : parse p = Some ts -> exists cts rts,
  parse (fst (scan false p)) = Some cts /\ nostar cts /\ parse (snd (scan false p)) = Some rts /\ ts = cts ++ rts.
Proof.
  intros P. pose proof P as R. apply parse_reads in R as (texts & F & ->).
  destruct (scan_wf ts texts F) as (cts & C & N). pose proof (scan_app (List.concat texts) false) as A.
  rewrite <- A, (parse_app _ _ _ C) in P.
  destruct (parse (snd _)) as [rts|] eqn:Rt; [|discriminate]. injection P as <-. exists cts, rts. auto.
Qed.

Lemma scan_none p : parse p = None ->
  parse (fst (scan false p)) = None \/ parse (snd (scan false p)) = None.
Proof.
  intros P. destruct (parse (fst (scan false p))) as [cts|] eqn:C; [|left; reflexivity]. right.
  rewrite <- (scan_app p false), (parse_app _ _ _ C) in P. destruct (parse (snd _)); [discriminate|reflexivity].
Qed.

(** *** Stars *)

Lemma stars_text p : exists k, p = repeat "*"%char k ++ snd (strip_stars p) /\
  fst (strip_stars p) = (0 <? k)%nat /\ hd "0"%char (snd (strip_stars p)) <> "*"%char.
Proof.
  induction p as [|c p (k & E & _ & H)]; [exists 0; split; [reflexivity|split; [reflexivity|discriminate]]|].
  cbn [strip_stars]. destruct (Ascii.eqb c "*") eqn:C.
  - apply Ascii.eqb_eq in C. subst c. exists (S k). cbn [fst snd repeat app]. rewrite <- E. auto.
  - apply Ascii.eqb_neq in C. exists 0. cbn. auto.
Qed.

Lemma parse_stars k q : parse (repeat "*"%char k ++ q) =
  match parse q with Some ts => Some (repeat TStar k ++ ts) | None => None end.
Proof.
  induction k as [|k IH]; [cbn [repeat app]; destruct (parse q); reflexivity|]. cbn [repeat app].
  rewrite parse_cons by discriminate. cbn [pterm Ascii.eqb Bool.eqb]. rewrite IH. destruct (parse q); reflexivity.
Qed.

(** ** Chunks *)

(** One character against one term that is not a star. *)
Definition tm (t : term) (c : ascii) : bool :=
  match t with
  | TStar => Ascii.eqb "*" c
  | TAny => negb (Ascii.eqb c "/")
  | TChar d => Ascii.eqb d c
  | TClass neg rs => negb (Bool.eqb (existsb (fun q => byte_leb (fst q) c && byte_leb c (snd q)) rs) neg)
  end.

Fixpoint mt (ts : list term) (s : str) : option str :=
  match ts with
  | [] => Some s
  | t :: ts' => match s with c :: s' => if tm t c then mt ts' s' else None | [] => None end
  end.

Lemma match_chunk_parse : forall fuel failed chunk s, List.length chunk < fuel ->
  match_chunk fuel failed chunk s =
  match parse chunk with Some ts => Ok (if failed then None else mt ts s) | None => Err end.
Proof.
  induction fuel as [|fuel IH]; intros failed chunk s L; [lia|]. cbn [match_chunk].
  destruct chunk as [|c chunk]; [reflexivity|]. rewrite parse_cons by discriminate.
  set (failed' := failed || match s with [] => true | _ => false end).
  assert (Step : forall t q b, List.length q <= List.length chunk ->
     (failed' = false -> forall d s0, s = d :: s0 -> b = negb (tm t d)) ->
     match_chunk fuel (failed' || b) q (if failed' then s else tl s) =
     match match parse q with Some ts => Some (t :: ts) | None => None end with
     | Some ts => Ok (if failed then None else mt ts s) | None => Err end).
  { intros t q b Lq Hb. rewrite IH by (cbn in L; lia). destruct (parse q) as [ts|]; [|reflexivity].
    unfold failed' in *. destruct failed; [reflexivity|]. cbn [orb] in *. destruct s as [|d s0]; [reflexivity|].
    cbn [orb]. rewrite (Hb eq_refl d s0 eq_refl). cbn [tl mt]. destruct (tm t d); reflexivity. }
  unfold pterm. destruct (Ascii.eqb c "[") eqn:E1.
  - set (nx := match chunk with d :: x => if Ascii.eqb d "^" then (true, x) else (false, chunk) | [] => (false, chunk) end).
    assert (Ln : List.length (snd nx) <= List.length chunk).
    { subst nx. destruct chunk as [|d x]; [cbn; lia|]. destruct (Ascii.eqb d "^"); cbn; lia. }
    destruct nx as [neg x]. cbn [snd] in Ln. rewrite ranges_prs by lia.
    destruct (prs (S (List.length x)) true x) as [[rs y]|] eqn:P; [|reflexivity]. cbn [bind].
    apply Step.
    + apply prs_text in P as (texts & _ & -> & _). rewrite app_length in Ln. cbn in Ln. lia.
    + intros F d s0 ->. rewrite F. cbn [hd]. cbn [tm orb]. rewrite Bool.negb_involutive. reflexivity.
  - destruct (Ascii.eqb c "?") eqn:E2.
    { apply (Step TAny); [lia|]. intros F d s0 ->. cbn. rewrite Bool.negb_involutive. reflexivity. }
    destruct (Ascii.eqb c "*") eqn:E3.
    { apply Ascii.eqb_eq in E3. subst c. cbn [Ascii.eqb Bool.eqb].
      apply (Step TStar); [lia|]. intros F d s0 ->. reflexivity. }
    destruct (Ascii.eqb c "\") eqn:E4.
    { destruct chunk as [|d x]; [reflexivity|]. apply (Step (TChar d)); [cbn; lia|]. intros F e s0 ->. reflexivity. }
    apply (Step (TChar c)); [lia|]. intros F d s0 ->. reflexivity.
Qed.

Lemma chunk_match_parse chunk s :
  chunk_match chunk s = match parse chunk with Some ts => Ok (mt ts s) | None => Err end.
Proof. unfold chunk_match. rewrite match_chunk_parse by lia. destruct (parse chunk); reflexivity. Qed.

Lemma tm_class neg rs c : tm (TClass neg rs) c = true <->
  ((exists lo hi, In (lo, hi) rs /\ nat_of_ascii lo <= nat_of_ascii c <= nat_of_ascii hi) <-> neg = false).
Proof.
  cbn [tm].
  assert (E : existsb (fun q => byte_leb (fst q) c && byte_leb c (snd q)) rs = true <->
    exists lo hi, In (lo, hi) rs /\ nat_of_ascii lo <= nat_of_ascii c <= nat_of_ascii hi).
  { rewrite existsb_exists. unfold byte_leb. split.
    - intros ([lo hi] & H & B). apply andb_prop in B as [B1 B2]. apply Nat.leb_le in B1, B2. exists lo, hi. auto.
    - intros (lo & hi & H & B1 & B2). exists (lo, hi). split; [exact H|]. cbn.
      apply Nat.leb_le in B1, B2. rewrite B1, B2. reflexivity. }
  rewrite <- E. destruct (existsb _ rs), neg; cbn; intuition congruence.
Qed.

Lemma mt_matches cts : nostar cts -> forall rts s,
  matches (cts ++ rts) s <-> exists t, mt cts s = Some t /\ matches rts t.
Proof.
  induction cts as [|t cts IH]; intros N rts s.
  - cbn. split; [intros H; exists s; auto|]. intros (x & [= <-] & H). exact H.
  - assert (N' : nostar cts) by (intros H; apply N; right; exact H).
    assert (Nt : t <> TStar) by (intros ->; apply N; left; reflexivity).
    cbn [app mt]. split.
    + intros H. inversion H; subst; [congruence| | |].
      * cbn [tm]. apply Ascii.eqb_neq in H2. rewrite H2. apply IH; assumption.
      * cbn [tm]. rewrite Ascii.eqb_refl. apply IH; assumption.
      * apply tm_class in H2. rewrite H2. apply IH; assumption.
    + intros (x & H & M). destruct s as [|c s]; [discriminate|]. destruct (tm t c) eqn:T; [|discriminate].
      assert (R : matches (cts ++ rts) s) by (apply IH; [assumption|]; exists x; auto).
      destruct t as [| |d|neg rs]; [congruence| | |].
      * cbn in T. apply Bool.negb_true_iff, Ascii.eqb_neq in T. constructor; assumption.
      * cbn in T. apply Ascii.eqb_eq in T. subst. constructor; assumption.
      * apply tm_class in T. constructor; assumption.
Qed.

Lemma mt_skipn cts : forall s t, mt cts s = Some t -> t = skipn (List.length cts) s.
Proof.
  induction cts as [|u cts IH]; intros s t; cbn; [intros [= <-]; reflexivity|].
  destruct s as [|c s]; [discriminate|]. destruct (tm u c); [|discriminate]. apply IH.
Qed.

Lemma matches_stars k ts s : 0 < k -> (matches (repeat TStar k ++ ts) s <-> matches (TStar :: ts) s).
Proof.
  intros K. destruct k as [|k]; [lia|]. clear K. induction k as [|k IH]; [reflexivity|].
  rewrite <- IH. cbn [repeat app]. split.
  - intros H. inversion H as [|? s1 s2 N1 M1| | |]; subst. inversion M1 as [|? s3 s4 N2 M2| | |]; subst.
    rewrite app_assoc. constructor; [|assumption].
    intros I1. apply in_app_or in I1 as [?|?]; auto.
  - intros H. apply (MStar _ [] s); [intros []|exact H].
Qed.

Lemma star_any ts s : ~ In "/"%char s ->
  (matches (TStar :: ts) s <-> exists a b, s = a ++ b /\ matches ts b).
Proof.
  intros N. split.
  - intros H. inversion H; subst. eauto.
  - intros (a & b & -> & H). constructor; [|exact H]. intros I1. apply N. apply in_or_app. left. exact I1.
Qed.

(** ** The search for the place of a chunk after a star *)

Lemma not_in_app_r (c : ascii) a b : ~ In c (a ++ b) -> ~ In c b.
Proof. intros H I1. apply H. apply in_or_app. right. exact I1. Qed.

Lemma skip_spec chunk cts last : parse chunk = Some cts -> forall name, ~ In "/"%char name ->
  exists r, skip chunk last name = Ok r /\
  match r with
  | Some t => (exists a b, name = a ++ b /\ a <> [] /\ mt cts b = Some t /\ (last = true -> t = []) /\
               forall a' b', name = a' ++ b' -> a' <> [] -> forall t', mt cts b' = Some t' -> (last = true -> t' = []) ->
                 List.length a <= List.length a')
  | None => forall a b, name = a ++ b -> a <> [] -> forall t, mt cts b = Some t -> last = true /\ t <> []
  end.
Proof.
  intros P. induction name as [|c name IH]; intros N; cbn [skip].
  - exists None. split; [reflexivity|]. intros a b E Ne. destruct a; [congruence|discriminate].
  - assert (Nc : c <> "/"%char) by (intros ->; apply N; left; reflexivity).
    assert (N' : ~ In "/"%char name) by (intros H; apply N; right; exact H).
    apply Ascii.eqb_neq in Nc. rewrite Nc, chunk_match_parse, P. cbn [bind].
    destruct (IH N') as (r & Er & Hr). clear IH.
    assert (Cont : (forall t, mt cts name = Some t -> last = true /\ t <> []) ->
      exists r0, skip chunk last name = Ok r0 /\
      match r0 with
      | Some t => (exists a b, c :: name = a ++ b /\ a <> [] /\ mt cts b = Some t /\ (last = true -> t = []) /\
                   forall a' b', c :: name = a' ++ b' -> a' <> [] -> forall t', mt cts b' = Some t' -> (last = true -> t' = []) ->
                     List.length a <= List.length a')
      | None => forall a b, c :: name = a ++ b -> a <> [] -> forall t, mt cts b = Some t -> last = true /\ t <> []
      end).
    { intros Hn. exists r. split; [exact Er|]. destruct r as [t|].
      - destruct Hr as (a & b & E & Na & M & Ht & Min). exists (c :: a), b.
        split; [rewrite E; reflexivity|]. split; [discriminate|]. split; [exact M|]. split; [exact Ht|].
        intros a' b' E' Na' t' M' Ht'. destruct a' as [|x a']; [congruence|]. injection E' as -> E'.
        cbn. apply le_n_S. destruct a' as [|y a'].
        + cbn in E'. subst b'. destruct (Hn _ M') as [Hl Hne]. exfalso. apply Hne. auto.
        + eapply Min; [exact E'|discriminate|exact M'|exact Ht'].
      - intros a b E Na t M. destruct a as [|x a]; [congruence|]. injection E as -> E.
        destruct a as [|y a]; [cbn in E; subst b; apply Hn; exact M|]. eapply Hr; [exact E|discriminate|exact M]. }
    destruct (mt cts name) as [t|] eqn:M.
    + destruct (last && match t with [] => false | _ => true end) eqn:G.
      * apply Cont. intros t0 [= <-]. apply andb_prop in G as [G1 G2]. split; [exact G1|]. destruct t; discriminate.
      * exists (Some t). split; [reflexivity|]. exists [c], name.
        split; [reflexivity|]. split; [discriminate|]. split; [exact M|]. split.
        { intros ->. destruct t; [reflexivity|discriminate]. }
        intros a' b' _ Na' _ _ _. destruct a'; [congruence|cbn; lia].
    + apply Cont. discriminate.
Qed.

Lemma check_rest_ok : forall fuel p, List.length p < fuel ->
  check_rest fuel p = match parse p with Some _ => Ok false | None => Err end.
Proof.
  induction fuel as [|fuel IH]; intros p L; [lia|]. cbn [check_rest].
  destruct p as [|c p]; [reflexivity|].
  destruct (stars_text (c :: p)) as (k & E & S & H). destruct (strip_stars (c :: p)) as [star q]. cbn [fst snd] in *.
  rewrite E, parse_stars. clear S.
  pose proof (scan_app q false) as A. pose proof (scan_some q) as Ss. pose proof (scan_none q) as Sn.
  assert (Lr : List.length (snd (scan false q)) < fuel).
  { assert (Lq : List.length (c :: p) = k + List.length q) by (rewrite E at 1; rewrite app_length, repeat_length; reflexivity).
    rewrite <- A, app_length in Lq.
    destruct k as [|k]; [|cbn in *; lia]. cbn [repeat app] in E. subst q.
    assert (1 <= List.length (fst (scan false (c :: p)))); [|cbn in *; lia].
    cbn [scan]. destruct (Ascii.eqb c "\"); [destruct p as [|d p]; [cbn; lia|]; destruct (scan false p); cbn; lia|].
    cbn [hd] in H. apply Ascii.eqb_neq in H. rewrite H. cbn [andb].
    destruct (scan _ p); cbn; lia. }
  destruct (scan false q) as [chunk rest]. cbn [fst snd] in *.
  rewrite chunk_match_parse.
  destruct (parse q) as [ts|] eqn:Q.
  - destruct (Ss ts eq_refl) as (cts & rts & -> & _ & R & _). cbn [bind]. rewrite IH, R by exact Lr. reflexivity.
  - destruct (Sn eq_refl) as [-> | R]; [reflexivity|]. destruct (parse chunk); [|reflexivity]. cbn [bind].
    rewrite IH, R by exact Lr. reflexivity.
Qed.

Lemma app_cmp {A} (a b a' b' : list A) : a ++ b = a' ++ b' -> List.length a <= List.length a' ->
  exists d, a' = a ++ d /\ b = d ++ b'.
Proof.
  revert a'. induction a as [|x a IH]; intros a' E L; [exists a'; auto|].
  destruct a' as [|y a']; [cbn in L; lia|]. injection E as -> E. destruct (IH a' E ltac:(cbn in L; lia)) as (d & -> & ->).
  exists d. auto.
Qed.

Lemma skipn_cut {A} n (d b : list A) : n <= List.length b -> exists e, skipn n (d ++ b) = e ++ skipn n b.
Proof.
  intros H. revert d b H. induction n as [|n IH]; intros d b H; [exists d; reflexivity|].
  destruct b as [|x b]; [cbn in H; lia|].
  destruct d as [|y d]; [exists []; reflexivity|]. cbn [app skipn].
  destruct (IH (d ++ [x]) b ltac:(cbn in H; lia)) as (e & E). rewrite <- app_assoc in E. cbn [app] in E.
  rewrite E. exists e. reflexivity.
Qed.

Lemma mt_len cts : forall s t, mt cts s = Some t -> List.length cts <= List.length s.
Proof.
  induction cts as [|u cts IH]; intros s t; cbn; [lia|].
  destruct s as [|c s]; [discriminate|]. destruct (tm u c); [|discriminate]. intros H. apply IH in H. cbn. lia.
Qed.

Lemma path_match_loop_ok : forall fuel p ts name, List.length p < fuel -> ~ In "/"%char name ->
  parse p = Some ts -> exists b, path_match_loop fuel p name = Ok b /\ (b = true <-> matches ts name).
Proof.
  induction fuel as [|fuel IH]; intros p ts name L N P; [lia|]. cbn [path_match_loop].
  destruct p as [|c p].
  { injection P as <-. exists (match name with [] => true | _ => false end). split; [reflexivity|].
    destruct name; split; intros H; try discriminate; try constructor; try reflexivity. inversion H. }
  destruct (stars_text (c :: p)) as (k & E & S & H). destruct (strip_stars (c :: p)) as [star q]. cbn [fst snd] in *.
  rewrite E, parse_stars in P. destruct (parse q) as [tsq|] eqn:Q; [|discriminate]. injection P as <-.
  pose proof (scan_app q false) as A. destruct (scan_some q tsq Q) as (cts & rts & C & Nc & R & ->).
  pose proof (scan_rest q false) as Rest.
  assert (Lr : List.length (snd (scan false q)) < fuel).
  { assert (Lq : List.length (c :: p) = k + List.length q) by (rewrite E at 1; rewrite app_length, repeat_length; reflexivity).
    rewrite <- A, app_length in Lq.
    destruct k as [|k]; [|cbn in *; lia]. cbn [repeat app] in E. subst q.
    assert (1 <= List.length (fst (scan false (c :: p)))); [|cbn in *; lia].
    clear - H. cbn [scan]. destruct (Ascii.eqb c "\"); [destruct p as [|d p]; [cbn; lia|]; destruct (scan false p); cbn; lia|].
    cbn [hd] in H. apply Ascii.eqb_neq in H. rewrite H. cbn [andb].
    destruct (scan _ p); cbn; lia. }
  destruct (scan false q) as [chunk rest]. cbn [fst snd] in *.
  destruct (star && match chunk with [] => true | _ => false end) eqn:T.
  { apply andb_prop in T as [-> T2]. destruct chunk; [|discriminate]. cbn [app] in A. subst q. injection C as <-.
    destruct Rest as [-> | (q' & ->)]; [|cbn in H; congruence]. injection R as <-. cbn [app].
    assert (K : 0 < k) by (symmetry in S; apply Nat.ltb_lt in S; exact S).
    exists true. split.
    - destruct (has_char "/" name) eqn:Hc; [|reflexivity]. exfalso. apply N. clear - Hc.
      induction name as [|x name IHn]; [discriminate|]. cbn in Hc. apply Bool.orb_prop in Hc as [Hc|Hc].
      + apply Ascii.eqb_eq in Hc. subst. left; reflexivity.
      + right; auto.
    - split; [|reflexivity]. intros _. apply matches_stars; [exact K|]. apply star_any; [exact N|].
      exists name, []. rewrite app_nil_r. split; [reflexivity|constructor]. }
  rewrite chunk_match_parse, C. cbn [bind].
  assert (Rts : match rest with [] => rts = [] | _ => exists rts', rts = TStar :: rts' end).
  { destruct Rest as [-> | (q' & ->)]; [injection R as <-; reflexivity|].
    rewrite parse_cons in R by discriminate. cbn [pterm Ascii.eqb Bool.eqb] in R.
    destruct (parse q'); [|discriminate]. injection R as <-. eauto. }
  assert (Chk : check_rest fuel rest = Ok false) by (rewrite check_rest_ok, R by exact Lr; reflexivity).
  set (last := match rest with [] => true | _ => false end).
  assert (Go : forall t, (exists a, name = a ++ t) -> exists b, path_match_loop fuel rest t = Ok b /\ (b = true <-> matches rts t)).
  { intros t (a & ->). apply IH; [exact Lr|exact (not_in_app_r _ _ _ N)|exact R]. }
  assert (Suf : forall s t, mt cts s = Some t -> (exists a, name = a ++ s) -> exists a, name = a ++ t).
  { intros s t M (a & ->). apply mt_skipn in M. subst t. exists (a ++ firstn (List.length cts) s).
    rewrite <- app_assoc, firstn_skipn. reflexivity. }
  destruct star.
  - (* after a star *)
    assert (K : 0 < k) by (symmetry in S; apply Nat.ltb_lt in S; exact S).
    assert (Eq : matches (repeat TStar k ++ cts ++ rts) name <->
      exists a b t, name = a ++ b /\ mt cts b = Some t /\ matches rts t).
    { rewrite matches_stars by exact K. rewrite star_any by exact N. split.
      - intros (a & b & -> & M). apply mt_matches in M as (t & M1 & M2); [|exact Nc]. eauto 6.
      - intros (a & b & t & -> & M1 & M2). exists a, b. split; [reflexivity|]. apply mt_matches; eauto. }
    (* the leftmost place is as good as any *)
    assert (Left : forall a b t a' b' t', name = a ++ b -> name = a' ++ b' -> List.length a <= List.length a' ->
      mt cts b = Some t -> (last = true -> t = []) -> mt cts b' = Some t' -> matches rts t' -> matches rts t).
    { intros a b t a' b' t' E1 E2 Ll M1 Hl M2 Mr. subst last. destruct rest as [|x rest].
      - subst rts. inversion Mr; subst. rewrite (Hl eq_refl). constructor.
      - destruct Rts as [rts' ->]. rewrite E1 in E2. destruct (app_cmp _ _ _ _ E2 Ll) as (d & -> & ->).
        pose proof (mt_len _ _ _ M2) as Lb. rewrite (mt_skipn _ _ _ M1). apply mt_skipn in M2. subst t'.
        destruct (skipn_cut (List.length cts) d b' Lb) as (e & Ee). rewrite Ee.
        assert (Ne : ~ In "/"%char (e ++ skipn (List.length cts) b')).
        { rewrite <- Ee. intros I1. apply N. rewrite E1. apply in_or_app. right.
          rewrite <- (firstn_skipn (List.length cts) (d ++ b')). apply in_or_app. right. exact I1. }
        apply star_any in Mr; [|exact (not_in_app_r _ _ _ Ne)]. destruct Mr as (u & v & Euv & Mv).
        apply star_any; [exact Ne|]. exists (e ++ u), v. rewrite Euv, <- app_assoc. auto. }
    assert (Skip : (forall t, mt cts name = Some t -> last = true /\ t <> []) ->
      exists b, (do r2 <- skip chunk last name; match r2 with Some t2 => path_match_loop fuel rest t2 | None => check_rest fuel rest end) = Ok b /\
        (b = true <-> matches (repeat TStar k ++ cts ++ rts) name)).
    { intros Hn. destruct (skip_spec chunk cts last C name N) as (r & Er & Hr). rewrite Er. cbn [bind]. destruct r as [t|].
      - destruct Hr as (a & b & Ea & Na & M & Hl & Min).
        destruct (Go t) as (bb & Eb & Hb); [apply (Suf b); [exact M|exists a; exact Ea]|].
        exists bb. split; [exact Eb|]. rewrite Hb, Eq. split; [intros Mr; exists a, b, t; auto|].
        intros (a' & b' & t' & E' & M' & Mr). 
        assert (Hl' : last = true -> t' = []).
        { subst last. destruct rest; [|discriminate]. subst rts. intros _. inversion Mr; reflexivity. }
        destruct a' as [|x a'].
        + cbn in E'. subst b'. destruct (Hn _ M') as [Hl1 Hne]. exfalso. apply Hne. auto.
        + eapply (Left a b t); [exact Ea|exact E'| |exact M|exact Hl|exact M'|exact Mr].
          eapply Min; [exact E'|discriminate|exact M'|exact Hl'].
      - rewrite Chk. exists false. split; [reflexivity|]. split; [discriminate|]. rewrite Eq.
        intros (a & b & t & Ea & M & Mr). exfalso.
        assert (Hl' : last = true -> t = []).
        { subst last. destruct rest; [|discriminate]. subst rts. intros _. inversion Mr; reflexivity. }
        destruct a as [|x a].
        + cbn in Ea. subst b. destruct (Hn _ M) as [Hl1 Hne]. auto.
        + destruct (Hr _ _ Ea ltac:(discriminate) _ M) as [Hl1 Hne]. auto. }
    destruct (mt cts name) as [t|] eqn:M; [|apply Skip; discriminate].
    destruct (match t with [] => true | _ => false end || negb last) eqn:G.
    + destruct (Go t) as (bb & Eb & Hb); [apply (Suf name); [exact M|exists []; reflexivity]|].
      exists bb. split; [exact Eb|]. rewrite Hb, Eq. split; [intros Mr; exists [], name, t; auto|].
      intros (a' & b' & t' & E' & M' & Mr).
      eapply (Left [] name t); [reflexivity|exact E'|cbn; lia|exact M| |exact M'|exact Mr].
      intros Hl. rewrite Hl in G. cbn in G. rewrite Bool.orb_false_r in G. destruct t; [reflexivity|discriminate].
    + apply Skip. intros t0 [= <-]. apply Bool.orb_false_iff in G as [G1 G2]. apply Bool.negb_false_iff in G2.
      split; [exact G2|]. destruct t; discriminate.
  - (* no star *)
    assert (K : k = 0) by (symmetry in S; apply Nat.ltb_ge in S; lia). subst k. cbn [repeat app] in *.
    destruct (mt cts name) as [t|] eqn:M.
    + destruct (match t with [] => true | _ => false end || negb last) eqn:G.
      * destruct (Go t) as (bb & Eb & Hb); [apply (Suf name); [exact M|exists []; reflexivity]|].
        exists bb. split; [exact Eb|]. rewrite Hb, (mt_matches cts Nc). split; [intros Mr; eauto|].
        intros (t' & E' & Mr). congruence.
      * rewrite Chk. exists false. split; [reflexivity|]. split; [discriminate|]. rewrite (mt_matches cts Nc).
        intros (t' & E' & Mr). exfalso. rewrite M in E'. injection E' as <-.
        apply Bool.orb_false_iff in G as [G1 G2]. subst last. destruct rest; [|discriminate]. subst rts.
        inversion Mr. subst t. discriminate.
    + rewrite Chk. exists false. split; [reflexivity|]. split; [discriminate|]. rewrite (mt_matches cts Nc).
      intros (t' & E' & _). congruence.
Qed.

Lemma path_match_loop_err : forall fuel p name, List.length p < fuel -> parse p = None ->
  path_match_loop fuel p name = Err.
Proof.
  induction fuel as [|fuel IH]; intros p name L P; [lia|]. cbn [path_match_loop].
  destruct p as [|c p]; [discriminate|].
  destruct (stars_text (c :: p)) as (k & E & S & H). destruct (strip_stars (c :: p)) as [star q]. cbn [fst snd] in *.
  rewrite E, parse_stars in P. assert (Q : parse q = None) by (destruct (parse q); [discriminate|reflexivity]). clear P.
  pose proof (scan_app q false) as A. pose proof (scan_none q Q) as Sn. pose proof (scan_rest q false) as Rest.
  assert (Lr : List.length (snd (scan false q)) < fuel).
  { assert (Lq : List.length (c :: p) = k + List.length q) by (rewrite E at 1; rewrite app_length, repeat_length; reflexivity).
    rewrite <- A, app_length in Lq.
    destruct k as [|k]; [|cbn in *; lia]. cbn [repeat app] in E. subst q.
    assert (1 <= List.length (fst (scan false (c :: p)))); [|cbn in *; lia].
    clear - H. cbn [scan]. destruct (Ascii.eqb c "\"); [destruct p as [|d p]; [cbn; lia|]; destruct (scan false p); cbn; lia|].
    cbn [hd] in H. apply Ascii.eqb_neq in H. rewrite H. cbn [andb].
    destruct (scan _ p); cbn; lia. }
  destruct (scan false q) as [chunk rest]. cbn [fst snd] in *.
  destruct (star && match chunk with [] => true | _ => false end) eqn:T.
  { exfalso. apply andb_prop in T as [_ T]. destruct chunk; [|discriminate]. cbn [app] in A. subst q.
    destruct Rest as [-> | (q' & ->)]; [discriminate|]. cbn in H. congruence. }
  rewrite chunk_match_parse. destruct (parse chunk) as [cts|] eqn:C; [|reflexivity]. cbn [bind].
  destruct Sn as [Sn|Sn]; [congruence|].
  assert (Chk : check_rest fuel rest = Err) by (rewrite check_rest_ok, Sn by exact Lr; reflexivity).
  set (last := match rest with [] => true | _ => false end).
  assert (Sk : exists r, skip chunk last name = Ok r).
  { clear - C. induction name as [|x name IHn]; cbn [skip]; [eauto|]. destruct (Ascii.eqb x "/"); [eauto|].
    rewrite chunk_match_parse, C. cbn [bind]. destruct (mt cts name) as [t|]; [|exact IHn]. destruct (_ && _); [exact IHn|eauto]. }
  destruct Sk as (r & Sk).
  assert (Tail : (if star then do r2 <- skip chunk last name; match r2 with Some t2 => path_match_loop fuel rest t2 | None => check_rest fuel rest end
                 else check_rest fuel rest) = Err).
  { destruct star; [|exact Chk]. rewrite Sk. cbn [bind]. destruct r; [apply IH; assumption|exact Chk]. }
  destruct (mt cts name) as [t|]; [|exact Tail].
  destruct (_ || _); [apply IH; assumption|exact Tail].
Qed.

Lemma path_match_ok p ts name : reads p ts -> ~ In "/"%char name ->
  exists b, path_match p name = Ok b /\ (b = true <-> matches ts name).
Proof. intros R N. apply path_match_loop_ok; [lia|exact N|apply parse_reads; exact R]. Qed.

Lemma path_match_err p name : (forall ts, ~ reads p ts) -> path_match p name = Err.
Proof.
  intros R. apply path_match_loop_err; [lia|]. destruct (parse p) as [ts|] eqn:P; [|reflexivity].
  exfalso. apply (R ts). apply parse_reads. exact P.
Qed.

Lemma reads_inj p ts ts' : reads p ts -> reads p ts' -> ts = ts'.
Proof. intros R R'. apply parse_reads in R, R'. congruence. Qed.

Lemma reads_dec p : (exists ts, reads p ts) \/ (forall ts, ~ reads p ts).
Proof.
  destruct (parse p) as [ts|] eqn:P; [left; exists ts; apply parse_reads; exact P|].
  right. intros ts R. apply parse_reads in R. congruence.
Qed.
