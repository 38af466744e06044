(** Proofs about authenticator data. *)
From Verif Require Import Base PasskeyModel PasskeySpec.
Open Scope Z_scope.

Lemma take_ok n raw : (n <= List.length raw)%nat -> take n raw = Ok (firstn n raw, skipn n raw).
Proof. intros H. unfold take. destruct (Nat.ltb_spec (List.length raw) n); [lia|reflexivity]. Qed.
Lemma take_app n a b : List.length a = n -> take n (a ++ b) = Ok (a, b).
Proof.
  intros <-. rewrite take_ok by (rewrite app_length; lia). f_equal. f_equal.
  - rewrite firstn_app, Nat.sub_diag, firstn_all. cbn. apply app_nil_r.
  - rewrite skipn_app, Nat.sub_diag, skipn_all. reflexivity.
Qed.
Lemma split_at n (raw : str) : (n <= List.length raw)%nat -> exists a b, raw = a ++ b /\ List.length a = n.
Proof. intros H. exists (firstn n raw), (skipn n raw). split; [symmetry; apply firstn_skipn|]. apply firstn_length_le. exact H. Qed.

Lemma be16_big_endian b : List.length b = 2%nat -> be16 b = Ok (big_endian b).
Proof. destruct b as [|x [|y [|]]]; try discriminate. reflexivity. Qed.
Lemma be32_big_endian b : List.length b = 4%nat -> be32 b = Ok (big_endian b).
Proof. destruct b as [|x [|y [|z [|t [|]]]]]; try discriminate. reflexivity. Qed.

Lemma parse_layout cbor raw ad trailing : encodes cbor raw ad trailing -> parse_auth_data cbor raw = Ok ad.
Proof.
  intros (flags & count & creds & -> & L1 & L2 & B & H0 & H2 & H3 & H4 & H6 & H7 & C).
  unfold parse_auth_data, layout.
  destruct (Nat.ltb_spec (List.length (ad_rp ad ++ [flags] ++ count ++ match creds with None => [] | Some (aaguid, len, id, key) => aaguid ++ len ++ id ++ key end ++ trailing)) 37) as [Lt|_].
  { exfalso. rewrite !app_length in Lt. cbn [List.length] in Lt. clear - Lt L1 L2. lia. }
  rewrite (take_app 32) by exact L1. cbn [app first_byte]. unfold bind, bnum.
  match goal with |- context [take 1 (flags :: ?r)] => change (flags :: r) with ([flags] ++ r); rewrite (take_app 1 [flags] r) by reflexivity end.
  rewrite !(take_app 4) by exact L2. rewrite be32_big_endian by exact L2.
  cbn [app first_byte]. unfold bnum. rewrite <- H6.
  destruct creds as [[[[aaguid len] id] key]|].
  - destruct C as (A & Cr & L3 & L4 & B2 & L5 & Cb). rewrite A.
    rewrite <- !app_assoc.
    destruct (Nat.ltb_spec (List.length (aaguid ++ len ++ id ++ key ++ trailing)) 18) as [Lt|_].
    { exfalso. rewrite !app_length in Lt. clear - Lt L3 L4. lia. }
    rewrite (take_app 16) by exact L3. rewrite (take_app 2) by exact L4. rewrite be16_big_endian by exact L4. rewrite B2.
    destruct (N.ltb_spec 1023 (N.of_nat (List.length id))) as [Lt|_]; [clear - Lt L5; lia|].
    destruct (N.ltb_spec (N.of_nat (List.length (id ++ key ++ trailing))) (N.of_nat (List.length id))) as [Lt|_].
    { exfalso. rewrite app_length in Lt. clear - Lt. lia. }
    rewrite Nat2N.id. rewrite take_app by reflexivity. rewrite Cb.
    destruct ad; cbn in *; subst. rewrite A. reflexivity.
  - destruct C as (A & Cr). rewrite A. destruct ad; cbn in *; subst. rewrite A. reflexivity.
Qed.

Lemma parse_inv cbor raw ad : splits cbor -> parse_auth_data cbor raw = Ok ad -> exists trailing, encodes cbor raw ad trailing.
Proof.
  intros S. unfold parse_auth_data. destruct (Nat.ltb_spec (List.length raw) 37) as [|Len]; [discriminate|].
  destruct (split_at 32 raw) as (rp & r1 & -> & L1); [lia|]. rewrite (take_app 32) by exact L1. unfold bind.
  rewrite app_length in Len. destruct r1 as [|flags r1]; [cbn in Len; lia|]. cbn [first_byte].
  change (flags :: r1) with ([flags] ++ r1). rewrite (take_app 1) by reflexivity. cbn [List.length] in Len.
  destruct (split_at 4 r1) as (count & r2 & -> & L2); [lia|]. rewrite !(take_app 4) by exact L2. rewrite be32_big_endian by exact L2.
  unfold bnum. destruct (N.testbit (N_of_ascii flags) 6) eqn:At.
  - destruct (Nat.ltb_spec (List.length r2) 18) as [|L18]; [discriminate|].
    destruct (split_at 16 r2) as (aaguid & r3 & -> & L3); [lia|]. rewrite (take_app 16) by exact L3.
    rewrite app_length in L18.
    destruct (split_at 2 r3) as (len & r4 & -> & L4); [lia|]. rewrite (take_app 2) by exact L4. rewrite be16_big_endian by exact L4.
    destruct (N.ltb_spec 1023 (big_endian len)) as [|L5]; [discriminate|].
    destruct (N.ltb_spec (N.of_nat (List.length r4)) (big_endian len)) as [|L6]; [discriminate|].
    destruct (split_at (N.to_nat (big_endian len)) r4) as (id & r5 & -> & L7); [lia|].
    rewrite take_app by exact L7. destruct (cbor r5) as [[key rest]|] eqn:Cb; [|discriminate].
    intros [= <-]. pose proof (S _ _ _ Cb) as ->. exists rest, flags, count, (Some (aaguid, len, id, key)).
    cbn [ad_rp ad_up ad_uv ad_be ad_bs ad_at ad_ed ad_count ad_creds]. unfold layout. rewrite <- !app_assoc. cbn [app].
    repeat split; auto; lia.
  - intros [= <-]. exists r2, flags, count, None. cbn [ad_rp ad_up ad_uv ad_be ad_bs ad_at ad_ed ad_count ad_creds]. unfold layout. cbn [app].
    repeat split; auto.
Qed.

Lemma parse_no_panic cbor raw : parse_auth_data cbor raw <> Panic /\ parse_auth_data cbor raw <> OutOfFuel.
Proof.
  unfold parse_auth_data. destruct (Nat.ltb_spec (List.length raw) 37) as [|Len]; [split; discriminate|].
  destruct (split_at 32 raw) as (rp & r1 & -> & L1); [lia|]. rewrite (take_app 32) by exact L1. unfold bind.
  rewrite app_length in Len. destruct r1 as [|flags r1]; [cbn in Len; lia|]. cbn [first_byte].
  change (flags :: r1) with ([flags] ++ r1). rewrite (take_app 1) by reflexivity. cbn [List.length] in Len.
  destruct (split_at 4 r1) as (count & r2 & -> & L2); [lia|]. rewrite !(take_app 4) by exact L2. rewrite be32_big_endian by exact L2.
  destruct (N.testbit (bnum flags) 6); [|split; discriminate].
  destruct (Nat.ltb_spec (List.length r2) 18) as [|L18]; [split; discriminate|].
  destruct (split_at 16 r2) as (aaguid & r3 & -> & L3); [lia|]. rewrite (take_app 16) by exact L3.
  rewrite app_length in L18.
  destruct (split_at 2 r3) as (len & r4 & -> & L4); [lia|]. rewrite (take_app 2) by exact L4. rewrite be16_big_endian by exact L4.
  destruct (N.ltb_spec 1023 (big_endian len)) as [|L5]; [split; discriminate|].
  destruct (N.ltb_spec (N.of_nat (List.length r4)) (big_endian len)) as [|L6]; [split; discriminate|].
  destruct (split_at (N.to_nat (big_endian len)) r4) as (id & r5 & -> & L7); [lia|].
  rewrite take_app by exact L7. destruct (cbor r5) as [[key rest]|]; split; discriminate.
Qed.
