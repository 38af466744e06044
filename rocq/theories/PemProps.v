(** Property C109: what is written in PEM files is read back, whole or not at all. *)
From Coq Require Import ZArith Lia.
From Verif Require Import Base XfccModel PemModel PemSpec PemProofs.
Local Open Scope nat_scope.

(** The certificates that are put in headers (C72) are such blocks too. *)
Theorem C109_headers : forall raw, pem raw = pem_encode (lit "CERTIFICATE") raw.
Proof. intro raw. reflexivity. Qed.
Print Assumptions C109_headers.

(** The base64 that is written is the one of RFC 4648, so that readers that are stricter than
    Go's take it too. *)
Lemma letter_char b5 b4 b3 b2 b1 b0 : b64_char b5 b4 b3 b2 b1 b0 = letter (N_of_ascii (Ascii b0 b1 b2 b3 b4 b5 false false)).
Proof. destruct b5, b4, b3, b2, b1, b0; reflexivity. Qed.
Lemma bits_hi6 a0 a1 a2 a3 a4 a5 a6 a7 : (N_of_ascii (Ascii a0 a1 a2 a3 a4 a5 a6 a7) / 4)%N = N_of_ascii (Ascii a2 a3 a4 a5 a6 a7 false false).
Proof. destruct a0, a1, a2, a3, a4, a5, a6, a7; reflexivity. Qed.
Lemma bits_lo2 a0 a1 a2 a3 a4 a5 a6 a7 : (N_of_ascii (Ascii a0 a1 a2 a3 a4 a5 a6 a7) mod 4 * 16)%N = N_of_ascii (Ascii false false false false a0 a1 false false).
Proof. destruct a0, a1, a2, a3, a4, a5, a6, a7; reflexivity. Qed.
Lemma bits_hi4 a0 a1 a2 a3 a4 a5 a6 a7 : (N_of_ascii (Ascii a0 a1 a2 a3 a4 a5 a6 a7) / 16)%N = N_of_ascii (Ascii a4 a5 a6 a7 false false false false).
Proof. destruct a0, a1, a2, a3, a4, a5, a6, a7; reflexivity. Qed.
Lemma bits_lo4 a0 a1 a2 a3 a4 a5 a6 a7 : (N_of_ascii (Ascii a0 a1 a2 a3 a4 a5 a6 a7) mod 16 * 4)%N = N_of_ascii (Ascii false false a0 a1 a2 a3 false false).
Proof. destruct a0, a1, a2, a3, a4, a5, a6, a7; reflexivity. Qed.
Lemma bits_hi2 a0 a1 a2 a3 a4 a5 a6 a7 : (N_of_ascii (Ascii a0 a1 a2 a3 a4 a5 a6 a7) / 64)%N = N_of_ascii (Ascii a6 a7 false false false false false false).
Proof. destruct a0, a1, a2, a3, a4, a5, a6, a7; reflexivity. Qed.
Lemma bits_lo6 a0 a1 a2 a3 a4 a5 a6 a7 : (N_of_ascii (Ascii a0 a1 a2 a3 a4 a5 a6 a7) mod 64)%N = N_of_ascii (Ascii a0 a1 a2 a3 a4 a5 false false).
Proof. destruct a0, a1, a2, a3, a4, a5, a6, a7; reflexivity. Qed.
Lemma bits_24 a0 a1 b4 b5 b6 b7 :
  (N_of_ascii (Ascii false false false false a0 a1 false false) + N_of_ascii (Ascii b4 b5 b6 b7 false false false false))%N =
  N_of_ascii (Ascii b4 b5 b6 b7 a0 a1 false false).
Proof. destruct a0, a1, b4, b5, b6, b7; reflexivity. Qed.
Lemma bits_42 b0 b1 b2 b3 c6 c7 :
  (N_of_ascii (Ascii false false b0 b1 b2 b3 false false) + N_of_ascii (Ascii c6 c7 false false false false false false))%N =
  N_of_ascii (Ascii c6 c7 b0 b1 b2 b3 false false).
Proof. destruct b0, b1, b2, b3, c6, c7; reflexivity. Qed.
Theorem C109_base64 : forall s, base64 s = rfc4648 s.
Proof.
  fix IH 1. intros [|[] [|[] [|[] r]]]; [reflexivity| | |]; cbn [base64 rfc4648 app]; cbv zeta;
    rewrite ?letter_char, ?bits_hi6, ?bits_lo2, ?bits_hi4, ?bits_lo4, ?bits_hi2, ?bits_lo6, ?bits_24, ?bits_42, ?IH; reflexivity.
Qed.
Print Assumptions C109_base64.
Example ex_rfc4648 : map rfc4648 (map lit ["f"; "fo"; "foo"; "foob"]%string) = map lit ["Zg=="; "Zm8="; "Zm9v"; "Zm9vYg=="]%string.
Proof. vm_compute. reflexivity. Qed.

(** A block that was written is read back with its type and all of its bytes, whatever comes after
    it, and what comes after it is left as it is.  Lines of text before it do not matter. *)
Theorem C109_written_is_read : forall ty bytes rest, plain_type ty ->
  pem_decode (pem_encode ty bytes ++ rest) = Some (ty, bytes, rest) /\
  forall t, text t -> pem_decode (t ++ pem_encode ty bytes ++ rest) = Some (ty, bytes, rest).
Proof. intros ty bytes rest P. split; [apply encode_decode, P|]. intros t T. apply text_decode; assumption. Qed.
Print Assumptions C109_written_is_read.
(** What cannot be written so: a type with a colon in a block without bytes. *)
Theorem C109_colon_refuted : exists ty bytes, ~ In newline ty /\ pem_decode (pem_encode ty bytes) = None.
Proof. exists (lit "A:B"), []. split; [intro X; cbn in X; repeat destruct X as [X|X]; try discriminate X; contradiction|vm_compute; reflexivity]. Qed.
Print Assumptions C109_colon_refuted.

(** A file of blocks is read as these blocks, in their order. *)
Theorem C109_file : forall l, Forall (fun b => plain_type (fst b)) l -> all_blocks (file_of l) = l.
Proof. intros l F. pose proof (file_blocks l [] F) as H. rewrite app_nil_r, all_blocks_nil, app_nil_r in H. exact H. Qed.
Print Assumptions C109_file.

(** If a file is cut anywhere, the blocks that are complete are read, and no other. *)
Theorem C109_cut : forall l n, Forall (fun b => plain_type (fst b)) l ->
  all_blocks (firstn n (file_of l)) = firstn (complete n l) l.
Proof. intros l n F. apply cut_blocks. exact F. Qed.
Print Assumptions C109_cut.

(** Whatever text is given: if a block is read, it is there, between marks of the same type that start
    at the start of a line, and what is left is what comes after it. *)
Theorem C109_read_was_there : forall s ty bytes rest, pem_decode s = Some (ty, bytes, rest) ->
  has_block s ty bytes rest /\ List.length rest < List.length s.
Proof. intros s ty bytes rest H. split; [eapply scan_sound; exact H|eapply scan_shorter; exact H]. Qed.
Print Assumptions C109_read_was_there.

Example ex_pem :
  let t := lit "Subject: x" ++ [newline] ++ pem_encode (lit "CERTIFICATE") (lit "hello world") in
  pem_decode t = Some (lit "CERTIFICATE", lit "hello world", []) /\
  text (lit "Subject: x" ++ [newline]) /\ plain_type (lit "CERTIFICATE") /\ plain_type (lit "EC PRIVATE KEY").
Proof.
  split; [vm_compute; reflexivity|]. split; [|split; apply plain_by; reflexivity].
  split; [intro X; cbn in X; repeat destruct X as [X|X]; try discriminate X; contradiction|eexists; reflexivity].
Qed.
(** Ends of lines, headers, spaces, and blocks that are broken. *)
Definition crlf : str := ["013"%char; newline].
Example ex_pem_others :
  pem_decode (lit "-----BEGIN A-----  " ++ crlf ++ lit "K: v" ++ crlf ++ crlf ++ lit "aGVs" ++ crlf ++ lit " bG8=" ++ crlf ++ lit "-----END A-----" ++ crlf ++ lit "x")
    = Some (lit "A", lit "hello", lit "x") /\
  pem_decode (lit "-----BEGIN A-----" ++ [newline] ++ lit "aGVsbG8=" ++ [newline] ++ lit "-----END B-----" ++ [newline]) = None /\
  pem_decode (lit "-----BEGIN A-----" ++ [newline] ++ lit "aGVsbG8" ++ [newline] ++ lit "-----END A-----" ++ [newline]) = None /\
  pem_decode (lit "-----BEGIN A-----" ++ [newline] ++ lit "aGV!bG8=" ++ [newline] ++ lit "-----END A-----" ++ [newline]) = None /\
  pem_decode (lit "-----BEGIN A-----" ++ [newline] ++ lit "aGVsbG8=" ++ [newline] ++ lit "-----END A----- x" ++ [newline]) = None /\
  pem_decode (lit "-----BEGIN A" ++ [newline] ++ lit "-----BEGIN B-----" ++ [newline] ++ lit "aGVsbG8=" ++ [newline] ++ lit "-----END B-----")
    = Some (lit "B", lit "hello", []).
Proof. vm_compute. repeat split. Qed.

(** ** The root of the certificate manager *)

(** The root that was saved is read back.  If less of the file is there (without counting the end
    of the last line), reading it is an error: never a key without its certificate. *)
Theorem C109_root_file : forall l k c n, lib_ok l -> l_parse_cert l (x_raw c) = Some c ->
  read_root l (save_root l k c) = Some (k, c) /\
  read_root l (firstn n (save_root l k c)) = if List.length (save_root l k c) <=? S n then Some (k, c) else None.
Proof. intros l k c n K C. split; [apply read_saved; assumption|apply read_cut; assumption]. Qed.
Print Assumptions C109_root_file.
(** A file in which any key or certificate is broken is an error, not a root: no block is passed
    over but those of other types. *)
Theorem C109_root_sound : forall l b k c, read_root l b = Some (k, c) ->
  (forall bytes, In (lit "PRIVATE KEY", bytes) (all_blocks b) -> l_parse_key l bytes <> None) /\
  (forall bytes, In (lit "CERTIFICATE", bytes) (all_blocks b) -> l_parse_cert l bytes <> None) /\
  (exists bytes, In (lit "PRIVATE KEY", bytes) (all_blocks b) /\ l_parse_key l bytes = Some k) /\
  (exists bytes, In (lit "CERTIFICATE", bytes) (all_blocks b) /\ l_parse_cert l bytes = Some c).
Proof.
  intros l b k c R. unfold read_root in R.
  assert (G : forall bs key cert key' cert', read_loop l bs key cert = Some (key', cert') ->
    (forall bytes, In (lit "PRIVATE KEY", bytes) bs -> l_parse_key l bytes <> None) /\
    (forall bytes, In (lit "CERTIFICATE", bytes) bs -> l_parse_cert l bytes <> None) /\
    (key' = key \/ exists bytes x, In (lit "PRIVATE KEY", bytes) bs /\ l_parse_key l bytes = Some x /\ key' = Some x) /\
    (cert' = cert \/ exists bytes x, In (lit "CERTIFICATE", bytes) bs /\ l_parse_cert l bytes = Some x /\ cert' = Some x)).
  { induction bs as [|[ty bytes] bs IH]; intros key cert key' cert' H; cbn [read_loop] in H.
    - injection H as <- <-. repeat split; auto; intros y [].
    - destruct (str_eqb ty (lit "PRIVATE KEY")) eqn:T.
      + apply str_eqb_spec in T. subst ty. destruct (l_parse_key l bytes) as [x|] eqn:P; [|discriminate H].
        destruct (IH _ _ _ _ H) as (A & B & C & D). split; [|split; [|split]].
        * intros y [Y|Y]; [injection Y as <-; congruence|apply A, Y].
        * intros y [Y|Y]; [discriminate Y|apply B, Y].
        * destruct C as [->|(y & z & I & E & F)]; right; [exists bytes, x|exists y, z]; cbn; auto.
        * destruct D as [->|(y & z & I & E & F)]; [auto|right; exists y, z; cbn; auto].
      + destruct (str_eqb ty (lit "CERTIFICATE")) eqn:T2.
        * apply str_eqb_spec in T2. subst ty. destruct (l_parse_cert l bytes) as [x|] eqn:P; [|discriminate H].
          destruct (IH _ _ _ _ H) as (A & B & C & D). split; [|split; [|split]].
          { intros y [Y|Y]; [discriminate Y|apply A, Y]. }
          { intros y [Y|Y]; [injection Y as <-; congruence|apply B, Y]. }
          { destruct C as [->|(y & z & I & E & F)]; [auto|right; exists y, z; cbn; auto]. }
          { destruct D as [->|(y & z & I & E & F)]; right; [exists bytes, x|exists y, z]; cbn; auto. }
        * destruct (IH _ _ _ _ H) as (A & B & C & D). split; [|split; [|split]].
          { intros y [Y|Y]; [injection Y as -> _; discriminate T|apply A, Y]. }
          { intros y [Y|Y]; [injection Y as -> _; discriminate T2|apply B, Y]. }
          { destruct C as [->|(y & z & I & E & F)]; [auto|right; exists y, z; cbn; auto]. }
          { destruct D as [->|(y & z & I & E & F)]; [auto|right; exists y, z; cbn; auto]. } }
  destruct (read_loop l (all_blocks b) None None) as [[[k'|] [c'|]]|] eqn:E; try discriminate R. injection R as <- <-.
  destruct (G _ _ _ _ _ E) as (A & B & C & D). split; [exact A|]. split; [exact B|]. split.
  - destruct C as [X|(y & z & I & P & X)]; [discriminate X|]. injection X as <-. eauto.
  - destruct D as [X|(y & z & I & P & X)]; [discriminate X|]. injection X as <-. eauto.
Qed.
Print Assumptions C109_root_sound.

(** Whatever happens to the starts of the program, each uses the root that one of them made: the
    certificate is for the key, and ends a year after that start. *)
Theorem C109_root_of_a_start : forall l ss j k c, lib_ok l -> Forall (proper l) ss ->
  nth_error (snd (starts l None ss)) j = Some (Some (k, c)) ->
  exists i s, i <= j /\ nth_error ss i = Some s /\ k = s_key s /\ c = s_cert s /\ x_key c = k /\
    x_until c = (s_now s + 365 * 86400)%Z.
Proof.
  intros l ss j k c K F H. destruct (starts_from l ss [] None j (k, c) K (Forall_nil _) F Logic.I H) as (s & I & E). injection E as -> ->. cbn [app] in I.
  apply In_nth_error in I as (i & N).
  assert (L : i < List.length (firstn (S j) ss)) by (apply nth_error_Some; congruence). rewrite firstn_length in L.
  assert (N' : nth_error ss i = Some s) by (rewrite <- N; clear -L; revert i L; generalize (S j) as q; induction ss as [|x ss IH]; intros [|q] [|i] L; cbn in *; try lia; try reflexivity; apply IH; lia).
  exists i, s. split; [lia|]. split; [exact N'|]. split; [reflexivity|]. split; [reflexivity|].
  pose proof (proj1 (Forall_forall _ _) F s (nth_error_In _ _ N')) as (P1 & _ & P3). split; [exact P1|]. rewrite P3. reflexivity.
Qed.
Print Assumptions C109_root_of_a_start.

(** Once a root is saved, or read from the file, all later starts use it. *)
Theorem C109_same_root : forall l ss file i j s r, lib_ok l -> Forall (proper l) ss ->
  nth_error ss i = Some s -> s_write s = Written -> nth_error (snd (starts l file ss)) i = Some (Some r) ->
  i <= j < List.length ss -> nth_error (snd (starts l file ss)) j = Some (Some r).
Proof. intros l ss file i j s r K F N W R L. eapply starts_written; eauto. Qed.
Print Assumptions C109_same_root.

(** A start that is not killed has a root, whatever is in the file. *)
Theorem C109_always_starts : forall l file s, (forall n, s_write s <> Killed n) -> snd (cm_new l file s) <> None.
Proof.
  intros l file s H. unfold cm_new. destruct (match file with Some b => read_root l b | None => None end); [discriminate|].
  cbv zeta. destruct (s_write s); cbn; try discriminate. exfalso. eapply H. reflexivity.
Qed.
Print Assumptions C109_always_starts.

(** A small library: key [k] is k dots, certificates are the ones listed. *)
Definition ex_cert (k : nat) (until : Z) (raw : str) : x509 := {| x_raw := raw; x_key := k; x_until := until |}.
Definition ex_lib (cs : list x509) : lib :=
  {| l_key_der := fun k => repeat "."%char k; l_parse_key := fun b => Some (List.length b);
     l_parse_cert := fun b => find (fun c => str_eqb (x_raw c) b) cs |}.
Lemma ex_lib_ok cs : lib_ok (ex_lib cs).
Proof. intro k. cbn. rewrite repeat_length. reflexivity. Qed.
Definition ex_c1 := ex_cert 1 31536000 (lit "first").
Definition ex_c2 := ex_cert 2 31536100 (lit "second").
Definition ex_c3 := ex_cert 3 71536000 (lit "third").
Definition ex_l := ex_lib [ex_c1; ex_c2; ex_c3].
Definition ex_s1 (w : write) := {| s_now := 0; s_key := 1; s_cert := ex_c1; s_write := w |}.
Definition ex_s2 := {| s_now := 100; s_key := 2; s_cert := ex_c2; s_write := Written |}.
Definition ex_s3 := {| s_now := 40000000; s_key := 3; s_cert := ex_c3; s_write := Written |}.
(** The first start is killed while it writes; the second makes another root, which stays. *)
Example ex_starts :
  Forall (proper ex_l) [ex_s1 (Killed 70); ex_s2; ex_s3] /\ in_order [ex_s1 (Killed 70); ex_s2; ex_s3] /\
  snd (starts ex_l None [ex_s1 (Killed 70); ex_s2; ex_s3]) = [None; Some (2, ex_c2); Some (2, ex_c2)].
Proof.
  split; [repeat constructor|]. split; [cbn; lia|]. vm_compute. reflexivity.
Qed.

(** The root can be past its end: one that is read from the file is used although it has expired, and
    nothing that the certificate manager issues is accepted then. *)
Theorem C109_expired_refuted : exists l ss j s k c, lib_ok l /\ Forall (proper l) ss /\ in_order ss /\
  nth_error ss j = Some s /\ nth_error (snd (starts l None ss)) j = Some (Some (k, c)) /\ (x_until c < s_now s)%Z.
Proof.
  exists ex_l, [ex_s1 Written; ex_s3], 1, ex_s3, 1, ex_c1. split; [apply ex_lib_ok|]. split; [repeat constructor|]. split; [cbn; lia|].
  split; [reflexivity|]. split; [vm_compute; reflexivity|]. reflexivity.
Qed.
Print Assumptions C109_expired_refuted.
(** The root can change although no start was killed: if it cannot be saved, it is used all the same. *)
Theorem C109_unsaved_refuted : exists l ss r r', lib_ok l /\ Forall (proper l) ss /\
  (forall s n, In s ss -> s_write s <> Killed n) /\
  nth_error (snd (starts l None ss)) 0 = Some (Some r) /\ nth_error (snd (starts l None ss)) 1 = Some (Some r') /\ r <> r'.
Proof.
  exists ex_l, [ex_s1 NotOpened; ex_s2], (1, ex_c1), (2, ex_c2). split; [apply ex_lib_ok|]. split; [repeat constructor|]. split.
  { intros s n [<-|[<-|[]]]; discriminate. }
  split; [vm_compute; reflexivity|]. split; [vm_compute; reflexivity|]. discriminate.
Qed.
Print Assumptions C109_unsaved_refuted.
(** A new root: how long it lasts. *)
Theorem C109_root_lasts : forall now, root_until true now = (now + 365 * 86400)%Z /\ root_until false now = (now + 3600)%Z.
Proof. intro now. split; reflexivity. Qed.
Print Assumptions C109_root_lasts.

(** ** Certificates for names *)

(** All requests for a name get the certificate that was made for the first of them, which ends an
    hour later. *)
Theorem C109_one_certificate : forall qs i name serial now j s t,
  first_request qs i name serial now -> i <= j -> nth_error qs j = Some (name, s, t) ->
  nth_error (get_certs [] qs) j = Some (serial, (now + 3600)%Z).
Proof. intros qs i name serial now j s t F L N. eapply get_certs_first; eauto. Qed.
Print Assumptions C109_one_certificate.
(** So for an hour, nobody is given a certificate that has ended; afterwards, everybody is. *)
Theorem C109_leaf_refuted : exists qs j name s t c, nth_error qs j = Some (name, s, t) /\
  nth_error (get_certs [] qs) j = Some c /\ (snd c < t)%Z /\
  forall qs' i serial now j' s' t', first_request qs' i name serial now -> i <= j' -> nth_error qs' j' = Some (name, s', t') ->
    (now + 3600 < t')%Z -> exists c', nth_error (get_certs [] qs') j' = Some c' /\ (snd c' < t')%Z.
Proof.
  exists [(lit "a", 1%N, 0%Z); (lit "b", 2%N, 50%Z); (lit "a", 3%N, 3601%Z)], 2, (lit "a"), 3%N, 3601%Z, (1%N, 3600%Z).
  split; [reflexivity|]. split; [vm_compute; reflexivity|]. split; [reflexivity|].
  intros qs' i serial now j' s' t' F L N T. exists (serial, (now + 3600)%Z). split; [eapply C109_one_certificate; eauto|exact T].
Qed.
Print Assumptions C109_leaf_refuted.
Example ex_first : first_request [(lit "a", 1%N, 0%Z); (lit "b", 2%N, 50%Z); (lit "a", 3%N, 3601%Z)] 1 (lit "b") 2%N 50%Z.
Proof. split; [reflexivity|]. intros [|j] n s t L H; [cbn in H; injection H as <- <- <-; discriminate|lia]. Qed.

(** ** The certificates of autocert *)

(** An entry of the cache as autocert writes it is read back: the key, the chain and the leaf. *)
Theorem C109_entry : forall pkcs8 ec pkcs1 parse_cert ty der k c cs leaf, key_type ty ->
  is_key pkcs8 ec pkcs1 der k -> parse_cert c = Some leaf ->
  acme_entry (parse_private_key pkcs8 ec pkcs1) parse_cert (cache_put ty der (c :: cs)) = Some (Key k, c :: cs, leaf).
Proof.
  intros pkcs8 ec pkcs1 parse_cert ty der k c cs leaf T K C. rewrite entry_read by exact T. unfold parse_private_key.
  destruct K as [->|[[-> ->]|(-> & -> & ->)]]; rewrite C; reflexivity.
Qed.
Print Assumptions C109_entry.
(** If an entry is cut, what is read of it is its key with the start of its chain, or nothing. *)
Theorem C109_entry_cut : forall parse parse_cert ty der chain n k certs leaf, key_type ty ->
  acme_entry parse parse_cert (firstn n (cache_put ty der chain)) = Some (k, certs, leaf) ->
  parse der = Some k /\ certs <> [] /\ (exists m, certs = firstn m chain) /\ exists c cs, chain = c :: cs /\ parse_cert c = Some leaf.
Proof. intros parse parse_cert ty der chain n k certs leaf T H. eapply entry_cut; eauto. Qed.
Print Assumptions C109_entry_cut.
(** The account key is read back. *)
Theorem C109_account : forall pkcs8 ec pkcs1 ty der k rest, plain_type ty -> is_key pkcs8 ec pkcs1 der k ->
  account_key (parse_private_key pkcs8 ec pkcs1) (pem_encode ty der ++ rest) = Some (Key k).
Proof.
  intros pkcs8 ec pkcs1 ty der k rest P K. unfold account_key. rewrite encode_decode by exact P. unfold parse_private_key.
  destruct K as [->|[[-> ->]|(-> & -> & ->)]]; reflexivity.
Qed.
Print Assumptions C109_account.
(** Without a block there is no account key. *)
Theorem C109_no_account : forall parse data, all_blocks data = [] -> account_key parse data = None.
Proof.
  intros parse data H. rewrite all_blocks_step in H. unfold account_key. destruct (pem_decode data) as [[[ty b] r]|]; [discriminate H|reflexivity].
Qed.
Print Assumptions C109_no_account.

(** Bytes that are no key are not noticed: a key that is a nil pointer is returned, without an error.
    The entry counts as a certificate with a key, the account key as valid. *)
Theorem C109_broken_key_refuted : forall pkcs8 ec pkcs1 parse_cert ty der c cs leaf, key_type ty ->
  no_key pkcs8 ec pkcs1 der -> parse_cert c = Some leaf ->
  acme_entry (parse_private_key pkcs8 ec pkcs1) parse_cert (cache_put ty der (c :: cs)) = Some (NilKey, c :: cs, leaf) /\
  account_key (parse_private_key pkcs8 ec pkcs1) (pem_encode ty der) = Some NilKey.
Proof.
  intros pkcs8 ec pkcs1 parse_cert ty der c cs leaf T (K1 & K2 & K3) C.
  assert (P : parse_private_key pkcs8 ec pkcs1 der = Some NilKey) by (unfold parse_private_key; rewrite K1, K2, K3; reflexivity).
  split; [rewrite entry_read by exact T; rewrite P, C; reflexivity|]. unfold account_key. rewrite <- (app_nil_r (pem_encode ty der)), encode_decode by apply T. exact P.
Qed.
Print Assumptions C109_broken_key_refuted.

(** Revoking certificates: if it ends without an error, each that has not expired was revoked. *)
Theorem C109_revoked : forall now es n m, revoke_loop now es n = (Deleted, m) ->
  m = n + List.length (filter (fun e => now <=? x_until (snd (fst e)))%Z es) /\
  forall k leaf ok, In (k, leaf, ok) es -> (now <= x_until leaf)%Z -> ok = true /\ k <> NilKey.
Proof.
  intros now es. induction es as [|[[k leaf] ok] es IH]; intros n m H; cbn [revoke_loop] in H.
  - injection H as <-. split; [cbn; lia|intros ? ? ? []].
  - destruct (Z.ltb_spec (x_until leaf) now) as [L|L].
    + destruct (IH _ _ H) as [A B]. split.
      * rewrite A. cbn [filter fst snd]. replace (now <=? x_until leaf)%Z with false by (symmetry; apply Z.leb_gt; exact L). reflexivity.
      * intros k' leaf' ok' [E|E] T; [injection E as <- <- <-; lia|eapply B; eauto].
    + destruct k as [k|]; [|discriminate]. destruct ok; [|discriminate]. destruct (IH _ _ H) as [A B]. split.
      * rewrite A. cbn [filter fst snd]. replace (now <=? x_until leaf)%Z with true by (symmetry; apply Z.leb_le; exact L). cbn [List.length]. lia.
      * intros k' leaf' ok' [E|E] T; [injection E as <- <- <-; split; [reflexivity|discriminate]|eapply B; eauto].
Qed.
Print Assumptions C109_revoked.
(** The first certificate with a broken key that has not expired ends the program. *)
Theorem C109_panic_refuted : forall now before leaf ok after n,
  (forall k lf o, In (k, lf, o) before -> (x_until lf < now)%Z \/ (k <> NilKey /\ o = true)) -> (now <= x_until leaf)%Z ->
  fst (revoke_loop now (before ++ (NilKey, leaf, ok) :: after) n) = Panic.
Proof.
  intros now before leaf ok after n H L. revert n. induction before as [|[[k lf] o] before IH]; intro n; cbn [app revoke_loop].
  - replace (x_until leaf <? now)%Z with false by (symmetry; apply Z.ltb_ge; exact L). reflexivity.
  - assert (H' : forall k lf o, In (k, lf, o) before -> (x_until lf < now)%Z \/ (k <> NilKey /\ o = true)) by (intros ? ? ? X; apply H; right; exact X).
    destruct (H k lf o (or_introl eq_refl)) as [X|[X ->]].
    + apply Z.ltb_lt in X. rewrite X. apply IH, H'.
    + destruct (_ <? _)%Z; [apply IH, H'|]. destruct k as [k|]; [apply IH, H'|contradiction].
Qed.
Print Assumptions C109_panic_refuted.

(** The cases meet the hypotheses. *)
Definition ex_pkcs8 (b : str) : parsed := if str_eqb b (lit "p8") then Signs 8 else if str_eqb b (lit "ecdh") then Other else Bad.
Definition ex_ec (b : str) : option nat := if str_eqb b (lit "ec") then Some 5 else None.
Definition ex_pkcs1 (b : str) : option nat := if str_eqb b (lit "rsa") then Some 1 else None.
Example ex_entries :
  key_type (lit "EC PRIVATE KEY") /\ key_type (lit "RSA PRIVATE KEY") /\ is_key ex_pkcs8 ex_ec ex_pkcs1 (lit "ec") 5 /\
  is_key ex_pkcs8 ex_ec ex_pkcs1 (lit "rsa") 1 /\ is_key ex_pkcs8 ex_ec ex_pkcs1 (lit "p8") 8 /\ no_key ex_pkcs8 ex_ec ex_pkcs1 (lit "garbage") /\
  acme_entry (parse_private_key ex_pkcs8 ex_ec ex_pkcs1) (l_parse_cert ex_l) (cache_put (lit "EC PRIVATE KEY") (lit "ec") [lit "first"; lit "issuer"])
    = Some (Key 5, [lit "first"; lit "issuer"], ex_c1) /\
  acme_entry (parse_private_key ex_pkcs8 ex_ec ex_pkcs1) (l_parse_cert ex_l) (cache_put (lit "PRIVATE KEY") (lit "ecdh") [lit "first"]) = None /\
  acme_entry (parse_private_key ex_pkcs8 ex_ec ex_pkcs1) (l_parse_cert ex_l) (cache_put (lit "EC PARAMETERS") (lit "ec") [lit "first"]) = None /\
  revoke_loop 10 [(Key 5, ex_c1, true); (Key 1, ex_cert 1 5 [], false); (NilKey, ex_c2, true)] 0 = (Panic, 1) /\
  revoke_loop 10 [(Key 5, ex_c1, true); (NilKey, ex_cert 1 9 [], false); (Key 2, ex_c2, true)] 0 = (Deleted, 2) /\
  revoke_loop 10 [(Key 5, ex_c1, false); (Key 2, ex_c2, true)] 0 = (Error, 1).
Proof.
  split; [split; [apply plain_by; reflexivity|exists (lit "EC "), []; reflexivity]|].
  split; [split; [apply plain_by; reflexivity|exists (lit "RSA "), []; reflexivity]|].
  split; [right; left; split; reflexivity|]. split; [right; right; repeat split|]. split; [left; reflexivity|]. split; [repeat split|].
  vm_compute. repeat split.
Qed.
