(** Theorem C112, continued: relative pages. *)
From Verif Require Import Base SamlModel OauthModel.
From Verif Require PemProofs.
Open Scope list_scope.
Local Notation "! s" := (lit s%string) (at level 9, s at level 0).

(** After a login, a page without a scheme, host or leading slash is relative to the directory
    of the token endpoint, not to that of the page that answers the browser.  The directory is
    the path up to its last slash, and the root if the endpoint has no path. *)
Lemma path_dir_last : forall d f, ~ In "/"%char f -> path_dir (d ++ "/"%char :: f) = d ++ ["/"%char].
Proof.
  intros d f F. assert (N : path_dir f = []).
  { destruct f as [|c r]; [reflexivity|]. cbn [path_dir]. destruct (Ascii.eqb c "/") eqn:E; [apply Ascii.eqb_eq in E; subst; exfalso; apply F; left; reflexivity|].
    rewrite (proj2 (has_char_false _ _)); [reflexivity|]. intro H. apply F. right. exact H. }
  induction d as [|c d IH]; [cbn [app path_dir]; rewrite Ascii.eqb_refl; cbn [orb]; rewrite N; reflexivity|].
  cbn [app path_dir]. rewrite IH. rewrite (proj2 (has_char_spec "/" (d ++ "/"%char :: f))) by (apply in_or_app; right; left; reflexivity). rewrite orb_true_r. reflexivity.
Qed.
Lemma url_path_https : forall host p, ~ In "/"%char host -> ~ In "#"%char (host ++ "/"%char :: p) -> ~ In "?"%char (host ++ "/"%char :: p) ->
  url_path (!"https://" ++ host ++ "/"%char :: p) = "/"%char :: p.
Proof.
  intros host p H1 H2 H3. unfold url_path.
  rewrite PemProofs.cut_none by (intro H; apply in_app_iff in H; destruct H as [H|H]; [cbn in H; intuition discriminate|contradiction]).
  rewrite PemProofs.cut_none by (intro H; apply in_app_iff in H; destruct H as [H|H]; [cbn in H; intuition discriminate|contradiction]).
  change (has_scheme (!"https://" ++ host ++ "/"%char :: p)) with true. cbv iota.
  change (cut ":" (!"https://" ++ host ++ "/"%char :: p)) with (!"https", !"//" ++ host ++ "/"%char :: p, true). cbv iota beta.
  change (has_prefix (!"//" ++ host ++ "/"%char :: p) !"//") with true. cbv iota.
  change (skipn 2 (!"//" ++ host ++ "/"%char :: p)) with (host ++ "/"%char :: p). rewrite PemProofs.cut_app by exact H1. reflexivity.
Qed.

(** [d] is what comes before the last slash of the path. *)
Theorem C112_directory : forall host d f, ~ In "/"%char host -> ~ In "/"%char f -> (d = [] \/ exists r, d = "/"%char :: r) ->
  ~ In "#"%char (host ++ d ++ f) -> ~ In "?"%char (host ++ d ++ f) ->
  url_dir (!"https://" ++ host ++ d ++ !"/" ++ f) = d ++ !"/".
Proof.
  intros host d f H1 H2 D H3 H4.
  assert (X : exists p, d ++ !"/" ++ f = "/"%char :: p).
  { destruct D as [->|[r ->]]; [exists f; reflexivity|exists (r ++ !"/" ++ f); reflexivity]. }
  destruct X as (p & X). unfold url_dir. rewrite X, url_path_https; [|exact H1| |].
  - change (d ++ "/"%char :: f = "/"%char :: p) in X. rewrite <- X. destruct (d ++ "/"%char :: f) eqn:Y; [discriminate X|]. rewrite <- Y. apply path_dir_last. exact H2.
  - rewrite <- X. intro H. apply H3. rewrite !in_app_iff in *. cbn in H. intuition discriminate.
  - rewrite <- X. intro H. apply H4. rewrite !in_app_iff in *. cbn in H. intuition discriminate.
Qed.
Print Assumptions C112_directory.

Example C112_nontrivial_directory :
  url_dir !"https://idp.example.com/oauth/v2/token" = !"/oauth/v2/" /\ url_dir !"https://idp.example.com" = !"/" /\
  location (url_dir !"https://idp.example.com/oauth/v2/token") !"home?x=1" = !"/oauth/v2/home?x=1".
Proof. vm_compute. repeat split. Qed.
