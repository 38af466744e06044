(** C15 and C16: request paths and static files. *)
From Verif Require Import Base PathModel PathSpec PathProofs.

(** C15.  The cleaned path is "/" followed by the ordinary elements that remain
    when "", "." and ".." are resolved from left to right, with the final slash
    of the request kept. *)
Theorem C15_clean_is_canonical : forall p,
  pathClean p = clean_request_path p /\ Forall plain (elements true p).
Proof. intro p. split; [apply pathClean_spec | apply elements_plain]. Qed.
Print Assumptions C15_clean_is_canonical.

Theorem C15_idempotent : forall p, pathClean (pathClean p) = pathClean p.
Proof. exact pathClean_idem. Qed.
Print Assumptions C15_idempotent.

(** C15.  The redirect to the cleaned path decodes to it and keeps the query, and
    its Location never starts with "//" or "/\", which would name another host. *)
Theorem C15_redirect_same_host : forall parsed p query,
  (exists l, location parsed (pathClean p) query = l ++ (match query with [] => [] | _ => question :: query end) /\
             percent_decode l = Some (pathClean p)) /\
  exists rest, location parsed (pathClean p) query = slash :: rest /\
    (forall r, rest <> slash :: r) /\ (forall r, rest <> backslash :: r).
Proof.
  intros parsed p query. split; [|apply location_host].
  exists (escape_path (pathClean p)). split; [apply location_spec | apply escape_decode].
Qed.
Print Assumptions C15_redirect_same_host.

(** A path of such characters is sent as it is. *)
Theorem C15_readable_paths_unchanged : forall parsed p query, Forall readable (pathClean p) ->
  location parsed (pathClean p) query = pathClean p ++ (match query with [] => [] | _ => question :: query end).
Proof.
  intros parsed p query H. rewrite location_spec. f_equal. unfold escape_path.
  induction (pathClean p) as [|c l IH]; [reflexivity|]. inversion H as [|x y Hc Hl]; subst. cbn [map List.concat]. rewrite (IH Hl).
  unfold escape_char. replace (keep c) with true; [reflexivity|].
  unfold readable in Hc. cbn in Hc. repeat (destruct Hc as [<-|Hc]; [vm_compute; reflexivity|]). destruct Hc.
Qed.
Print Assumptions C15_readable_paths_unchanged.
Example C15_readable_example : Forall readable (pathClean (lit "/a//b-1/index.html")) /\
  location true (pathClean (lit "/a//b-1/index.html")) (lit "x=0") = lit "/a/b-1/index.html?x=0".
Proof. split; [|reflexivity]. apply Forall_forall. intros c H. vm_compute in H. repeat (destruct H as [<-|H]; [unfold readable; cbn; tauto|]). destruct H. Qed.

Example C15_examples :
  map pathClean [lit "//evil.com/%2e"; lit "/a/./b/../../c/"; lit "a"; lit ""; lit "/../../etc"; lit "/a//"; lit "/.../..x"]
  = [lit "/evil.com/%2e"; lit "/c/"; lit "/a"; lit "/"; lit "/etc"; lit "/a/"; lit "/.../..x"].
Proof. vm_compute. reflexivity. Qed.
Example C15_example_backslash :
  location true (pathClean (lit "//\evil.com/x y")) (lit "q=1") = lit "/%5Cevil.com/x%20y?q=1".
Proof. vm_compute. reflexivity. Qed.

(** C16.  Whatever the file system says, the file served is the document root
    followed by elements that are not empty, do not start with a dot and contain
    no backslash; they are the elements of the request path after the prefix,
    possibly followed by index.html. *)
Theorem C16_only_visible_files_below_root : forall f root prefix method path file,
  serve_static f root prefix method path = ServeFile file ->
  exists es, Forall visible es /\
    file = file_path (is_abs root) (elements (is_abs root) root ++ es) /\
    root <> [] /\ fopen f file = Some Regular /\ (method = lit "GET" \/ method = lit "HEAD") /\
    (let below := filter nonempty (split_on slash (trim_prefix (trim_prefix path prefix) [slash])) in
     es = below \/ es = below ++ [lit "index.html"] /\ has_suffix path [slash] = true).
Proof. exact serve_static_file. Qed.
Print Assumptions C16_only_visible_files_below_root.

(** The redirects made by static file serving go to cleaned paths (or to the
    empty path, when the document root is not a directory). *)
Theorem C16_redirects_are_clean : forall f root prefix method path q,
  serve_static f root prefix method path = RedirectTo q -> q = pathClean q \/ q = [].
Proof. exact serve_static_redirect. Qed.
Print Assumptions C16_redirects_are_clean.

Definition ex_fs : fs :=
  let files := [(lit "/srv/www", Dir); (lit "/srv/www/a", Dir); (lit "/srv/www/a/index.html", Regular); (lit "/srv/www/b.txt", Regular); (lit "/srv/secret", Regular)] in
  {| stat := fun p => assoc p files; fopen := fun p => assoc p files |}.
Example C16_examples :
  map (serve_static ex_fs (lit "/srv/x/../www/") (lit "/files/") (lit "GET"))
    [lit "/files/a/"; lit "/files/a"; lit "/files/b.txt"; lit "/files/../secret"; lit "/files/.git"; lit "/files/b.txt/"; lit "/files/a\b"]
  = [ServeFile (lit "/srv/www/a/index.html"); RedirectTo (lit "/files/a/"); ServeFile (lit "/srv/www/b.txt");
     RedirectTo (lit "/secret"); NotFound; RedirectTo (lit "/files/b.txt"); NotFound].
Proof. vm_compute. reflexivity. Qed.
