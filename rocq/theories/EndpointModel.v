(** The local endpoints: which backend gets which handler in Reconfigure
    (proxy/proxy.go), and the access list of passkey providers that is set there. *)
From Verif Require Import Base HttpModel.
Open Scope list_scope.

(** config.go:223-443 Backend.  [k_sso]: the name of the passkey manager if the
    provider is one, and the access list.  [k_fixed]: the handlers that are added
    before, which have no host (proxy.go:461-565, 697-712). *)
Record back := {
  k_names : list str;
  k_alpn : option (list str);
  k_sso : option (option str * option (list str));
  k_fixed : list local_handler
}.

(** One call of addLocalHandler: the handler and the URLs. *)
Record reg := { g_id : nat; g_urls : list str; g_prefix : bool; g_bypass : bool; g_callback : bool }.

(** What the calls change: be.localHandlers of each backend, and the access list
    of each passkey manager ([None]: nil, as it is at first). *)
Record state := { s_handlers : list (list local_handler); s_acl : str -> option (list str) }.

(** proxy.go:430-449: backends[beKey{serverName: host}], that is the first backend
    with this name, unless one lists the empty protocol. *)
Fixpoint by_name_from (host : str) (i : nat) (bs : list back) (found : option nat) : option nat :=
  match bs with
  | [] => found
  | b :: bs' =>
      by_name_from host (S i) bs'
        (if mem host (k_names b) then
           if (match k_alpn b with Some l => mem [] l | None => false end) then Some i
           else match found with None => Some i | Some j => Some j end
         else found)
  end.
(** proxy.go:430-449: the same, from the start. *)
Definition by_name (bs : list back) (host : str) : option nat := by_name_from host 0 bs None.

(** Artefact: append to one element of a list of lists. *)
Fixpoint add_at (i : nat) (h : local_handler) (l : list (list local_handler)) : list (list local_handler) :=
  match l, i with
  | [], _ => []
  | x :: l', O => (x ++ [h]) :: l'
  | x :: l', S i' => x :: add_at i' h l'
  end.

(** proxy.go:738-756: one URL; [url] is hostAndPath (proxy.go:1526-1540). *)
Definition add_url (url : str -> option (str * str)) (bs : list back) (g : reg) (st : state) (u : str) : state :=
  match url u with
  | None => st
  | Some (host, path) =>
      match by_name bs host with
      | None => st
      | Some i =>
          {| s_handlers := add_at i {| lh_id := g_id g; lh_host := host; lh_path := path; lh_prefix := g_prefix g; lh_bypass := g_bypass g |} (s_handlers st);
             s_acl := match nth_error bs i with
                      | Some {| k_sso := Some (Some m, acl) |} =>
                          if g_callback g then fun m' => if str_eqb m' m then acl else s_acl st m' else s_acl st
                      | _ => s_acl st
                      end |}
      end
  end.

(** proxy.go:736-758 addLocalHandler *)
Definition add_local_handler (url : str -> option (str * str)) (bs : list back) (st : state) (g : reg) : state :=
  fold_left (add_url url bs g) (g_urls g) st.

(** proxy.go:759-835: all calls.  The providers come in the order of a Go map, which
    is any order; the other calls in the order of the configuration. *)
Definition add_all (url : str -> option (str * str)) (bs : list back) (l : list reg) : state :=
  fold_left (add_local_handler url bs) l {| s_handlers := map k_fixed bs; s_acl := fun _ => None |}.

(** manager.go:699-705 subjectIsAllowed *)
Definition subject_allowed (acl : option (list str)) (email : str) : bool :=
  match acl with
  | None => true
  | Some l => let '(_, domain, _) := cut "@"%char email in mem email l || mem (lit "@" ++ domain) l
  end.
