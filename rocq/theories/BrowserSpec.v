(** Histories of a browser, and what they mean for a login. *)
From Verif Require Import Base PathModel TokenModel TokenSpec HttpModel BrowserModel.
Open Scope Z_scope.

(** A Set-Cookie that the browser received: from which host, when, and which. *)
Record event := { ev_host : str; ev_time : Z; ev_set : attrs }.

(** The cookies of a new browser after a history. *)
Definition jar_after (br : browser) (evs : list event) : list stored :=
  fold_left (fun j e => receive br (ev_host e) (ev_time e) (ev_set e) j) evs [].

(** What the grammar of the headers imposes on the name and value of any cookie. *)
Definition words (a : attrs) : Prop :=
  at_name a <> [] /\ trim (at_name a) = at_name a /\ ~ In semicolon (at_name a) /\ ~ In "="%char (at_name a) /\
  trim (at_value a) = at_value a /\ ~ In semicolon (at_value a).
Definition received_ok (evs : list event) : Prop := Forall (fun e => words (ev_set e)) evs.

(** Values that servers read as they are: the tokens of the proxy are such. *)
Definition plain_value (v : str) : Prop := forall c, In c v -> token_char c = true.

(** A host in a domain: the domain itself or a name below it. *)
Definition under (host d : str) : Prop := host = d \/ exists p, host = p ++ "."%char :: d.

(** A domain that can be the Domain of a cookie: labels of small letters, digits and
    inner hyphens, with some letter. *)
Definition ldh (c : ascii) : Prop :=
  let n := N_of_ascii c in (97 <= n <= 122 \/ 48 <= n <= 57 \/ n = 45)%N.
Definition label (l : str) : Prop :=
  l <> [] /\ (size l <= 63)%N /\ (forall c, In c l -> ldh c) /\
  (forall r, l <> "-"%char :: r) /\ (forall r, l <> r ++ ["-"%char]).
Definition domain_name (d : str) : Prop :=
  Forall label (split_on "."%char d) /\ (size d <= 253)%N /\
  exists c, In c d /\ (97 <= N_of_ascii c <= 122)%N.

(** A Domain may be written with a leading dot. *)
Definition bare (d : str) : str := match d with "."%char :: r => r | _ => d end.

(** The configured Domain of a provider lets its sessions reach both hosts: without
    one the hosts are the same, with one both are in it. *)
Definition reach (br : browser) (domain h0 h1 : str) : Prop :=
  match domain with
  | [] => h1 = h0
  | _ => domain_name (bare domain) /\ br_public br (bare domain) = false /\ br_ip br h0 = false /\ br_ip br h1 = false /\
         under h0 (bare domain) /\ under h1 (bare domain)
  end.

(** The browser stores a cookie with this name and value. *)
Definition fits (br : browser) (n v : str) : Prop := (size n + size v <= br_max br)%N.

(** All session cookies of a history are those of providers with this Domain. *)
Definition all_from (domain : str) (evs : list event) : Prop :=
  forall e, In e evs -> at_name (ev_set e) = auth_cookie ->
  at_domain (ev_set e) = domain /\ at_path (ev_set e) = [slash].
(** All cookies with this name have this Domain. *)
Definition all_named (n domain : str) (evs : list event) : Prop :=
  forall e, In e evs -> at_name (ev_set e) = n -> at_domain (ev_set e) = domain /\ at_path (ev_set e) = [slash].
(** No cookie with this name. *)
Definition none_named (n : str) (evs : list event) : Prop := forall e, In e evs -> at_name (ev_set e) <> n.
(** All cookies with this name are for single hosts. *)
Definition all_local (n : str) (evs : list event) : Prop :=
  forall e, In e evs -> at_name (ev_set e) = n -> at_domain (ev_set e) = [] /\ at_path (ev_set e) = [slash].

(** The responses of the proxy. *)
Definition login_at (host domain token : str) (t : Z) : event :=
  {| ev_host := host; ev_time := t; ev_set := auth_attrs domain token t |}.
Definition id_at (host token : str) (t : Z) : event :=
  {| ev_host := host; ev_time := t; ev_set := id_attrs token t |}.
Definition page_at (host sid : str) (t : Z) : event :=
  {| ev_host := host; ev_time := t; ev_set := sid_attrs sid t |}.
Definition ask_at (host domain nonce : str) (t : Z) : event :=
  {| ev_host := host; ev_time := t; ev_set := nonce_attrs domain nonce |}.
Definition answered_at (host domain : str) (t : Z) : event :=
  {| ev_host := host; ev_time := t; ev_set := nonce_gone domain |}.
Definition logout_at (host domain : str) (t : Z) : list event :=
  map (fun a => {| ev_host := host; ev_time := t; ev_set := a |}) (clear_attrs domain).

(** A request path. *)
Definition rooted (path : str) : Prop := exists p, path = slash :: p.
