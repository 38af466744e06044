(** What an administrator relies on when reading the console. *)
From Verif Require Import Base ConsoleModel.
Open Scope list_scope.

(** How often an event has been reported. *)
Definition times (m : str) (reported : list str) : nat := count_occ str_eq_dec reported m.

(** Sorted, each only once. *)
Fixpoint increasing (l : list str) : Prop :=
  match l with
  | [] => True
  | x :: l' => (match l' with [] => True | y :: _ => str_leb x y = true /\ x <> y end) /\ increasing l'
  end.

(** The server names of a configuration. *)
Definition names_of (k : config) : list str := map (fun x => fst (fst x)) (k_backends k).

(** Something that anyone can cause, without a certificate and without logging in. *)
Definition anonymous (h : happening) : Prop :=
  match h with
  | Tcp c => t_cert c = NoCert
  | Quic c => q_cert c = NoCert
  | Sso _ _ _ => False
  | _ => True
  end.
(** The texts that come from libraries and from backends. *)
Definition foreign (h : happening) : list str :=
  match h with
  | Tcp c => t_dial c ++ match t_wait c with Some e => [e] | None => [] end
  | Quic c => q_dial c ++ match q_wait c with Some e => [e] | None => [] end
  | Http2Error kind => [lit "http2 client error: " ++ kind]
  | _ => []
  end.
(** The texts of the proxy itself. *)
Definition fixed_events : list str :=
  map lit ["tcp connection"; "quic connection"; "too many open connections"; "invalid ClientHello"; "no SNI"; "unexpected SNI";
           "backend shutdown"; "tls handshake failed"; "access denied"; "cert is revoked"; "mismatched server name"; "dial error";
           "conn chan nil"; "openstream error"; "panic"; "config change"]%string.
(** ... with a server name *)
Definition events_with (uni : str -> str) (n : str) : list str :=
  [lit "deny no cert to " ++ uni n; lit "ocsp staple error for " ++ uni n;
   uni n ++ lit " CheckIP access denied"; n ++ lit " CheckIP access denied"].

(** TCP connections in a history. *)
Definition is_tcp (h : happening) : bool := match h with Tcp _ => true | _ => false end.

(** The connections for a name that have their counters. *)
Definition attached (c : conn) : bool := match c_place c with Attached _ => true | _ => false end.
Definition of_name (s : state) (n : str) : list conn :=
  filter (fun c => attached c && str_eqb (c_name c) n) (s_conns s).
Definition sum (l : list nat) : nat := fold_right plus 0 l.

(** Pointers that point to something. *)
Definition valid (h : heap) (c : cfgobj) : Prop :=
  Forall (fun p => p < List.length (h_oidc h)) (g_oidc c) /\
  Forall (fun p => p < List.length (h_be h) /\
    forall l, e_clients (nth p (h_be h) no_be) = Some l -> Forall (fun q => q < List.length (h_client h)) l) (g_backends c).

(** Two configurations that differ in the secrets only. *)
Definition same_client (a b : client) : Prop := l_rest a = l_rest b.
Definition same_oidc (a b : oidc) : Prop := o_rest a = o_rest b.
Definition same_be (a b : btree) : Prop :=
  v_rest a = v_rest b /\ v_headers a = v_headers b /\
  match v_clients a, v_clients b with
  | Some l, Some l' => Forall2 same_client l l'
  | None, None => True
  | _, _ => False
  end.
Definition same_but_secrets (a b : tree) : Prop :=
  w_rest a = w_rest b /\ Forall2 same_oidc (w_oidc a) (w_oidc b) /\ Forall2 same_be (w_backends a) (w_backends b).

(** A configuration in which every secret is replaced. *)
Definition hide_client (c : client) : client := {| l_rest := l_rest c; l_secret := lit "**REDACTED**" |}.
Definition hide (t : tree) : tree :=
  {| w_rest := w_rest t;
     w_oidc := map (fun o => {| o_rest := o_rest o; o_secret := lit "**REDACTED**" |}) (w_oidc t);
     w_backends := map (fun b => {| v_rest := v_rest b; v_headers := v_headers b; v_clients := option_map (map hide_client) (v_clients b) |}) (w_backends t) |}.

(** Memory after the page has been looked at [n] times. *)
Fixpoint after_views (enc : tree -> str) (c : cfgobj) (n : nat) (h : heap) : heap :=
  match n with O => h | S n' => fst (show_config enc (after_views enc c n' h) c) end.

(** The same connection with another outcome of the rate limiter and of the dial. *)
Definition with_dial (c : tcp) (w : option str) (d : list str) (ok : bool) : tcp :=
  {| t_over := t_over c; t_hello := t_hello c; t_ip := t_ip c; t_staple := t_staple c; t_no_cert := t_no_cert c; t_early := t_early c;
     t_late := t_late c; t_proto := t_proto c; t_cert := t_cert c; t_moved := t_moved c; t_wait := w; t_dial := d; t_dial_ok := ok; t_panic := t_panic c |}.
(** Events that say that a connection was turned away. *)
Definition turned_away (m : str) : Prop :=
  List.In m [lit "too many open connections"; lit "invalid ClientHello"; lit "unexpected SNI"; lit "backend shutdown"; lit "tls handshake failed";
             lit "access denied"; lit "cert is revoked"; lit "mismatched server name"] \/ has_prefix m (lit "deny ") = true.
