(** Reading the configuration file again while the proxy runs: main.go configLoop,
    ReadConfig, and the part of Reconfigure that can panic or fail.  The rest of
    Reconfigure is in ReconfModel and RouteModel. *)
From Verif Require Import Base HttpModel SettingsModel ConfigModel.
Local Open Scope Z_scope.

(** What the rest of the world answers during one round of the loop.
    [w_file]: the file as decoded by the YAML library, [None] if it cannot be opened
    or decoded.  [w_same]: Config.equal (config.go:765-769).  [w_oidc]: oidc.New
    returns no error.  [w_read]: os.ReadFile.  [w_pem]: pem.Decode, with the type of
    the block, whether its bytes are a certificate, and the number of bytes consumed
    minus one; [None] if there is no block.  [w_passkey]: passkeys.NewManager returns
    no error.  [w_rest]: the authorities, the backends and the SSH authorities give
    no error (proxy.go:392-412, 431-734, 797-825). *)
Record world := {
  w_env : env;
  w_file : option config;
  w_same : config -> config -> bool;
  w_oidc : oidc -> bool;
  w_read : str -> option str;
  w_pem : str -> option (str * bool * nat);
  w_passkey : passkey -> bool;
  w_rest : bool
}.

(** saml.go:274-284: the loop of readCerts; [block] is nil when pem.Decode finds
    no block. *)
Fixpoint read_certs (w : world) (fuel : nat) (b : str) : outcome unit :=
  match b with
  | [] => Ok tt
  | _ :: _ =>
      match fuel with
      | O => OutOfFuel
      | S fuel =>
          match w_pem w b with
          | None => Panic
          | Some (ty, good, n) =>
              if str_eqb ty (lit "CERTIFICATE") && negb good then Err
              else read_certs w fuel (skipn (S n) b)
          end
      end
  end.

(** saml.go:263-273: the text of the certificates. *)
Definition cert_text (w : world) (s : str) : option str :=
  if has_prefix s (lit "/") then w_read w s else Some s.

(** saml.go:84-105 New *)
Definition saml_new (w : world) (p : saml) : outcome unit :=
  do b <- match cert_text w (sa_certs p) with Some b => Ok b | None => Err end;
  do _ <- read_certs w (List.length b) b;
  do _ <- need (url_ok (w_env w) (sa_sso p));
  need (url_ok (w_env w) (sa_acs p)).

(** proxy.go:360-389: one passkey provider; the state is identityProviders. *)
Definition passkey_new (w : world) (idps : list str) (o : option passkey) : outcome (list str * unit) :=
  do p <- deref o;
  do _ <- need (mem (pk_other p) idps);
  do _ <- need (w_passkey w p);
  Ok (pk_name p :: idps, tt).

(** Artefact: the names of a list of pointers. *)
Definition names_of {A} (f : A -> str) (l : list (option A)) : list str :=
  flat_map (fun o => match o with Some a => [f a] | None => [] end) l.

(** proxy.go:281-863 Reconfigure, up to the point where the new configuration is
    put in force.  The clone (line 290, config.go:771-776) goes through YAML and is
    taken to be the same configuration. *)
Definition reconfigure (w : world) (c : config) : outcome config :=
  do c <- check (w_env w) c;
  do _ <- each (fun o => do p <- deref o; need (w_oidc w p)) (cf_oidc c);
  do _ <- each (fun o => do p <- deref o; saml_new w p) (cf_saml c);
  do _ <- each_st (passkey_new w) (names_of oi_name (cf_oidc c) ++ names_of sa_name (cf_saml c)) (cf_passkey c);
  do _ <- need (w_rest w);
  do _ <- each (fun o => deref o) (cf_ws c);
  Ok c.

(** main.go:129-145, config.go:1190-1208, proxy.go:281-287: one round of the loop;
    the result is the configuration in force.  A panic is not recovered: it ends
    the process. *)
Definition round (w : world) (cur : config) : outcome config :=
  match w_file w with
  | None => Ok cur
  | Some c =>
      match check (w_env w) c with
      | Ok c1 =>
          if w_same w c1 cur then Ok cur
          else match reconfigure w c1 with
               | Ok c2 => Ok c2
               | Err => Ok cur
               | Panic => Panic
               | OutOfFuel => OutOfFuel
               end
      | Err => Ok cur
      | Panic => Panic
      | OutOfFuel => OutOfFuel
      end
  end.

(** Artefact: the rounds one after the other. *)
Fixpoint rounds (h : list world) (cur : config) : outcome config :=
  match h with
  | [] => Ok cur
  | w :: h' => do c <- round w cur; rounds h' c
  end.
