(** What the file must look like, and which configuration should be in force. *)
From Verif Require Import Base HttpModel SettingsModel ConfigModel ConfigSpec ReloadModel.
Local Open Scope Z_scope.

(** A text that is nothing but PEM blocks, whatever is in them. *)
Inductive only_pem (w : world) : str -> Prop :=
| op_nil : only_pem w []
| op_block b ty good n :
    w_pem w b = Some (ty, good, n) -> only_pem w (skipn (S n) b) -> only_pem w b.
(** All its certificates can be parsed. *)
Inductive good_pem (w : world) : str -> Prop :=
| gp_nil : good_pem w []
| gp_block b ty good n :
    w_pem w b = Some (ty, good, n) -> (ty = lit "CERTIFICATE" -> good = true) ->
    good_pem w (skipn (S n) b) -> good_pem w b.

(** The certificates of a provider: a text that starts with a slash is the name of the file
    that has them, and any other text is them. *)
Definition certificates (w : world) (s b : str) : Prop :=
  (exists q, s = ("/"%char :: q) /\ w_read w s = Some b) \/ ((forall q, s <> ("/"%char :: q)) /\ b = s).

(** A file that cannot crash the proxy: no list has a null entry, and the
    certificates of every SAML provider are PEM blocks and nothing else (or cannot be
    read at all). *)
Record harmless (w : world) (c : config) : Prop := {
  hl_nulls : no_nulls c;
  hl_ws : no_null (cf_ws c);
  hl_pem : forall p b, In p (present (cf_saml c)) -> certificates w (sa_certs p) b -> only_pem w b
}.

(** Everything the configuration refers to can be set up. *)
Record starts (w : world) (c : config) : Prop := {
  st_oidc : forall p, In p (present (cf_oidc c)) -> w_oidc w p = true;
  st_saml : forall p, In p (present (cf_saml c)) ->
    (exists b, certificates w (sa_certs p) b /\ good_pem w b) /\
    parses (w_env w) (sa_sso p) /\ parses (w_env w) (sa_acs p);
  st_passkey : forall l1 p l2, present (cf_passkey c) = l1 ++ p :: l2 ->
    (In (pk_other p) (other_names c) \/ In (pk_other p) (map pk_name l1)) /\ w_passkey w p = true;
  st_rest : w_rest w = true
}.

(** The file of this round can be used, and [c] is what it says, with its
    defaults. *)
Definition usable (w : world) (c : config) : Prop :=
  exists c0, w_file w = Some c0 /\ no_nulls c0 /\ no_null (cf_ws c0) /\ valid (w_env w) c0 /\
             c = full (w_env w) c0 /\ starts w c.

(** The last usable file of the history is the one in force. *)
Definition last_usable (h : list world) (cur c : config) : Prop :=
  (c = cur /\ forall w c', In w h -> ~ usable w c') \/
  (exists h1 w h2, h = h1 ++ w :: h2 /\ usable w c /\ forall w' c', In w' h2 -> ~ usable w' c').

(** Laws of the libraries: converting a name to ASCII twice is the same as once, and
    equal serialisations come from equal configurations. *)
Definition lawful (w : world) : Prop :=
  (forall s, e_ascii (w_env w) (e_ascii (w_env w) s) = e_ascii (w_env w) s) /\
  (forall a b, w_same w a b = true -> a = b).
