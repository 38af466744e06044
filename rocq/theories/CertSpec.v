(** Specification: the patterns in tlsCertificates, and which certificate a
    client should see.  Nothing here refers to the definitions of [CertModel],
    except the records that hold the configuration. *)
From Verif Require Import Base CertModel.

(** ** Patterns, after the documentation of Go's path.Match

    [*] stands for any characters other than a slash, [?] for one of them,
    [[a-z_]] for one character of a class, and [[^a-z_]] for one that is not in
    it; a backslash takes away the meaning of the next character. *)
Inductive term :=
| TStar
| TAny
| TChar (c : ascii)
| TClass (negated : bool) (rs : list (ascii * ascii)).

Inductive matches : list term -> str -> Prop :=
| MNil : matches [] []
| MStar ts s1 s2 : ~ In "/"%char s1 -> matches ts s2 -> matches (TStar :: ts) (s1 ++ s2)
| MAny ts c s : c <> "/"%char -> matches ts s -> matches (TAny :: ts) (c :: s)
| MChar ts c s : matches ts s -> matches (TChar c :: ts) (c :: s)
| MClass ts neg rs c s :
    ((exists lo hi, In (lo, hi) rs /\ nat_of_ascii lo <= nat_of_ascii c <= nat_of_ascii hi) <-> neg = false) ->
    matches ts s -> matches (TClass neg rs :: ts) (c :: s).

(** How patterns are written. *)
Inductive char_text : ascii -> str -> Prop :=
| CPlain c : ~ In c (lit "\-]") -> char_text c [c]
| CEscaped c : char_text c ["\"%char; c].

Inductive range_text : ascii * ascii -> str -> Prop :=
| ROne c t : char_text c t -> range_text (c, c) t
| RSpan lo hi tl th : char_text lo tl -> char_text hi th -> range_text (lo, hi) (tl ++ lit "-" ++ th).

Inductive term_text : term -> str -> Prop :=
| XStar : term_text TStar (lit "*")
| XAny : term_text TAny (lit "?")
| XPlain c : ~ In c (lit "*?\[") -> term_text (TChar c) [c]
| XEscaped c : term_text (TChar c) ["\"%char; c]
| XClass neg rs texts : rs <> [] -> Forall2 range_text rs texts ->
    (neg = false -> hd "]"%char (List.concat texts) <> "^"%char) ->
    term_text (TClass neg rs) (lit "[" ++ (if neg then lit "^" else []) ++ List.concat texts ++ lit "]").

Definition reads (pattern : str) (ts : list term) : Prop :=
  exists texts, Forall2 term_text ts texts /\ pattern = List.concat texts.

(** ** Which certificate *)

(** An entry of tlsCertificates is for a name if one of its server names is
    that name, or a pattern that it matches. *)
Definition is_for (c : tls_cert) (name : str) : Prop :=
  exists v, In v (tc_names c) /\ (v = name \/ exists ts, reads v ts /\ matches ts name).

(** The first entry for a name. *)
Definition first_for (certs : list tls_cert) (name : str) (c : tls_cert) : Prop :=
  exists before after, certs = before ++ c :: after /\ is_for c name /\ forall c', In c' before -> ~ is_for c' name.

(** The name of a handshake. *)
Definition wanted_name (cfg : cert_cfg) (sni name : str) : Prop :=
  (sni <> [] /\ name = sni) \/ (sni = [] /\ name = cc_default_name cfg).

(** A wildcard certificate is good for one more label (RFC 6125, 6.4.3), which
    is how TLS clients understand it. *)
Definition wildcard_covers (base name : str) : Prop :=
  exists label, label <> [] /\ ~ In "."%char label /\ name = label ++ lit "." ++ base.

(** The certificate manager is consulted about a name: for a handshake, if no entry of
    tlsCertificates is for it. *)
Definition managed (ev : cert_event) (name : str) : Prop :=
  match ev_op ev with
  | Reload _ => False
  | Handshake _ _ sni => wanted_name (ev_cfg ev) sni name /\ ~ In "/"%char name /\ forall c, In c (cc_certs (ev_cfg ev)) -> ~ is_for c name
  | ClientCert _ n => n = name
  end.
(** What the authority would hand out. *)
Definition authority (ev : cert_event) : str -> option chain :=
  match ev_op ev with Reload _ => fun _ => None | Handshake _ issue _ => issue | ClientCert issue _ => issue end.
