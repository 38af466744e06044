(** Which tokens the proxy issues, and histories of key rotations. *)
From Verif Require Import Base TokenModel.
Open Scope Z_scope.

Section Hash.
Variable hhash : str -> str.

(** The purposes for which the proxy issues tokens. *)
Inductive kind :=
| KSession (cm : cookie_mgr) (user email sid host : str) (iat : Z) (extra : claims)
| KIdentity (aud : cval) (iat : Z) (cm : cookie_mgr) (user email sid host : str) (iat0 : Z) (extra : claims)
    (* an identity token derived from the session with the remaining arguments *)
| KUrl (url sid : str) (email : option str)
| KOpenID (issuer client : str) (user : claims) (iat : Z) (nonce : str) (scopes : list str)
    (rewrites : list (str * str)).

Definition claims_of (k : kind) : option claims :=
  match k with
  | KSession cm user email sid host iat extra => session_claims hhash cm user email sid host iat extra
  | KIdentity aud iat cm user email sid host iat0 extra =>
      option_map (idtoken_claims aud iat) (session_claims hhash cm user email sid host iat0 extra)
  | KUrl url sid email => Some (url_claims url sid email)
  | KOpenID issuer client user iat nonce scopes rw => Some (apply_rewrites rw (oidc_claims issuer client user iat nonce scopes))
  end.

(** t is a token that the proxy issued for the purpose k. *)
Definition issued_as (k : kind) (t : jwt) : Prop := claims_of k = Some (t_claims t).

(** The rewrite rules of the built-in OpenID server are written by the
    administrator, who must not redefine the claims that tell tokens apart. *)
Definition rules_ok (k : kind) : Prop :=
  match k with
  | KOpenID _ _ _ _ _ _ rw =>
      forall x, In x (map fst rw) -> ~ In x [lit "proxyauth"; lit "url"; lit "sid"; lit "iss"; lit "aud"]
  | _ => True
  end.

(** Signatures cannot be forged: a token whose signature was made with one of the
    proxy's keys is one that the proxy issued. *)
Definition unforged (keys : list key) (t : jwt) : Prop :=
  (exists k, In k keys /\ t_signer t = Some (kid k, ktyp k)) -> exists k, issued_as k t /\ rules_ok k.
End Hash.

(** The stored keys after rotations at the given times, oldest first.  A rotation
    happens at every start and every hour while the proxy runs. *)
Definition keys_after (tpm : bool) (times : list Z) : list key :=
  fst (fold_left (fun '(ks, id) t => (rotate tpm id t ks, (id + 3)%nat)) times ([], O)).

(** Times that do not go back and are at most d apart. *)
Fixpoint paced (d : Z) (t0 : Z) (ts : list Z) : Prop :=
  match ts with
  | [] => True
  | t :: ts' => t0 <= t <= t0 + d /\ paced d t ts'
  end.
