# Formal model of c2FmZQ/tlsproxy in Rocq (Coq 8.16.1)

Source: `/repo` (read as text, never built or run).  All line numbers in the
model's comments refer to that pinned commit.

## Layout

Each area of the code has its own group of files in `rocq/theories/`:

* `XModel.v`  -- the code, function by function, as total computable Gallina
  functions.  Every definition cites the file and lines it models and lists
  its simplifications.  No proofs about properties.
* `XSpec.v`   -- where needed, an independent specification that uses none of
  the model's helpers.
* `XProofs.v` -- lemmas.
* `XProps.v`  -- only the property theorems, each closed by `exact`, followed
  by `Print Assumptions`, with an `Example` showing that the hypotheses are
  met by a concrete non-trivial case.

Shared: `Base.v` (byte strings as `list ascii`, string helpers of Go's
`strings` package with their characterisations).

## Modelling conventions

* Go strings and byte slices are `list ascii` (bytes), resp. `list N` where
  arithmetic on bytes matters.
* A Go panic is an explicit outcome (`Panic`), never a default value.
* Errors are values.  `nil` is an explicit `None`.
* Cryptography, randomness, the clock, the file system and the network are
  inputs of the model (function arguments or closed-section variables).  A
  token signature is modelled as authentic (C115 relates this to texts): a token validates only if it was
  created by the model's own `CreateToken` with a key that is still stored.
* Goroutines are explicit interleavings: a list of atomic steps (one step per
  critical section or per observable action); theorems quantify over all lists.

## Plan per property

| id | what is modelled | theorem |
|----|------------------|---------|
| C01 | `netw.Conn.Peek/Read` over an adversarial reader that returns arbitrary chunks | induction over op lists: output ++ buffered ++ rest = stream |
| C02 | `peekClientHello` on bytes; independent encoder of ClientHello | decode (encode h) = h |
| C03 | same parser with explicit panics on out-of-range indexing | no panic for all inputs with a non-empty record; `_refuted` witness: zero-length record |
| C04 | `Check`'s uniqueness loop, map construction in `Reconfigure`, `backend()` | Check ok -> lookup = declarative routing relation, unique |
| C05 | `handleConnection` as a decision function | refused outcome for unlisted names |
| C06 | `checkIP` on bit-level CIDR, dispatch of `handleConnection` | iff; every forwarding outcome implies the test |
| C07 | `authorize` | iff with a declarative ACL relation |
| C08 | ALPN selection, `VerifyConnection`, `authorizeTLSConnection`, QUIC `GetConfigForClient` | the handshake's backend is the delivering backend |
| C09 | `reAuthorize` over connections in all set-up phases, with panics | closes exactly the forbidden ones when it does not panic; `_refuted` crash witnesses |
| C10 | `connTracker` + admission | invariant over event lists |
| C11 | close-once protocol, in-flight accounting with interleavings | invariant; `_refuted` leak on the QUIC race |
| C12 | backend hand-over channel state machine | closed at most once; `_refuted` send-on-closed and dropped connection |
| C13 | `dial` round robin, sequential and interleaved | cyclic order, tries all; `_refuted` under concurrency |
| C14 | `forward`/`bridgeConns` state machine | all data then EOF; half-close table |
| C15 | `path.Clean`, `pathClean` | canonical form, idempotence |
| C16 | `serveStaticFiles` over an abstract file tree | containment |
| C17 | HTTP pipeline: authenticate, local endpoints, SSO policy, forward | any non-bypass service on a protected path implies valid + allowed |
| C18 | ACL check | iff |
| C19, C20 | header map, director, Go's ReverseProxy hop-by-hop removal | provenance theorems; C20 `_refuted` by Connection header |
| C21 | XFCC encoder; independent decoder | decode (encode x) = x |
| C22 | host check | implication |
| C23 | Via handling | single-header case proved; `_refuted` for several Via lines / Connection: via |
| C24 | sort order + first match | longest match, order independent |
| C25 | override loop | first-match spec at element boundary |
| C26 | cookie filter + policy path test | exact filter; `_refuted` outside protected paths |
| C27-C30 | claim maps, token kinds, validators | pairwise rejection theorems |
| C31, C32 | key store, rotation, restarts, clock | invariant over histories; `_refuted` after long downtime |
| C33 | re-auth clause | iff |
| C34, C35 | OIDC server state machine | single use by induction; C35 `_refuted` |
| C36 | OIDC client state machine with several browsers | binding; nonce clause `_refuted` |
| C37, C38 | SAML state machine | single use; browser binding `_refuted` |
| C39-C41 | passkey store state machine | invariants; origin clause `_refuted` |
| C42 | byte parser + encoder | round trip, no panic |
| C43-C45 | CA database state machine | invariants; CRL clauses `_refuted` with sub-second witness |
| C46 | `ServeCertificate` | implication |
| C47, C48 | `VerifyChains` over arbitrary responders | soundness; completeness and binding clauses `_refuted` |
| C49 | name normalisation of bandwidth groups | `_refuted`; proved for lower-case names |
| C50 | `Reconfigure` as a sequence of effects with failure points | characterisation; `_refuted` |
| C51 | ring buffer counter | value and rate exactness; `_refuted` for long periods |
| C52 | clean-up loop | implication |
| C53 | `shouldLog` | resolution table |
| C54 | `validateProxyProtoVersion` | accepted set; `_refuted` |
| C55 | the reverse proxy and the local handler as one function of a request | totality of the answers |
| C56 | OIDC server, client secrets and redirect addresses | implication over histories |
| C57-C59 | passkey registration, deletion, user verification | invariants over histories |
| C60, C61 | CA database: delegates, serial numbers, several managers | invariants; `_refuted` |
| C62 | decoding of an OCSP GET request | round trip; `_refuted` |
| C63 | OCSP cache shared by concurrent calls | rely-guarantee over all interleavings |
| C64 | SSH authority over restarts | invariant |
| C65 | configurations accepted one after the other | invariant |
| C66, C67 | clean-up of certificates against concurrent reloads | invariants over interleavings; `_refuted` |
| C68 | modes and challenge hellos in the connection handler | case analysis of the routing model |
| C69, C70 | the accept loops, stream handlers and copying of a forwarded QUIC connection | invariants over interleavings, measure; `_refuted` |
| C71 | writeProxyHeader with the library's two formats, dial | round trip against a separate parser of the PROXY protocol; `_refuted` |
| C72 | the key of pooled connections, the choice of transport, dial, dialQUICBackend | invariant over histories of requests; injectivity of the key |
| C73 | acceptProxyHeader, the library's default policy, peekClientHello and the dispatch | composition with C06, C71 |
| C74 | the three goroutines of webSocketHandler, gorilla's frame reader, the clock | invariant over all histories; measure for progress |
| C75 | Config.Check in full; lists of pointers may have nil entries | each loop is shown equivalent to a condition on the list; composition of the equivalences |
| C76 | configLoop, ReadConfig, the parts of Reconfigure and saml.New that can fail or panic | induction over the readings of the file |
| C77 | the loops over root lists, loadCerts, both verification callbacks | exactness of the pools; composition with the connection handler; `_refuted` |
| C78, C79 | the table of backends by name, addLocalHandler, SetACL, subjectIsAllowed | exact contents after all calls; composition with the local handlers (C24) and routing (C01); `_refuted` |
| C80, C81 | os.Expand, expandVars, the header rules, reverseProxyModifyResponse, setAltSvc | templates by induction over their pieces; composition with C55 and C04; `_refuted` |
| C82, C83 | PasskeyHttpModel: RequestLogin, HandleCallback, ManageKeys, setAuthToken as a plan of critical sections of PasskeyModel per request; nonces, CSRF header, session age, host of the endpoint | the critical sections of a history of requests form a history of C39, so its exact description of the keys applies; case analysis of the handlers gives the request conditions; nonces by induction on the history; honest answers by persistence of the challenge |
| C84 | SignModel: verifySignature, signedBytes, Bytes.MarshalJSON; the primitives are parameters | exact characterisation of the accepted signatures; the signed bytes determine both parts because the hash has a fixed length; combined with the histories of C39 |
| C85 | CertModel: path.Match (scanChunk, matchChunk, getEsc, Match), getCertFromConfig, GetCertificate, getClientCert; the files, x509 parsing, the OCSP cache and the authority are parameters | a grammar of patterns and a matching relation; the greedy search is complete because a chunk has a fixed length and the leftmost place leaves most to the next star; case analysis for the choice |
| C86 | CertModel: histories of reloads, handshakes and backend connections over the manager | invariant of the manager over histories |
| C87 | JwksModel: ServeJWKS with base64, big.Int.Bytes and json.MarshalIndent; the keys of TokenModel | a reader for JSON tokens, base64url and numbers; compositional tokenising; the key that signs was in the set two hours before, from the invariant of rotations |
| C88 | BrowserModel: the cookies that the proxy sets, net/http cookie domains, the cookie store of RFC 6265, the Cookie header; HttpModel and TokenModel read it | invariants over histories of Set-Cookie (places are unique, origin of every cookie), stable sort of the header, text round trip of the header |
| C89 | the same, with ClearCookies | the place of the session cookie is empty after a logout |
| C90 | the same, with sessionID | a cookie for one host comes back |
| C91 | ShutdownModel: Shutdown, its waiting goroutine and condition variable, Stop, the handler and the close callback of every TCP connection | invariant over all interleavings, refutations by schedules |
| C92 | PkiWebModel: ServeCertificateManagement with its list, filters and rights, revocation, download, static files, and the requests that the page sends, on the histories of PkiModel | invariants of histories, exact characterisation of the list |
| C93 | LimitModel: the token bucket of golang.org/x/time/rate, Read, Write, Close and CloseWrite of the connections that share it | invariant over all timed histories, account per interval, refutations by histories |
| C94 | ForwardModel: the calls of connLimit.Wait for connections of each kind and for HTTP requests, over the limiter of LimitModel | projection of the history to that of the limiter, credit invariant, refutations by histories |
| C95 | LogModel: the entries of connections and requests, from the target as it was sent to the file; url.URL.String, strconv.Quote | lemmas on each part of an entry, parsing from the end, refutations for any line |
| C96 | DiscoveryModel: the document, the endpoints and their paths, what they read from requests; on top of HttpModel (dispatch) and LoginModel (codes and tokens) | the dispatch theorem C24 for each endpoint, the origin of tokens C34, cleaned paths have no empty element |
| C97 | ConsoleModel: recordEvent and all its callers, setCounters in its two parts, the tables of the page, the configuration as objects in memory that are cloned and redacted | counting, an invariant over interleavings, memory only grows under the clone, noninterference |
| C98 | AuthorityModel: the types of keys with and without TPM, New, the delegate and its rotation, ServeCACert, the start of the SSH authority | tables, invariants over histories, a reader of PEM and of DER in the specification |
| C99 | RefreshModel: the target of a request in net/url, URL.String, http.Redirect and checkCookies | the path as written is decoded element by element; a browser's reading of the Location in the specification |
| C100 | KeygenModel: the form, its encoding and url.ParseQuery, the service worker as steps of requests in any order, MakeCSR and MakeResponse | invariant: numbers of requests differ and keys belong to numbers; simulation of two histories that differ in passwords |
| C101 | StreamModel: handleQUICTCPStream, the two directions of bridgeConns between a QUIC stream and a connection, QUICStream with its done marks and the list of streams, counters, rows of the console | invariants over interleavings, measure; `_refuted` |
| C102 | StreamListModel: QUICConn.streams with the lock of the connection and the locks of the streams, one thread for every call | invariant over interleavings, linearization point, measure for progress; `_refuted` |
| C103 | TlsClientModel: flags, address, choice of the address to dial, VerifyConnection with the stapled response, the two copy loops with the network between them | string lemmas, case analysis, invariant over interleavings, measure; `_refuted` |
| C104 | SamlModel: the request as XML, compressed (parameter), in base64 and in a query; http.Redirect; the response as a tree, the checks and the claims, on the map of pending logins of LoginModel | round trips through the reader of SamlSpec, case analysis, invariant over histories; `_refuted` |
| C105 | PagesModel: the three pages as data (link, rows, buttons), the login and logout endpoints, on HttpModel's request processing, RefreshModel's URLs and TokenModel's tokens | round trips request - token - query - login with the reader of links in PagesSpec; case analysis; `_refuted` |
| C106 | MainModel: package flag's reading of the line with the flags of main, main as a function to its calls, lines and status, and signals as a transition system of main, the second goroutine, the grace period and Shutdown | induction over lines; case analysis over the ways through main; invariant over all interleavings; `_refuted` |
| C107 | AnswerModel: the alerts of hello.go byte by byte, handleConnection up to the point where a TLS library or a backend takes over, and how handleQUICConnection closes | case analysis over the ways through handleConnection with the routing theorems of C04; comparison of two configurations; `_refuted` |
| C108 | WholeModel: AcceptModel, ProxyHdrModel, HelloModel, RouteModel and HttpModel put together, from the first byte to the request that a backend gets | composition of the theorems of C02, C04-C08, C17, C19, C22, C68 and C73; the other direction by the round trip of C02 and a lemma on negotiation; `_refuted` by computation |
| C109 | PemModel: encoding/pem and encoding/base64 (Encode, Decode), certmanager.go, acmeAllCerts and parsePrivateKey | round trip by induction on bytes and lines; cut files by induction on the blocks with a case for each part of a block; soundness of the decoder by induction on its rounds; invariant over starts; `_refuted` by computation |
| C110 | LifeModel: New, Reconfigure (its servers), Start, ctxWait, Stop, Shutdown, incInFlight, close, startQUIC and the internal HTTP servers as a machine whose events are calls, failures and the steps of goroutines | invariants over histories by induction; accounting of connections in flight; `_refuted` by computation of a history |
| C111 | SigModel: encoding/asn1 (lengths, integers, sequences), FillBytes, tpmSigningMethod.Sign | DER reader proved sound and complete for a relational specification from X.690; FillBytes by induction on the size; `_refuted` for P-521 for all large R |
| C112 | OauthModel: the client with its messages (address, form, bearer token), options, claims; events are the parts of a callback between which others run | parameters by reading back what is written; honest logins by an invariant over the interleaved history (the login and its callback are left alone); composition with LoginModel; `_refuted` for GitHub, queries, refusals, domains, growth |
| C113 | ScriptModel: JSON printer and reader, the messages that webauthn.js and the templates send, the forms and arguments as manager.go reads them, the options and what the scripts make of them | round trips by induction on values; composition with PasskeyHttpModel for logins, first keys and buttons; `_refuted` for the privacy of names |
| C114 | CborModel: items, keys with integer labels, attestation objects; composed with PasskeyModel, SignModel and ScriptModel | reader against an inductive grammar of RFC 8949, both directions by induction; then composition with C113 and C84 |
| C115 | JwtModel: tokens as text, header, payload, base64url and JSON, the lookup of keys, the claims that the OpenID client takes from an ID token | acceptance as an equivalence with a specification after RFC 7515; base64url bit by bit by induction; round trips on top of the JSON of C113; refinement to TokenModel |
| C116 | VisitSpec: a browser that shows the proxy a session; the models of C19, C88 and C113 to C115 | composition of the theorems of C88, C113, C114 and C115; the converse from C19 and C115 |

No property is declared inexpressible.

## Results

Status `partial` means: the English claim as listed is false of the code or only part of it is proved; the note says which.

* **C01** (proved) Looking at the ClientHello never alters the byte stream.  All interleavings of Peek and Read, any fragmentation.  
  Theorems: `C01_reads_are_the_stream`, `C01_peek_shows_next_bytes`, `C01_no_byte_lost`
* **C02** (proved) Routing sees exactly the server name and ALPN list that the client sent.  Round trip for every well-formed hello in one record, and soundness of every accepted parse.  
  Theorems: `C02_hello_roundtrip`, `C02_hello_sound`, `C02_hello_consumes_nothing`
* **C03** (partial) No byte sequence sent by an unauthenticated client makes ClientHello inspection panic.  No-panic is refuted by an empty handshake record (recovered panic); proved that this is the only panic and that the parser terminates.  
  Theorems: `C03_hello_terminates`, `C03_hello_panics_only_on_empty_record`, `C03_hello_never_panics_refuted`
* **C04** (partial) An accepted configuration routes every connection unambiguously.  Proved for non-empty protocol names; refuted when a configuration or client uses the empty protocol name, which doubles as the default entry.  
  Theorems: `C04_routing_partial`, `C04_routing_unambiguous`, `C04_claims_are_unique`, `C04_routing_refuted`
* **C05** (proved) Connections for unknown server names are never forwarded.  Decision function of handleConnection, all hellos and configurations.  
  Theorems: `C05_only_listed_names`, `C05_unknown_names_refused`
* **C06** (proved) IP allow and deny lists are enforced before any traffic reaches a backend.  Bit-level CIDR semantics; literals in ::ffff: form excluded from the decision theorem.  
  Theorems: `C06_ip_decision`, `C06_ip_enforced`, `C06_no_ip_refused`, `C06_quic_ip_enforced`
* **C07** (proved) Client certificate ACLs mean what the documentation says.  authorize iff, and enforcement on every path that reaches a backend over TCP; QUIC in C08_quic_partial.  
  Theorems: `C07_acl_meaning`, `C07_empty_acl_accepts_none`, `C07_acl_enforced`
* **C08** (partial) The TLS session is authorised for the same server name that selected the backend.  Name, chain and ACL proved; revocation proved except when the backend was selected by h3 over TCP and is not the default of the name (refuted there).  
  Theorems: `C08_session_matches_backend`, `C08_revocation_partial`, `C08_revocation_refuted`, `C08_quic_partial`
* **C09** (partial) After a configuration change no connection survives that the new configuration forbids.  Exact set of closed connections proved when every open connection is checkable; crashes and surviving/closed connections outside that are refutations.  
  Theorems: `C09_closes_exactly_the_forbidden_partial`, `C09_new_connections_untouched`, `C09_removed_name_crashes_refuted`, `C09_removed_name_always_crashes`, `C09_added_acl_crashes_refuted`, `C09_starting_connection_crashes_refuted`, `C09_added_client_auth_ignored_refuted`, `C09_passthrough_closed_refuted`, `C09_quic_race_refuted`
* **C10** (partial) The number of connections being served never exceeds maxOpen.  Bound proved for all histories; "refused only at the limit" is off by one (refuted), exact threshold proved.  
  Theorems: `C10_limit_never_exceeded`, `C10_refused_only_when_full`, `C10_admitted_when_room`, `C10_counts_open_connections`, `C10_full_capacity_refuted`
* **C11** (partial) Each connection is accounted for exactly once.  At most one callback and empty list proved for all interleavings; in-flight exactness proved for orderly histories and refuted for the QUIC early-close race.  
  Theorems: `C11_callback_at_most_once`, `C11_open_list_empties`, `C11_in_flight_exact_partial`, `C11_in_flight_leak_refuted`
* **C12** (partial) Replacing a backend never breaks the hand-over of accepted connections to its HTTP server.  Single close proved for all interleavings; idle-close proved for orderly histories; send on closed channel and dropped connections are refutations.  
  Theorems: `C12_channel_closed_once`, `C12_second_close_noticed`, `C12_channel_closed_when_idle_partial`, `C12_none_after_shutdown`, `C12_send_on_closed_refuted`, `C12_dropped_connection_refuted`
* **C13** (partial) Backend addresses are used round-robin, and a dial fails only after trying every address.  Sequential dials: full. Concurrent dials: attempts are cyclic and a dial fails only after n attempts, but C13_concurrent_dial_refuted shows a dial may try one address twice and fail without trying another.  
  Theorems: `C13_cyclic_order`, `C13_equal_share`, `C13_error_after_all`, `C13_first_that_answers`, `C13_concurrent_attempts_cyclic_partial`, `C13_concurrent_dial_refuted`
* **C14** (proved) Bridged connections deliver all bytes before the close, in each direction.  Interleaved model of both copy goroutines, peers, faults and half-close settings.  
  Theorems: `C14_delivered_is_prefix`, `C14_eof_after_all_data`, `C14_timeout_only_after_half_close`, `C14_closed_only_when_configured`, `C14_end_state`, `C14_nothing_held_back`, `C14_reset_ends`, `C14_half_open_ends`, `C14_comes_to_rest`
* **C15** (proved) Path cleaning is canonical and never redirects to another host.  Go path.Clean modelled byte by byte and shown equal to element-wise resolution; redirect Location modelled down to percent-encoding.  
  Theorems: `C15_clean_is_canonical`, `C15_idempotent`, `C15_redirect_same_host`, `C15_readable_paths_unchanged`
* **C16** (proved) Static file serving never leaves the document root or shows hidden files.  Lexical containment for any file system answers; symbolic links inside the document root are outside the model.  
  Theorems: `C16_only_visible_files_below_root`, `C16_redirects_are_clean`
* **C17** (proved) Single sign-on cannot be bypassed.  reverseProxy and localHandler, every request; relies on unforgeable signatures (unforged).  
  Theorems: `C17_sso_cannot_be_bypassed`, `C17_anonymous_is_sent_to_login`
* **C18** (proved) The SSO access list matches exactly the listed users and domains.    
  Theorems: `C18_access_list`, `C18_nil_accepts_all`, `C18_empty_accepts_none`, `C18_domain_entry`, `C18_domain_entry_exact`
* **C19** (proved) Clients cannot forge the identity headers given to backends.  For headers that the administrator's own forwarding rules do not set (user id only).  
  Theorems: `C19_user_header`, `C19_forwarded_for`, `C19_client_certificate`
* **C20** (partial) Backends that ask for the client-certificate header always get it.  Present whenever the request does not name it in a Connection header; a client can suppress it that way (refuted).  
  Theorems: `C20_certificate_header_present_partial`, `C20_client_can_suppress_it_refuted`
* **C21** (partial) The client-certificate header cannot be forged from certificate contents.  Header decodes to exactly the configured fields, for every certificate; the certificate and hash fields determine the certificate; the subject field determines the subject unless an attribute value contains a slash (refuted there).  
  Theorems: `C21_header_reads_back`, `C21_query_escape_reversible`, `C21_certificate_determined`, `C21_hash_determined`, `C21_subject_determined_partial`, `C21_subject_forged_refuted`
* **C22** (proved) Requests for other hosts are never forwarded to a backend.    
  Theorems: `C22_only_own_hosts`, `C22_misdirected`
* **C23** (partial) Forwarding loops are cut.  Cut on the second arrival unless the client named Via in a Connection header (refuted); no endless loop even then.  
  Theorems: `C23_loops_are_cut_partial`, `C23_via_can_be_dropped_refuted`, `C23_no_endless_loop`
* **C24** (proved) The most specific local endpoint answers, independent of configuration order.    
  Theorems: `C24_matches`, `C24_most_specific`, `C24_matching_requests_stay`, `C24_order_irrelevant`, `C24_sorting_exists`
* **C25** (partial) Path overrides select backends by whole path elements, first match wins.  First match and element boundaries proved; an override with addresses is ignored when the backend has none of its own (refuted).  
  Theorems: `C25_first_matching_override`, `C25_override_files`, `C25_redirects`, `C25_override_without_default_addresses_refuted`
* **C26** (partial) The proxy's own session cookie is not disclosed to backends.  Proved for protected paths; the cookie is forwarded outside them (refuted).  
  Theorems: `C26_cookies_partial`, `C26_session_cookie_withheld_partial`, `C26_session_cookie_disclosed_refuted`
* **C27** (partial) Session, identity, URL and API tokens are never interchangeable.  Sessions: full. Bearer tokens: never session or URL tokens; an identity token of another provider with the same callback host is accepted (refuted clause). URL tokens: a session or identity token with an IdP-supplied url claim is accepted (refuted clause).  
  Theorems: `C27_session_only_from_session_of_provider`, `C27_other_tokens_are_no_sessions`, `C27_only_in_its_time`, `C27_bearer_only_from_identity_tokens`, `C27_session_and_url_tokens_are_no_bearer_tokens`, `C27_url_tokens_partial`, `C27_session_token_as_url_token_refuted`, `C27_bearer_of_other_provider_refuted`
* **C28** (proved) Claims supplied by an identity provider cannot override the proxy's own claims.    
  Theorems: `C28_reserved_claims_fixed`, `C28_other_claims_kept`, `C28_session_has_user`
* **C29** (proved) Identity tokens never outlive the session they come from.    
  Theorems: `C29_identity_token_inherits`, `C29_identity_token_drops`, `C29_not_accepted_after_session`, `C29_cookie_of_its_session`
* **C30** (partial) A redirect after login only goes to a URL the proxy itself signed for this browser.  Full when no identity provider supplies a claim named url; the exception is refuted by C27_session_token_as_url_token_refuted. The url path "signed for this browser" is the sid cookie.  
  Theorems: `C30_url_bound_to_browser_partial`, `C30_url_bound_to_browser`, `C30_other_browser_refused`, `C30_own_browser_accepted`
* **C31** (partial) Signed tokens stay verifiable for their whole lifetime.  Proved for downtimes up to five days; refuted for downtimes of more than a week.  
  Theorems: `C31_tokens_stay_verifiable_partial`, `C31_long_downtime_refuted`, `C31_keys_kept_seven_days`
* **C32** (partial) The signing key set stays bounded and usable.  Keys of all types always present and new keys wait: full. Bounded for rotations at most 8 hours apart (they are hourly); unbounded growth with daily short runs is proved.  
  Theorems: `C32_always_a_key`, `C32_own_tokens`, `C32_new_keys_wait`, `C32_bounded`, `C32_unbounded_with_daily_restarts`
* **C33** (proved) Forced re-authentication is honoured per host.    
  Theorems: `C33_forced_reauth_per_host`, `C33_session_cookie`, `C33_identity_tokens_do_not_count`
* **C34** (proved) OpenID authorization codes and access tokens work once, for two minutes, for the right client.  Over all histories of critical sections; clock readings non-decreasing for the two-minute bound, random codes distinct for "at most once" (else bounded by the number of draws).  
  Theorems: `C34_code_at_most_once`, `C34_code_only_for_its_client`, `C34_code_within_two_minutes`, `C34_access_token_at_most_once`, `C34_user_info_of_the_user`
* **C35** (partial) The token request must use the redirect URI of the authorization request.  Refuted: the token request may name any address registered for the client. Proved: both addresses are registered for the same client, and with a single registered address they are equal.  
  Theorems: `C35_same_redirect_refuted`, `C35_registered_redirect_partial`, `C35_single_address`
* **C36** (partial) An OpenID login completes only in the browser and for the login that started it.  Same browser, first use, five minutes, once, user checks proved. The clause that the identity token was issued for the same login is refuted: a token with the nonce of another pending login is accepted.  
  Theorems: `C36_same_browser_partial`, `C36_one_session_per_login`, `C36_user_checked`, `C36_token_for_that_login_refuted`
* **C37** (proved) A SAML response is accepted once, within its validity, for this service.  Over all histories. The finer reading that the end of the validity period is exclusive is refuted by one instant.  
  Theorems: `C37_saml_response_checked`, `C37_saml_once`, `C37_end_exclusive_refuted`
* **C38** (partial) A SAML login completes only in the browser that started it.  Refuted: a SAML login is not tied to the browser. Proved: the session goes to the browser that posted the response and to the page of the request it answers.  
  Theorems: `C38_saml_same_browser_refuted`, `C38_saml_session_of_the_request_partial`
* **C39** (proved) A passkey logs in only the user who registered it.  Over all histories of critical sections with distinct random user handles; the store is assumed not to fail; signatures, CBOR and JSON are parameters.  
  Theorems: `C39_login_of_the_registered_user`, `C39_keys_evolve`, `C39_other_users_untouched`
* **C40** (proved) A passkey challenge is used at most once and for five minutes.  Over all histories; distinct random challenges for "at most once", non-decreasing clock readings for the five minutes.  
  Theorems: `C40_challenge_once`, `C40_registration_session_and_time`, `C40_login_time`
* **C41** (partial) A passkey assertion is accepted only from the proxy's own origin.  Refuted: the origin in the client data of a login is not looked at. Proved: the origin is checked at registration, and a login carries the relying party hash of that host.  
  Theorems: `C41_own_origin_refuted`, `C41_relying_party_partial`
* **C42** (partial) Authenticator data is decoded exactly, and malformed data is refused without panic.  Round trip, no panic, and only the layout is accepted; refuted: bytes after the layout are accepted without the extension flag.  
  Theorems: `C42_never_panics`, `C42_round_trip`, `C42_only_the_format_partial`, `C42_no_trailing_bytes_refuted`
* **C43** (partial) Revocation is permanent and consistent.  Proved for the manager that revoked and for every manager started later, over all histories with failing writes and restarts. Refuted for a manager that a reconfiguration started before an in-flight request to the old one revoked.  
  Theorems: `C43_revoked_for_ever_partial`, `C43_good_unless_revoked`, `C43_serials_distinct`, `C43_all_managers_refuted`
* **C44** (partial) Every revocation list handed out is complete and current.  Numbers increase, lists contain only revoked certificates; complete except for a certificate revoked in the very second in which the list was made (refuted there); a list can be up to half an hour past its next update (refuted that it never is).  
  Theorems: `C44_numbers_increase`, `C44_complete_partial`, `C44_listed_only_if_revoked`, `C44_current_partial`, `C44_lists_bounded`, `C44_same_second_refuted`, `C44_past_next_update_refuted`
* **C45** (proved) The built-in CA certifies only the authenticated user's identity.  E-mail addresses without colons for the clause on subjects. Note C45_any_server_name: server names are not checked, so any user gets a server certificate for any name.  
  Theorems: `C45_issued_identity`, `C45_client_certificates`, `C45_name_of_one_user`, `C45_revoke_authorised`, `C45_any_server_name`
* **C46** (proved) SSH certificates are short-lived and name only the authenticated user.  Clock readings from 1970 to the end of their range.  
  Theorems: `C46_names_the_user`, `C46_short_lived`, `C46_unauthenticated_refused`, `C46_failures`, `C46_honest_request_succeeds`
* **C47** (partial) A revoked peer certificate is refused.  Proved for peers with a responder and a verified chain, over all interleavings of calls. Refuted: without a responder in the leaf certificate issuers are not checked; without verified chains nothing is; an error of an earlier chain is kept when a later one cannot be asked about.  
  Theorems: `C47_accepted_only_if_good_partial`, `C47_rejected_only_if_bad_partial`, `C47_cache_content`, `C47_issuers_unchecked_refuted`, `C47_no_chains_refuted`, `C47_stale_error_refuted`
* **C48** (partial) OCSP answers are only used for the certificate they are about and while current.  Proved for stapled and kept answers; refuted for new answers: one about another certificate, or an expired one, is accepted.  
  Theorems: `C48_staple_good`, `C48_about_the_certificate_refuted`, `C48_current_refuted`
* **C49** (partial) A configured bandwidth limit is applied.  Proved for groups whose names are in lower case, over all histories. Refuted: a name with an upper case letter gives no limit at all; two names that differ in case share one limit; a group without a name limits the backends without a group, for ever.  
  Theorems: `C49_limit_is_applied_partial`, `C49_no_group_no_limit_partial`, `C49_upper_case_refuted`, `C49_case_collision_refuted`, `C49_unnamed_group_refuted`
* **C50** (partial) A rejected configuration changes nothing.  Routing, backends, CAs and the default name are unchanged after any failure, and so is everything if the checks, the identity providers or the CAs fail. Refuted: an error in an SSH certificate authority or a root CA leaves the new limits in force and HTTP servers running. Also proved: while reloads succeed there is one HTTP server for each backend that needs one (C50_servers); an accepted configuration loads if the environment does not fail, unless a passkey provider names itself.  
  Theorems: `C50_failed_reload_partial`, `C50_failed_reload_refuted`, `C50_servers`, `C50_accepted_configuration_loads`
* **C51** (proved) Traffic counters are exact.  For periods up to the one the counter was made for; for longer ones the rate is wrong (refuted). The int64 range and the floating point division are not modelled.  
  Theorems: `C51_value_is_the_total`, `C51_rate_is_exact`, `C51_rate_of_longer_period_refuted`
* **C52** (partial) Certificates of names still in use are never revoked by the clean-up.  Proved over all interleavings: revoked certificates had none of the names (letter by letter) configured when the clean-up looked; alone, certificates with a configured name survive. Refuted when a configuration is loaded meanwhile, and for wildcard names.  
  Theorems: `C52_revoked_was_unused_partial`, `C52_used_certificate_survives_partial`, `C52_disabled_clean_up_changes_nothing`, `C52_race_with_reload_refuted`, `C52_wildcard_refuted`
* **C53** (proved) Log settings resolve from the most specific to the most general.    
  Theorems: `C53_most_specific_setting`, `C53_classes_are_independent`, `C53_proxy_setting`
* **C54** (partial) The proxy protocol version setting is validated.  The accepted strings are exactly characterised; refuted that only versions 1 and 2 are accepted.  
  Theorems: `C54_accepted_values_partial`, `C54_real_versions`, `C54_header_due`, `C54_other_versions_refuted`
* **C55** (proved) Everything else in a request reaches the backend unchanged.    
  Theorems: `C55_other_headers_unchanged`, `C55_hop_headers_removed`, `C55_trailers`, `C55_path`
* **C56** (proved) Authorization codes are sent only to an address registered for the client.    
  Theorems: `C56_codes_only_to_registered_addresses`, `C56_granted_scope`
* **C57** (partial) A passkey credential belongs to one user.  Refuted: two users can register the same credential. Proved: if identifiers are distinct, the identifier determines the user.  
  Theorems: `C57_credential_of_one_user_refuted`, `C57_handle_selects_the_user_refuted`, `C57_distinct_credentials_partial`
* **C58** (proved) A passkey login rests on an identity confirmed within the refresh interval.    
  Theorems: `C58_identity_confirmed_in_interval`
* **C59** (proved) Only a passkey session can add a key to an account that has one.    
  Theorems: `C59_first_key_only`
* **C60** (partial) The authority's own certificate cannot be revoked by a user of the web page.  Refuted: an administrator can revoke the certificate of the authority with a request that the page does not offer. Proved: nobody else can.  
  Theorems: `C60_ca_never_revoked_refuted`, `C60_only_by_admin_partial`
* **C61** (partial) Requests for revocation lists and OCSP answers never crash.  Proved while the store works; refuted after a failed write of a delegate.  
  Theorems: `C61_fetch_never_panics_partial`, `C61_after_failed_write_refuted`
* **C62** (partial) Every standard way of sending an OCSP request by GET is understood.  URL-safe base64 and POST are always understood; refuted for standard base64 with a slash.  
  Theorems: `C62_get_understood_partial`, `C62_url_safe_understood`, `C62_standard_base64_refuted`, `C62_other_characters_refused`, `C62_post_understood`
* **C63** (partial) A certificate without an OCSP responder can be served.  Refuted: a certificate of the certificate manager without a responder crashes every handshake and, a minute later, the process. Proved: nothing else crashes.  
  Theorems: `C63_crash_cause_partial`, `C63_no_responder_crashes_refuted`, `C63_every_handshake_crashes`, `C63_flush_crashes_refuted`
* **C64** (proved) An SSH authority keeps its key.  Generated keys distinct for the clause on different authorities.  
  Theorems: `C64_files_distinct`, `C64_key_stays`, `C64_no_directory`, `C64_file_names`, `C64_keys_distinct`
* **C65** (proved) Connections that are already open follow their bandwidth limit group.  Group names in lower case, see C49.  
  Theorems: `C65_open_connections_follow_their_group`
* **C66** (partial) Certificates revoked by the clean-up are not served again.  Proved for a clean-up that meets no error. Refuted after an error in the middle.  
  Theorems: `C66_clean_up_completes`, `C66_success_is_true`, `C66_failure_is_true`, `C66_revoked_certificate_kept_refuted`
* **C67** (proved) Revoking all certificates revokes all of them or says so.    
  Theorems: `C67_revoke_all`
* **C68** (proved) The backend's mode decides what is done with a connection.    
  Theorems: `C68_mode_decides`, `C68_acme_never_reaches_backend`, `C68_acme_needs_name`
* **C69** (partial) Streams of a forwarded QUIC connection are kept apart.  Pairing and data are proved in full. The end of a stream is passed on correctly unless a stream is aborted, a connection lost or a deadline passes; refuted otherwise: an aborted stream looks complete, and a unidirectional stream is cut after the half-close timeout.  
  Theorems: `C69_streams_paired`, `C69_one_to_one`, `C69_no_stray_stream`, `C69_joined_for_good`, `C69_data_not_mixed`, `C69_end_of_stream_partial`, `C69_nothing_held_back`, `C69_reset_looks_like_end_refuted`, `C69_unidirectional_timeout_refuted`
* **C70** (partial) A forwarded QUIC connection ends when either side does.  Proved when the client goes and the backend has ended its streams. Refuted: a silent backend stream keeps the connections; the loss of the backend leaves the client connected, and its streams without an answer.  
  Theorems: `C70_comes_to_rest`, `C70_client_gone_partial`, `C70_not_before_the_client`, `C70_refused_streams_partial`, `C70_silent_backend_refuted`, `C70_backend_loss_refuted`, `C70_lost_stream_refuted`
* **C71** (partial) Backends learn from the PROXY header who the client is.  Proved for TCP and TLS backends; headers are read back by an independent parser of the PROXY protocol. The text form of IPv6 addresses is any injective one. Refuted: a backend in QUIC mode gets no header although a version is configured; version 1 cannot describe clients that use QUIC.  
  Theorems: `C71_header_tells_the_client`, `C71_header_is_written`, `C71_backend_connections_partial`, `C71_quic_backend_refuted`, `C71_unknown_address`, `C71_version_1_quic_clients_refuted`
* **C72** (partial) Requests share a backend connection only if that makes no difference.  Proved for all transports except that HTTP/3 connections carry no header at all (refuted). Assumes that no two keys of the history collide under SHA-256.  
  Theorems: `C72_connection_suits_request`, `C72_header_is_about_this_client_partial`, `C72_no_header_unless_configured`, `C72_http3_backend_refuted`, `C72_protocol_is_the_configured_one`
* **C73** (proved) Only listed peers can speak for other clients.    
  Theorems: `C73_others_speak_for_themselves`, `C73_headers_from_others_are_refused`, `C73_hello_is_no_header`, `C73_proxy_in_front`, `C73_rules_for_the_real_client`, `C73_broken_header`
* **C74** (partial) WebSocket tunnels carry bytes unchanged.  Delivery, order, completeness at the end, progress and the time-out are proved. Refuted: a client that answers every ping at once is given up when the server stops taking bytes for 30 seconds. The race on lastActive (written and read by two goroutines without a lock) is not modelled.  
  Theorems: `C74_bytes_pass_unchanged`, `C74_nothing_left_behind`, `C74_nothing_gets_stuck`, `C74_end_is_final`, `C74_given_up_after_silence_partial`, `C74_dead_clients_are_given_up`, `C74_answering_clients_refuted`
* **C75** (partial) Config.Check accepts the valid configurations and no others.  Exact characterisation of what is accepted, defaults, idempotence, agreement with the routing model. Refuted: the default limit on open connections can be zero or negative and a negative rate is accepted; the domain is only tested to be a suffix of the host; a passkey provider may name itself. Lists with null entries are C76.  
  Theorems: `C75_agrees_with_routing`, `C75_accepted_exactly`, `C75_otherwise_an_error`, `C75_checked_twice`, `C75_no_two_claims`, `C75_limits_partial`, `C75_domain_refuted`, `C75_limits_refuted`, `C75_own_provider_refuted`
* **C76** (partial) A configuration file that cannot be used does not stop the proxy.  Proved for files without null entries and without text outside the PEM blocks of SAML certificates, and that nothing else ends the process. Refuted for both: a null entry, or an empty line after the last certificate, is a panic that nothing recovers.  
  Theorems: `C76_last_good_file_partial`, `C76_only_these_crash`, `C76_certificates_are_read_to_the_end`, `C76_null_entries_refuted`, `C76_certificate_text_refuted`, `C76_own_provider_never_starts`
* **C77** (partial) Peers are trusted only through the configured roots.  Proved for backends that list at least one client root. Refuted without roots: such a configuration is accepted and every client with a certificate from a public authority gets in. Chain building is a parameter.  
  Theorems: `C77_every_root_is_read`, `C77_clients_partial`, `C77_connections_partial`, `C77_servers`, `C77_no_roots_refuted`
* **C78** (partial) Endpoints are served at their URLs and nowhere else.  Where every endpoint ends up is proved exactly. That it answers is proved for URLs with a clean path whose host is listed by one backend. Refuted: URL without path; host shared by a mail backend and an HTTPS backend.  
  Theorems: `C78_who_gets_what`, `C78_backend_of_a_host`, `C78_empty_protocol`, `C78_host_of_a_request`, `C78_endpoint_answers_partial`, `C78_nowhere_else`, `C78_connections_reach_it_partial`, `C78_no_path_refuted`, `C78_shared_name_refuted`
* **C79** (partial) The access list of a backend applies to its passkey provider.  Proved if the backends that use the provider and have a callback agree. Refuted: otherwise the order of a Go map decides, and if there is no such backend everyone may register.  
  Theorems: `C79_access_list_partial`, `C79_meaning`, `C79_order_matters_refuted`, `C79_not_set_refuted`
* **C80** (partial) Configured request headers reach the backend with the values of this user and connection.  Refuted without the restriction that the client does not name the header in its Connection header: the client can remove a configured header, but never replace its value. Rules with the same header in different case are excluded (Go iterates over a map).  
  Theorems: `C80_templates`, `C80_every_value_is_a_template`, `C80_variables`, `C80_configured_headers_partial`, `C80_not_forged`, `C80_host`, `C80_configured_headers_refuted`
* **C81** (proved) Responses of backends arrive unchanged, with HSTS and an HTTP/3 offer.  Responses that the proxy makes itself (login pages, static files, errors) carry no HSTS header; the property is about those of backends.  
  Theorems: `C81_responses`, `C81_strict_transport`, `C81_alt_svc`, `C81_same_backend`
* **C82** (partial) Keys are changed only by their user, from the proxy's own pages.  All proved except the last sentence, which is false: a session made with a key that has been deleted can still register keys while it is less than ten minutes old (C82_session_of_deleted_key_refuted). Requests are handled one at a time here; the critical sections in any order are C39-C41.  
  Theorems: `C82_keys_change`, `C82_current_key_kept`, `C82_login_started_here`, `C82_session`, `C82_session_of_deleted_key_refuted`
* **C83** (partial) An honest registration or login succeeds.  Proved for any history in between. False when the URL of the endpoint has a port: the options name a relying party with the port, the check uses the name without (C83_endpoint_with_a_port_refuted); C83_at_the_endpoint_partial is the case without a port.  
  Theorems: `C83_registration`, `C83_login`, `C83_at_the_endpoint_partial`, `C83_endpoint_with_a_port_refuted`
* **C84** (partial) A passkey login is signed by the holder of the key, for this login.  All proved except the last sentence, which is false: the public key is not looked at when it is registered, so a key of an unsupported type can become the only key of a user, who then can neither log in nor register another (C84_registered_key_usable_refuted, C84_unsupported_key_locks_out). ECDSA, RSA, SHA-256 and the CBOR decoder are parameters.  
  Theorems: `C84_bytes`, `C84_accepted`, `C84_holder_signed`, `C84_registered_key_usable_refuted`, `C84_unsupported_key_locks_out`
* **C85** (partial) Clients see the certificate that is configured for the name.  Everything except the last sentence is proved, including that path.Match decides the documented relation for all patterns and all names without a slash. The last sentence is false: the star of *.example.com also covers several labels (C85_wildcard_refuted), names in tlsCertificates are not normalised like those of backends (C85_name_in_capitals_refuted), and certificates for backends never come from tlsCertificates (C85_client_certificate_refuted). Bytes stand for characters; autocert is modelled by its cache and account.  
  Theorems: `C85_pattern_matching`, `C85_malformed_pattern`, `C85_listed_certificate`, `C85_other_certificate`, `C85_other_certificate_available`, `C85_wildcard_refuted`, `C85_name_in_capitals_refuted`, `C85_client_certificate_refuted`, `C85_asked_once`, `C85_for_this_name`
* **C86** (partial) Let's Encrypt is asked for certificates only while its terms are accepted.  Proved for handshakes. False for the certificates shown to backends, which are requested without looking at acceptTOS (C86_client_certificates_refuted).  
  Theorems: `C86_asked_only_if_accepted_partial`, `C86_available_if_accepted`, `C86_client_certificates_refuted`
* **C87** (partial) The published key set lets others check the proxy's tokens.  All but the last sentence is proved; the document is read by a separate decoder for JSON, base64url and big-endian numbers. The last sentence is false: leading zeros of coordinates are dropped (C87_full_width_refuted gives a point of P-256), and true for the other keys (C87_width_partial). SHA-256 is assumed collision-free where it matters; the keys decode and storage does not fail, as in C31.  
  Theorems: `C87_answer`, `C87_one_reading`, `C87_not_modified`, `C87_signing_keys_are_published`, `C87_full_width_refuted`, `C87_width_partial`
* **C88** (partial) A login is recognised by the hosts that the provider covers.  Browsers are modelled after RFC 6265 with any list of public suffixes and any size limit. Proved for every history in which all session cookies have the same Domain; C88_which_cookie says which cookie is read in general. The last sentence is false: a Domain that is a suffix of the callback host but not of its labels is accepted and no browser stores the cookie (C88_domain_refuted), and an older session of another provider with another Domain hides all later logins, however many (C88_other_provider_refuted), because all providers use one cookie name. Set-Cookie is modelled by its attributes, not its text.  
  Theorems: `C88_recognised`, `C88_no_login_page`, `C88_no_redirect_loop`, `C88_nonce_comes_back`, `C88_nonce_used_once`, `C88_which_cookie`, `C88_other_provider_refuted`, `C88_domain_refuted`
* **C89** (partial) Logging out ends the session in the browser.  Proved for histories in which all session cookies have the Domain of the provider. Identity tokens of other hosts stay in the browser, are sent to the backends of those hosts and accepted by the proxy as bearer tokens until the session would have ended (C89_identity_token_elsewhere_refuted, C89_example). Sessions are not stored by the proxy, so a copy of the cookie that is kept elsewhere stays valid too.  
  Theorems: `C89_logged_out`, `C89_no_identity_token`, `C89_other_cookies_stay`, `C89_identity_token_elsewhere_refuted`
* **C90** (partial) Links on the proxy's pages work in the browser that got the page.  Proved when no other page replaced the identifier in between. Two pages loaded at once by a browser without an identifier get different ones, and the links on the first stop working (C90_two_pages_refuted).  
  Theorems: `C90_links_work`, `C90_two_pages_refuted`
* **C91** (partial) Shutting down is graceful, complete and prompt.  Proved over all interleavings: HTTP connections are not cut before the end of the grace period, Stop leaves none open, Shutdown ends. False as stated: TCP, TLS and TLSPASSTHROUGH connections are not waited for (C91_tunnels_are_cut_refuted); backends without an HTTP server are not told, so connections being set up still reach them (C91_no_new_connections_refuted); the report of the last connection can be lost between the look at the list and the wait, because the broadcast is not made under the lock, and then Shutdown takes the whole grace period (C91_shutdown_waits_for_nothing_refuted); a tunnel in set-up is taken for a request and waited for (C91_waits_for_a_tunnel_refuted). QUIC connections and reconfiguration during Shutdown are not modelled.  
  Theorems: `C91_requests_are_not_cut`, `C91_no_new_requests_partial`, `C91_stop_closes_all`, `C91_nothing_is_accepted`, `C91_shutdown_ends_partial`, `C91_shutdown_waits_for_nothing_refuted`, `C91_tunnels_are_cut_refuted`, `C91_no_new_connections_refuted`, `C91_waits_for_a_tunnel_refuted`
* **C92** (partial) The page of the certificate authority tells the truth and its buttons work.  Proved: the lines are exact and complete, issued certificates stay listed, newest first; a user can revoke their own certificates with the button; the button is on just the lines for which a request with the parameters of the page would be granted; downloads are never of revoked certificates; changes need POST and x-csrf-check. False as stated: an administrator who has asked for their rights is shown Revoke on the certificates of others, but the request of the button leaves out the parameter admin and is denied (C92_admin_button_refuted, and C92_button_only_for_own for all histories), as the filters do (C92_filters_drop_admin); View and Download are on the lines of revoked certificates and fail there (C92_view_button_refuted).  
  Theorems: `C92_lines_are_true`, `C92_nothing_is_left_out`, `C92_issued_is_listed`, `C92_newest_first`, `C92_revoke_button_partial`, `C92_offered_iff_granted`, `C92_button_only_for_own`, `C92_admin_button_refuted`, `C92_filters_drop_admin`, `C92_view_button_partial`, `C92_view_button_refuted`, `C92_download_not_revoked`, `C92_changes_are_deliberate`, `C92_refusals`
* **C93** (partial) Bandwidth limits hold and do nothing but delay.  Proved for every history without a close during a wait: the bound on every interval, with the buffers of the calls that had passed the limiter before it; the wait is no longer than the queue needs; exactly the calls above the burst or on closed connections fail. False as stated: any number of bytes can move at one moment, because a read pays before it waits for its peer (C93_any_bound_refuted); a close during a wait can give back more than was taken, by the arithmetic of golang.org/x/time/rate (C93_giving_up_refuted); QUIC streams cannot be read after the write side is closed (C93_quic_half_close_refuted); reads are charged for their buffer, so a few bytes can use up the limit (C93_small_reads_refuted); a limit of zero, also by omission, ends all transfers after 128 KB (C93_zero_limit). The limiter is a dependency modelled from its published source; changes of the limits during the history are not in this model.  
  Theorems: `C93_limit_is_kept_partial`, `C93_total_is_kept_partial`, `C93_any_bound_refuted`, `C93_giving_up_refuted`, `C93_giving_up_partial`, `C93_refused_iff`, `C93_only_delays`, `C93_quic_half_close_refuted`, `C93_small_reads_refuted`, `C93_zero_limit`
* **C94** (partial) The forward rate limit holds for connections and HTTP requests.  Proved for every history without a client leaving during its wait: the bound on every interval for the connections that are forwarded as a whole, the bound since the start for them together with the requests of HTTP/3 when no two requests of a connection look at the flag at once, and the longest wait of a connection. False as stated: requests over HTTP/1 and HTTP/2 are not counted, because their context holds a *tls.Conn, which has no annotations (C94_requests_refuted); streams of QUIC connections to TCP and TLS backends are not counted (C94_streams_refuted); HTTP/3 requests that come together all count as the first (C94_http3_refuted). The limiter is that of C93.  
  Theorems: `C94_connections_partial`, `C94_http3_partial`, `C94_only_delays`, `C94_default_limit`, `C94_requests_refuted`, `C94_streams_refuted`, `C94_http3_refuted`, `C94_http_streams_refuted`
* **C95** (partial) Clients cannot write to the log what they like.  Proved: an entry of a request is one line exactly if it does not show the decoded path or that has no newline, for every target, query and user agent; entries of connections are one line for certificates without newlines; the status and the user agent are determined by the entry, and so are the identities if they have none of the separators; each request has one entry with its method, target and status, but for three kinds of answers. False as stated: a request for a name that is not one of the backend (421) leaves no trace; redirects, files and refused methods are logged with the decoded path, so that %0A starts a new line: any client of a backend with files (C95_files_refuted), and without login any client of a backend with an endpoint that needs none, such as every backend with single sign-on (C95_endpoints_refuted), can write any line. Certificates can do the same and can look like a user (C95_certificates_refuted, C95_identities_refuted).  
  Theorems: `C95_lines_are_entries`, `C95_connections_partial`, `C95_requests_partial`, `C95_files_refuted`, `C95_endpoints_refuted`, `C95_every_request_partial`, `C95_shows_the_status`, `C95_every_request_refuted`, `C95_url_is_true`, `C95_url_has_no_control_characters`, `C95_quoted`, `C95_status_is_true`, `C95_user_agent`, `C95_identities_partial`, `C95_identities_refuted`, `C95_certificates_refuted`
* **C96** (partial) What the OpenID server announces about itself is true.  Proved: with a clean prefix every announced URL is answered by its endpoint; under the first name the issuer is right; all tokens of every history carry the issuer, the client and an announced algorithm, when no rewrite rule sets those claims; clients that send their secret in the form are served; when the policy covers the authorization endpoint only users on its access list get codes, for themselves (C96_codes_for_admitted_users); a copy is kept only if it is current. False as stated: under other names the issuer does not match (C96_issuer_refuted); the port is dropped (C96_port_refuted); the document names whatever host the request names (C96_host_is_not_checked_refuted); a prefix that ends with a slash disables all endpoints (C96_slash_refuted); when the paths of the policy do not cover the authorization endpoint its access list does not apply there and nobody is asked to log in (C96_outside_paths_refuted); HTTP Basic, which the document implies, is not accepted (C96_basic_refuted).  
  Theorems: `C96_endpoints_answer_partial`, `C96_document`, `C96_issuer_partial`, `C96_issuer_refuted`, `C96_tokens_match_the_document`, `C96_codes_for_admitted_users`, `C96_scopes`, `C96_port_refuted`, `C96_host_is_not_checked_refuted`, `C96_slash_refuted`, `C96_outside_paths_refuted`, `C96_basic_refuted`, `C96_form_is_read`, `C96_not_modified`
* **C97** (partial) The console shows what has happened, and no secrets.  Proved: exact counts of events and of connections and bytes for each name, for every interleaving; every TCP connection is counted once; the page is the same whatever the secrets of OpenID providers and clients are; the running configuration stays as it is; clients who are not authenticated cannot add more rows than there are names and fixed texts. False as stated: every user who logs in, even if refused, adds a row for ever (C97_table_stays_small_refuted); the values of forwardHttpHeaders, where passwords for backends are, are shown (C97_header_values_refuted). Not modelled: the tables of the Go runtime and of open connections.  
  Theorems: `C97_events_exact`, `C97_tcp_connections_counted`, `C97_turned_away`, `C97_table_stays_small_partial`, `C97_table_stays_small_refuted`, `C97_names_exact`, `C97_names_once`, `C97_stream_direction`, `C97_no_secrets`, `C97_rest_is_shown`, `C97_running_configuration_untouched`, `C97_header_values_refuted`, `C97_challenge`
* **C98** (partial) An authority works with every type of key that it accepts, and its files can be read.  Proved: exactly which types start an authority; the key stays; with types written as documented every request is answered in every history and the database grows by at most one certificate each five days; the PEM file is read back exactly; the other one is a certificate until the first answer. False as stated: Ed25519 with a capital is accepted, and then no status is ever given and each anonymous request adds a certificate to the database (C98_capitals_refuted); ed25519 does not work with a TPM (C98_tpm_refuted); after the first answer the file for IssuingCertificateURL is several certificates one after the other, which is not a certificate (C98_der_file_refuted).  
  Theorems: `C98_starts`, `C98_key_stays`, `C98_answered_partial`, `C98_growth_partial`, `C98_capitals_refuted`, `C98_tpm_refuted`, `C98_pem_file`, `C98_der_file_partial`, `C98_der_file_refuted`, `C98_ssh_starts`
* **C99** (partial) Renewing the identity token brings the user back to the page that they asked for.  Proved: which requests are answered like this; the browser stays on the host for every path that does not start with two slashes; for paths without empty, "." and ".." elements and ASCII targets it gets the same path and query, whatever was escaped; GET and HEAD stay. False as stated: //name/ sends a signed-in user to any host that the maker of a link chose (C99_other_host_refuted); a form that is posted is lost (C99_post_refuted); paths with empty elements change (C99_untidy_refuted).  
  Theorems: `C99_only_then`, `C99_same_host_partial`, `C99_same_page_partial`, `C99_unchanged`, `C99_other_host_refuted`, `C99_post_refuted`, `C99_untidy_refuted`
* **C100** (partial) A key that is made in the browser is delivered with its certificate under the user's password.  Proved: every text survives the form; the page gets a file with the key, the certificate and the password that was typed, under the serial number shown on the page; the certificate that the authority issues is for that key; forms in progress do not affect each other; what is sent does not depend on passwords; the names are those in the field. False as stated: when the server refuses, the key and the password stay in the worker (C100_refused_key_kept_refuted); a format that is not on the page is noticed after the certificate was issued, and the key is lost (C100_format_checked_late_refuted); the worker does not compare the certificate with the key (C100_other_certificate_refuted).  
  Theorems: `C100_form_round_trip`, `C100_passwords_checked`, `C100_names`, `C100_page`, `C100_defaults`, `C100_certificate_for_the_key`, `C100_isolated`, `C100_password_stays`, `C100_keys_forgotten_partial`, `C100_refused_key_kept_refuted`, `C100_format_checked_late_refuted`, `C100_other_certificate_refuted`
* **C101** (partial) A QUIC stream that is forwarded to a TCP backend is like a connection to it.  Proved for every schedule: delivered data, the half-close of the backend, that nothing is held back while the backend is connected, that the loss of the QUIC connection ends the backend connection, that the proxy comes to rest, that only finished streams leave the list, the counters of the connection. False as stated: a cut answer and an unreachable backend look like a complete answer (C101_cut_answer_refuted, C101_no_backend_refuted); the end of the backend connection does not end the stream (C101_silent_client_refuted); a stream on which the client sends after that is forgotten but stays open and listed (C101_left_behind_refuted); a backend that speaks on a unidirectional stream stops the data of the client (C101_one_way_refuted); the log always says that 0 bytes were carried (C101_log_refuted); the console shows the backend of the last stream for all (C101_destination_refuted).  
  Theorems: `C101_delivered_is_prefix`, `C101_backend_told`, `C101_client_told_partial`, `C101_cut_answer_refuted`, `C101_no_backend_refuted`, `C101_nothing_held_back_partial`, `C101_silent_client_refuted`, `C101_settings_on`, `C101_settings_off`, `C101_settings_default`, `C101_half_close_timeout`, `C101_connection_gone`, `C101_comes_to_rest`, `C101_listed`, `C101_unlisted_partial`, `C101_left_behind_refuted`, `C101_counted`, `C101_log_refuted`, `C101_one_way_refuted`, `C101_destination_partial`, `C101_destination_refuted`
* **C102** (partial) The list of streams of a QUIC connection is exact and does not grow.  Proved for every schedule: what Streams returns, the list when no call is in progress, its order, the absence of deadlocks, and that all calls return. False as stated for HTTP/3: streams that the client opens for one direction are never taken off the list, because their other half, which does not exist, is never ended (C102_one_way_refuted); so a client can make the list as long as it likes with one stream at a time (C102_list_grows_refuted).  
  Theorems: `C102_streams`, `C102_quiet`, `C102_in_order`, `C102_no_deadlock`, `C102_all_return`, `C102_one_way_refuted`, `C102_list_grows_refuted`
* **C103** (partial) The client command carries its input and output faithfully, to the server that was named.  Proved: the meaning of addresses, the name that is checked, the usage, what an accepted OCSP response must say, that both directions are copied in order and completely, that nothing is held back, when each end is passed on. False as stated: the OCSP response is checked with the second certificate that the server happens to send, so the holder of a revoked certificate can sign it with their own key (C103_own_response_refuted, C103_any_key_refuted), while honest responses are refused if the certificate was issued by a root or the response has no NextUpdate (C103_ocsp_root_refuted, C103_ocsp_no_next_refuted); [address] without a port is not understood (C103_address_refuted); only the first address is tried (C103_other_addresses_refuted); the status is 0 even if the output was cut (C103_status_refuted); a read error looks like the end of the input (C103_cut_input_refuted); the rest of the input is lost when the server ends its output first (C103_upload_refuted); with QUIC the server is not told that the connection is over (C103_told_over_refuted).  
  Theorems: `C103_address`, `C103_address_v6`, `C103_address_refuted`, `C103_peer`, `C103_other_addresses_refuted`, `C103_usage`, `C103_ocsp_partial`, `C103_own_response_refuted`, `C103_any_key_refuted`, `C103_ocsp_honest_partial`, `C103_ocsp_required`, `C103_ocsp_root_refuted`, `C103_ocsp_no_next_refuted`, `C103_ocsp_off`, `C103_in_order`, `C103_output`, `C103_status_refuted`, `C103_server_told_partial`, `C103_cut_input_refuted`, `C103_nothing_held_back`, `C103_delivered`, `C103_delivered_later`, `C103_comes_to_rest`, `C103_upload_refuted`, `C103_told_over_partial`, `C103_told_over_refuted`
* **C104** (partial) A SAML login sends the provider a request that it can read, and the session says what the provider signed.  Proved: what the provider reads from the redirect, byte by byte, for every configuration; its page and its other parameters; that an honest answer makes the session if the entity is https://, the host of the callback and a slash; that sessions come from the signed element; the claims; that these are the logins of C37 and C38. False as stated: an identifier begins with a digit, which is not a valid XML name, unless the first random byte is at least 160 (C104_id_refuted, C104_id_partial); with any other entity every honest answer is refused (C104_honest_refuted); parameters with a semicolon are dropped (C104_parameters_refuted); an address without a scheme is accepted and leads back to the proxy (C104_page_refuted); an attribute called source replaces the issuer (C104_source_refuted); further values of an attribute are dropped (C104_all_values_refuted); pending logins are only cleared by a signed response (C104_pending_refuted).  
  Theorems: `C104_request_arrives`, `C104_any_text`, `C104_answered`, `C104_parameters`, `C104_parameters_refuted`, `C104_page_refuted`, `C104_id_partial`, `C104_id_refuted`, `C104_honest_partial`, `C104_honest_refuted`, `C104_signed`, `C104_whole_name`, `C104_same_logins`, `C104_claims`, `C104_source_refuted`, `C104_all_values_refuted`, `C104_pending_partial`, `C104_pending_refuted`, `C104_refused`, `C104_method`
* **C105** (partial) The pages of single sign-on lead to where the user wanted to go, and show the truth.  Proved: logins start only with tokens of the proxy for this browser; the buttons of the three pages, followed in the same browser, start a login for exactly the page that was asked for; logging out clears the cookies whatever else is in the request; the rows and buttons of the status page; what is shown of an address; that the link is right for hosts without a port; that the status page can be shown for all tokens with proper dates. False as stated: the link drops the port (C105_link_refuted); international names are displayed with percent escapes (C105_name_refuted); long hosts are cut, so that different ones look the same (C105_shown_host_refuted); the status page crashes for an OpenID token whose iat was rewritten by a rule (C105_status_works_refuted).  
  Theorems: `C105_login`, `C105_confirmation`, `C105_label`, `C105_denied`, `C105_logout`, `C105_status`, `C105_status_buttons`, `C105_status_works_partial`, `C105_link_partial`, `C105_shown`, `C105_only_tokens`, `C105_link_refuted`, `C105_name_refuted`, `C105_shown_host_refuted`, `C105_status_works_refuted`
* **C106** (partial) The command does what its flags ask for, and stops in good order.  Proved: flags, defaults and the last one counts; when the command serves; what it calls, with which values; the status and the line that says why, for all arguments; that mistakes in flags are reported and nothing is done; where lines go; that for proper lines nothing that is written depends on the passphrase; what the status says about signals and Shutdown; that a process that rests has had no signal or waits for Shutdown. False as stated: all that follows an argument that is no flag is ignored, so -quiet false means quiet and drops the rest (C106_arguments_refuted, C106_switch_refuted); revoking is ignored with certificates for tests (C106_revoke_refuted); -help or a misspelt flag shows the passphrase of the environment (C106_passphrase_refuted); a signal between the start and Notify ends the process without Shutdown (C106_graceful_refuted); a second signal may be lost (C106_second_refuted).  
  Theorems: `C106_flags`, `C106_serves`, `C106_actions`, `C106_codes`, `C106_where`, `C106_revoke_partial`, `C106_revoke_refuted`, `C106_arguments_refuted`, `C106_switch_refuted`, `C106_mistakes_partial`, `C106_passphrase_refuted`, `C106_passphrase_partial`, `C106_graceful_partial`, `C106_graceful_refuted`, `C106_status`, `C106_stops`, `C106_second_partial`, `C106_second_refuted`
* **C107** (partial) A client that is turned away hears why, and nothing more.  Proved: the bytes are nothing or one fatal alert record, after which the connection is closed; which alert means what, in both directions; only unreadable first messages are closed without a word; who reached a backend was sent nothing; a client to whom all backends of a name are closed hears the same whatever the configuration, over TLS and if it does not only ask for an ACME challenge; over QUIC it is never served. False as stated: asking only for acme-tls/1 tells a client that is not let in whether the name is served (C107_hidden_refuted); over QUIC it completes the handshake and is told access denied (C107_hidden_quic_refuted); a QUIC client whose backend went away hears code 0 (C107_quic_name_refuted).  
  Theorems: `C107_records`, `C107_too_many`, `C107_unrecognized`, `C107_internal`, `C107_silent`, `C107_refused`, `C107_hidden_partial`, `C107_quic_closed`, `C107_hidden_refuted`, `C107_hidden_quic_refuted`, `C107_quic_codes`, `C107_quic_name_refuted`
* **C108** (partial) Everything that a backend gets has passed all of its checks.  Proved: over TCP all checks of the backend hold together for everything that it gets, for any bytes and requests (C108_tcp, C108_direct); one connection is one backend and requests are answered in order; over QUIC the same for name, address, limits and requests, and for certificates while the configuration stays the same; honest clients get through. False as stated: a QUIC connection that was established before a new configuration is given to a backend of the new one without the certificate that this one wants (C108_quic_certificate_refuted). Which connection belongs to a backend is stated for configurations and hellos without empty protocol names (see C04).  
  Theorems: `C108_tcp`, `C108_direct`, `C108_one_backend`, `C108_quic`, `C108_quic_certificate_partial`, `C108_honest`, `C108_quic_certificate_refuted`
* **C109** (partial) What is written in PEM files is read back, whole or not at all.  Proved: round trip of blocks and files, cut files, what is read was there (C109_written_is_read, C109_file, C109_cut, C109_read_was_there), for types without a colon or a new line; the saved root is read whole or not at all, belongs together, and stays the same once it is saved, over any starts; entries of the cache are read back. False as stated: an expired root is used, one that cannot be saved changes at the next start, certificates for names are given out after their hour has passed, and bytes that are no private key are taken for one: parsePrivateKey returns a nil pointer without an error, and revoking such a certificate ends the program. x509 parsers are parameters; PEM and base64 are modelled.  
  Theorems: `C109_headers`, `C109_base64`, `C109_written_is_read`, `C109_colon_refuted`, `C109_file`, `C109_cut`, `C109_read_was_there`, `C109_root_file`, `C109_root_sound`, `C109_root_of_a_start`, `C109_same_root`, `C109_always_starts`, `C109_expired_refuted`, `C109_unsaved_refuted`, `C109_root_lasts`, `C109_one_certificate`, `C109_leaf_refuted`, `C109_entry`, `C109_entry_cut`, `C109_account`, `C109_no_account`, `C109_broken_key_refuted`, `C109_revoked`, `C109_panic_refuted`
* **C110** (partial) What the proxy opens it closes, over all of its life.  Proved over all histories: nothing panics but Stop or Shutdown of a proxy that was not started; the backends in force have their servers; reloading and Shutdown do not cut what is in flight over TCP; sockets and servers are closed after Stop; retired servers go away with their last connection; Stop can be called again; Start opens all or reports an error; reloads open and close no socket. False as stated: Stop before a successful Start panics; a Start that fails leaves its sockets open so that it cannot be repeated; a configuration loaded after Stop has servers that run on; a stopped proxy can be started and serves nothing; QUIC switched on by a reload is advertised but not served; Shutdown cuts HTTP/3 at once; the HTTP/3 server of a backend that is replaced while it has a connection is never closed.  
  Theorems: `C110_only_panic`, `C110_in_force_runs`, `C110_in_flight`, `C110_sockets_closed`, `C110_servers_closed`, `C110_retired`, `C110_stop_again`, `C110_start`, `C110_reload_sockets`, `C110_alt_svc_partial`, `C110_not_started_refuted`, `C110_failed_start_refuted`, `C110_reload_after_stop_refuted`, `C110_restart_refuted`, `C110_alt_svc_refuted`, `C110_shutdown_h3_refuted`, `C110_h3_refuted`, `C110_h3_partial`
* **C111** (partial) Tokens that are signed by the TPM verify like any other.  Proved for all curves whose size is a multiple of 8 (P-256, P-384), with the DER reader of encoding/asn1 modelled: R and S are kept (C111_token_signature_partial), there is one reading, tokens are made of DER signatures only, errors are refused. False for P-521: the size is rounded down, so the program panics or makes a signature that no verifier takes (C111_p521_refuted); the proxy makes only P-256 keys. The TPM and the hash are parameters. The branch for RSA hands the signature on as it is and is not modelled.  
  Theorems: `C111_token_signature_partial`, `C111_one_reading`, `C111_sound`, `C111_refused`, `C111_no_panic`, `C111_p521_refuted`
* **C112** (partial) An OpenID login sends the provider requests that it can read, and an honest login succeeds.  Proved for all histories: the parameters of the request (C112_request), the request for tokens (C112_token_request), honest logins with ID token or user info (C112_honest, C112_honest_info), with the built-in server as provider (C112_builtin), and that sessions come only from there (C112_session). False in part: users without a "sub" never get a session, which is all of them with the configuration for GitHub in the documentation (C112_no_subject_refuted); an endpoint that has a query is spoilt (C112_endpoint_query_refuted); refusals by the provider are not looked at (C112_denied_refuted, C112_token_error_refuted); a client with a hosted domain refuses all users of the built-in server (C112_builtin_domain_refuted); pending logins grow without bound (C112_pending_refuted). SHA-256, url.Parse and the parser of tokens are parameters; the discovery document and failures of the cookie manager other than missing names are not modelled.  
  Theorems: `C112_directory`, `C112_request`, `C112_verifier`, `C112_endpoint_query_refuted`, `C112_token_request`, `C112_honest`, `C112_honest_info`, `C112_session`, `C112_no_subject_refuted`, `C112_denied_refuted`, `C112_token_error_refuted`, `C112_pending_partial`, `C112_pending_refuted`, `C112_builtin`, `C112_builtin_domain_refuted`
* **C113** (partial) The scripts of the passkey pages and the server understand each other.  Proved: the reader of JSON takes exactly the texts of RFC 8259 (C113_json_grammar) and what either side writes is read back (C113_json), the messages of the scripts (C113_login_message, C113_registration_message, C113_questions), the options as the scripts read them (C113_registration_options, C113_login_options, C113_credentials), the algorithms (C113_algorithms), the client data (C113_client_data), and end to end logins, first keys and buttons (C113_sign_in, C113_first_key, C113_buttons). False in part: the options of a login tell anyone whether a name is registered (C113_names_hidden_refuted, C113_names_told). Strings are bytes: the replacement of broken UTF-8 is not modelled, nor are the times on the page, and numbers in JSON stay text.  
  Theorems: `C113_json`, `C113_json_grammar`, `C113_login_message`, `C113_registration_message`, `C113_questions`, `C113_registration_options`, `C113_credentials`, `C113_algorithms`, `C113_login_options`, `C113_client_data`, `C113_sign_in`, `C113_first_key`, `C113_buttons`, `C113_names_hidden_refuted`, `C113_names_told`
* **C114** (proved) What authenticators write is understood, down to the bytes.  The reader of CBOR takes exactly the items of RFC 8949 with definite lengths (C114_items, C114_first); attestation objects (C114_attestation), keys (C114_keys), and first keys and logins from the bytes of the authenticator to the session (C114_first_key, C114_sign_in). Items of indefinite length, which authenticators must not use, and the limits of the library are not modelled; SHA-256, the curve, ECDSA and RSA are parameters. That keys which cannot be checked are registered too is in C84.  
  Theorems: `C114_items`, `C114_first`, `C114_attestation`, `C114_keys`, `C114_first_key`, `C114_sign_in`
* **C115** (proved) Tokens survive being written down, and only texts with the proxy's signature are accepted.  C115_accepted says exactly which texts are accepted, against RFC 7515, RFC 4648 (bit by bit) and RFC 8259 (C115_claims, C115_algorithms); C115_refines connects texts with the tokens of C27 to C32; C115_created and C115_only_issued say that writing and reading fit together and that nothing else is accepted if signatures cannot be forged; C115_address, C115_session, C115_sign_in, C115_id_token, C115_builtin_claims and C115_builtin follow the tokens to their uses, so that C112_builtin and C113_sign_in hold without an assumption about the reading of tokens. Finding: a token has more than one text, a final end of line is accepted (C115_one_text_refuted); the claims are the same. Signature schemes are parameters; invalid UTF-8, which encoding/json replaces, and rounding of numbers above 2^53 are not modelled. Other algorithms that CreateToken could be asked for are not modelled.  
  Theorems: `C115_accepted`, `C115_claims`, `C115_algorithms`, `C115_refines`, `C115_created`, `C115_only_issued`, `C115_one_text_refuted`, `C115_address`, `C115_session`, `C115_sign_in`, `C115_id_token`, `C115_builtin_claims`, `C115_builtin`
* **C116** (partial) A login works from end to end, and nothing else names a user to a backend.  C116_recognised and C116_visit are for the session cookie of any provider, as a text; C116_passkey joins C113, C114 and C115 with the browser of C88 and the reverse proxy of C19; C116_openid says that every session that an OpenID login makes works; C116_no_redirect_loop says that the identity token that the proxy writes for a backend is one that it accepts, so the user is sent there only once; C116_only_made is the converse. False as stated for SAML: an attribute called nbf in a signed assertion becomes a claim of the session with which the proxy does not accept it, so the user is sent to the provider again and again (C116_saml_refuted); without such an attribute every session works (C116_saml_partial). The conditions under which a session reaches a host, is recent enough and fits into a cookie are those of C88; access lists can still refuse the user (C17). Extra claims of passkey identities are arbitrary, with numbers up to 2^53.  
  Theorems: `C116_no_redirect_loop`, `C116_texts`, `C116_openid`, `C116_saml_partial`, `C116_saml_refuted`, `C116_recognised`, `C116_visit`, `C116_passkey`, `C116_only_made`

## Findings: claims that are false of the code

Each is a theorem `..._refuted` with a concrete witness evaluated by the kernel.  The text is the comment in front of the theorem.

* `C10_full_capacity_refuted` (AccountProps.v): C10, "refused only when the limit is reached", is off by one: with limit 2 and one connection open, the second one is refused.
* `C11_in_flight_leak_refuted` (AccountProps.v): C11 in full is false: a QUIC client that closes its connection while the handler is looking up the backend makes the callback run before the connection is counted (quic.go:165-166), and the backend's in-flight number never returns to zero.
* `C12_send_on_closed_refuted` (AccountProps.v): C12 in full is false: a connection that looked up the backend just before it was replaced is counted after the channel was closed, and its hand-over panics (recovered; the client's connection is dropped).
* `C12_dropped_connection_refuted` (AccountProps.v): C12, "every connection handed over is either served or closed", is false: a connection that is still in its TLS handshake when its backend is replaced is later received by the loop that drains the channel of the closed listener (http.go:93-96) and dropped without being closed; it stays in the list of open connections and keeps the old backend alive.
* `C107_hidden_refuted` (AnswerProps.v): C107. Without these restrictions it is false. By offering only the protocol of ACME challenges, a client that may not use any backend of the name learns whether the proxy serves the name.
* `C107_hidden_quic_refuted` (AnswerProps.v): C107. Over QUIC a client that may not use any backend of the name completes the handshake, so it also sees the certificate, and is then told "access denied"; for a name that is not served the handshake fails.
* `C107_quic_name_refuted` (AnswerProps.v): C107. A QUIC client whose backends all shut down during its handshake is not told that its name is not recognised (code 0x1001): it hears code 0.
* `C98_capitals_refuted` (AuthorityProps.v): Finding: ed25519 with a capital is accepted, but then no status is ever given, and each request makes the authority issue one more certificate, which it keeps. Anyone can ask.
* `C98_tpm_refuted` (AuthorityProps.v): Finding: a documented type does not work with a TPM, whatever keys it can make.
* `C98_der_file_refuted` (AuthorityProps.v): Finding: after the first answer the same file is several certificates one after the other, which is not a certificate: the link in each issued certificate does not lead to the issuer's certificate any more.
* `C88_other_provider_refuted` (BrowserProps.v): Not every login is recognised: all providers use the same cookie name. While a session of another provider with another Domain is alive, no number of logins with this one is recognised where both reach.
* `C88_domain_refuted` (BrowserProps.v): Nor is it with every Domain that a valid configuration may have: the check is that the host of the callback ends with it, a browser wants whole labels.
* `C89_identity_token_elsewhere_refuted` (BrowserProps.v): Not every identity token is gone: that of another host stays, goes with requests to that host, to its backend too, and is accepted until the session would have ended.
* `C90_two_pages_refuted` (BrowserProps.v): Two pages loaded at once by a browser without an identifier get different ones; the links on the first one no longer work.
* `C85_wildcard_refuted` (CertProps.v): An entry for a wildcard certificate is used for names that the certificate does not cover, for which Let's Encrypt would have been able to provide.
* `C85_name_in_capitals_refuted` (CertProps.v): Server names of backends are normalised when the configuration is read (config.go:957); those of tlsCertificates are not. The same name written in the same way in both places: clients get a certificate of Let's Encrypt.
* `C85_client_certificate_refuted` (CertProps.v): A backend that asks for a client certificate never gets a listed one.
* `C86_client_certificates_refuted` (CertProps.v): What is missing: the certificates shown to backends are requested without looking at the setting, after it is switched off too.
* `C52_race_with_reload_refuted` (CleanupProps.v): A configuration loaded while the clean-up runs: the certificate of a server name that is configured is revoked, and the one that was just stored is deleted.
* `C52_wildcard_refuted` (CleanupProps.v): A wildcard certificate covers the configured name and is revoked; so is one whose name is written with an upper case letter.
* `C66_revoked_certificate_kept_refuted` (CleanupProps.v): After an error in the middle, a certificate that has been revoked is still in the cache, and is the one for its name once that is configured again.
* `C75_domain_refuted` (ConfigProps.v): FINDING: the domain is only tested to be a suffix of the host, so a host that is outside of the domain is accepted (config.go:860, 888, 913).
* `C75_limits_refuted` (ConfigProps.v): FINDING: without a limit in the file, the limit on open connections is half of what the process may open, minus 100. With a limit of 200 files, or with no limit at all (which is -1 here, unix.go), it is zero or negative and every connection is refused (C10); a negative forwardRateLimit is accepted as well and refuses every connection to its backend.
* `C75_own_provider_refuted` (ConfigProps.v): FINDING: a passkey provider may name itself as the provider that identifies the user (config.go:897-904: its own name has been entered before the test); such a configuration is accepted by Check and never gets past Reconfigure (C76).
* `C97_table_stays_small_refuted` (ConsoleProps.v): Users can: each one who logs in leaves a row for ever, even those whom the access list refuses.
* `C97_header_values_refuted` (ConsoleProps.v): But headers that are added to requests are shown with their values, and a password for the backend is such a value.
* `C51_rate_of_longer_period_refuted` (CounterProps.v): C51: a longer period is answered with a rate of zero over the whole history of the counter once it is old enough, whatever was counted: the slot the difference is taken with is the current one.
* `C13_concurrent_dial_refuted` (DialProps.v): C13 in full is false for concurrent dials: with two addresses, of which the second one works, a dial whose attempts are interleaved with another one tries the first address twice and fails without having tried the second.
* `C96_issuer_refuted` (DiscoveryProps.v): Under any other name of the backend it is not: a client that configured this name finds a document of another issuer, which it has to refuse (OpenID Connect Discovery 4.3).
* `C96_port_refuted` (DiscoveryProps.v): The port of the request is dropped: a server that its clients reach at another port than 443 tells them to go to port 443.
* `C96_host_is_not_checked_refuted` (DiscoveryProps.v): The document names the host that the request names, whatever the backend's names are: the document is not checked against them.
* `C96_slash_refuted` (DiscoveryProps.v): With a path prefix that ends with a slash, which the configuration allows, no request is ever answered by any of the endpoints.
* `C96_outside_paths_refuted` (DiscoveryProps.v): When the policy's paths do not cover the authorization endpoint, a user who is not on the access list gets a code like anybody else, and one who is not logged in is refused and not asked to log in.
* `C96_basic_refuted` (DiscoveryProps.v): The document does not say how clients authenticate at the token endpoint, which means HTTP Basic; a client that does so is refused, whatever it sends.
* `C78_no_path_refuted` (EndpointProps.v): FINDING. The URL of an endpoint may have no path. It is then registered with the empty path, with which no cleaned path is compared equal, so the endpoint does not answer; the request goes to the backend.
* `C78_shared_name_refuted` (EndpointProps.v): FINDING. Two backends may share a server name if they differ in protocols. The endpoints of that name are given to the first of them in the file (proxy.go:438, 743) whatever its mode. If that is, say, a mail server, no HTTP request finds the endpoint: the callback of a login ends up at the other backend.
* `C79_order_matters_refuted` (EndpointProps.v): FINDING. The access list of a passkey provider is set once for every backend that uses the provider and has any callback, in the order of a Go map (proxy.go:752-756, 759): the last one counts. Whether the list of the passkey page itself is applied is left to chance.
* `C79_not_set_refuted` (EndpointProps.v): FINDING. If the backend with the passkey page does not itself ask that provider, no access list is ever set, and everyone whom the other provider knows may register a key.
* `C94_requests_refuted` (ForwardProps.v): The requests of HTTP/1 and HTTP/2 connections are not limited at all: one connection forwards any number of them at one moment.
* `C94_streams_refuted` (ForwardProps.v): Nor are the streams of a QUIC connection to a backend in mode TCP or TLS, each of which opens a connection to the backend.
* `C94_http3_refuted` (ForwardProps.v): On one HTTP/3 connection, any number of requests that come together all take themselves for the first.
* `C94_http_streams_refuted` (ForwardProps.v): Each stream of a QUIC connection to a backend in mode HTTP is served like a connection: its first request is forwarded without asking the limiter, so that a client that opens a stream for each request never waits; only the next ones of the stream do.
* `C80_configured_headers_refuted` (HeadersProps.v): The full claim, that a configured header always reaches the backend, is false: a client removes it by naming it in a Connection header.
* `C03_hello_never_panics_refuted` (HelloProps.v): C03 as one would want it, "no input makes the parser panic", is false: the five bytes of an empty handshake record index an empty slice (hello.go:76). The panic is caught by the recover of the connection's goroutine (proxy.go:1122-1128).
* `C20_client_can_suppress_it_refuted` (HttpProps.v): A client that sends "Connection: X-Forwarded-Client-Cert" suppresses the header: the Director of the reverse proxy adds it before the hop-by-hop headers are removed.
* `C26_session_cookie_disclosed_refuted` (HttpProps.v): Outside the protected paths, and on backends without SSO, the session cookie is sent on with the others.
* `C115_one_text_refuted` (JwtProps.v): Finding: a token does not have one text. The signature may be followed by an end of line, and is still accepted.
* `C100_refused_key_kept_refuted` (KeygenProps.v): When the server refuses, the key and the password stay in the worker.
* `C100_format_checked_late_refuted` (KeygenProps.v): The format is looked at only after the certificate was issued: with one that is not on the page there is a certificate, and the key is lost.
* `C100_other_certificate_refuted` (KeygenProps.v): The worker does not look at whose key is in the certificate that comes back.
* `C110_not_started_refuted` (LifeProps.v): FINDING: Stop and Shutdown panic if Start has not been called, or has failed.
* `C110_failed_start_refuted` (LifeProps.v): FINDING: a Start that fails leaves open what it has opened, which nothing closes, and so each further call of Start fails too.
* `C110_reload_after_stop_refuted` (LifeProps.v): FINDING: a configuration that is loaded after Stop has servers that run on.
* `C110_restart_refuted` (LifeProps.v): FINDING: a proxy that was stopped can be started again without an error; it finds its backends, but their servers are gone (what is sent to them panics, C12).
* `C110_alt_svc_refuted` (LifeProps.v): FINDING: QUIC that is switched on by a reload is advertised in responses, but nothing listens; QUIC that is switched off is still accepted.
* `C110_shutdown_h3_refuted` (LifeProps.v): FINDING: Shutdown cuts requests over HTTP/3 at once; those over TCP it leaves alone.
* `C110_h3_refuted` (LifeProps.v): FINDING: the HTTP/3 server of a backend is not closed if the backend had a connection when it was taken out of force.
* `C93_any_bound_refuted` (LimitProps.v): But at one moment any number of bytes can go through: connections whose clients are silent are past the limiter, one buffer each, and then the clients send.
* `C93_giving_up_refuted` (LimitProps.v): A call whose connection is closed while it waits gives tokens back, and the library can give back more than was taken: twice the burst goes through at once.
* `C93_quic_half_close_refuted` (LimitProps.v): A QUIC stream with a limit cannot be read after its write side is closed, although it is still open for reading.
* `C93_small_reads_refuted` (LimitProps.v): The limiter is charged for the buffers, not for the bytes: a group that moved four bytes, with a limit of 1000 bytes per second, makes the next call wait for more than half a minute.
* `C95_files_refuted` (LogProps.v): Any client of a backend with files can write any line into the log.
* `C95_endpoints_refuted` (LogProps.v): Anybody can write any line into the log of a backend with an endpoint that needs no login; every backend with single sign-on has some, /.sso/login for one.
* `C95_every_request_refuted` (LogProps.v): A request for a name that is not one of the backend leaves no trace.
* `C95_identities_refuted` (LogProps.v): But a certificate can make its holder look like a user who has logged in.
* `C95_certificates_refuted` (LogProps.v): And the names in a certificate, which are in ASCII, can write any line of ASCII.
* `C35_same_redirect_refuted` (LoginProps.v): A code that was sent to one redirect address is exchanged by a token request that names another.
* `C36_token_for_that_login_refuted` (LoginProps.v): The identity token that completes the login of browser 1 may be one that the provider issued for the login request of browser 2: the session in browser 1 is then for the host and page that browser 2 asked for.
* `C37_end_exclusive_refuted` (LoginProps.v): The end of the validity period is exclusive (SAML core 2.5.1), but a response is accepted at that instant.
* `C38_saml_same_browser_refuted` (LoginProps.v): Browser 2 posts the response to the login that browser 1 started, and is logged in with it.
* `C106_revoke_refuted` (MainProps.v): C106: with the certificates for tests, certificates are never revoked, and the command serves as if that had not been asked for.
* `C106_arguments_refuted` (MainProps.v): C106, sixth part, refuted: that a mistake in the line is reported. All that comes after an argument that is no flag is ignored without a word.
* `C106_switch_refuted` (MainProps.v): C106: so a switch followed by its value is on, and what follows is dropped: [-quiet false] turns logging off, and a passphrase or a configuration after it is not seen.
* `C106_passphrase_refuted` (MainProps.v): C106, seventh part, refuted: that the passphrase is not shown. A misspelt flag, or -help, writes the passphrase of the environment to the standard error: it is the default value of a flag.
* `C106_graceful_refuted` (MainProps.v): C106: while the proxy already serves, a signal may end the process at once, without Shutdown: nobody has asked for signals before Start has returned.
* `C106_second_refuted` (MainProps.v): C106: a second signal that comes between the first one and the moment the goroutine listens is lost: the process goes on with nothing to do but to wait for Shutdown. The grace period being over makes the goroutine deaf to all later signals.
* `C112_endpoint_query_refuted` (OauthProps.v): Finding: an authorization endpoint that has a query is taken by the constructor, but its query is not continued: a second question mark follows. The provider reads no response_type, and the value of its own parameter is another one.
* `C112_no_subject_refuted` (OauthProps.v): Finding: users without a "sub" never get a session, whatever their address is. Providers that are not OpenID providers do not have it: GitHub, whose configuration is given as an example in examples/sso/README.md:105-118 and whose avatar_url is read, answers with "id" and "login".
* `C112_denied_refuted` (OauthProps.v): Finding: a user who refuses, or whom the provider refuses, comes back with an error and without a code (RFC 6749, section 4.1.2.1). The error is not looked at: the token endpoint is asked for tokens for the empty code.
* `C112_token_error_refuted` (OauthProps.v): Finding: the status of the token endpoint's answer is not looked at either. When it refuses a code and there is a user info endpoint, that endpoint is asked with an empty access token.
* `C112_pending_refuted` (OauthProps.v): Finding: anybody can begin logins, and without callbacks all of them are kept, whatever the clock says.
* `C112_builtin_domain_refuted` (OauthProps.v): Finding: the server does not say to which domain users belong, so a client that asks for a domain, even for any domain, refuses all of its users.
* `C62_standard_base64_refuted` (OcspGetProps.v): A slash is an ordinary character of standard base64. Everything up to it is lost, even when it is percent-encoded.
* `C47_issuers_unchecked_refuted` (OcspProps.v): A certificate without a responder is accepted whatever is known of its issuers.
* `C47_no_chains_refuted` (OcspProps.v): Without verified chains (InsecureSkipVerify) a peer that is known to be revoked is accepted.
* `C47_stale_error_refuted` (OcspProps.v): A chain without anything bad in it is refused because of an earlier chain. (The callers ask only when the leaf has a responder, so that this needs a responder whose URL cannot be used.)
* `C48_about_the_certificate_refuted` (OcspProps.v): A peer is accepted on the basis of an answer about another certificate ...
* `C48_current_refuted` (OcspProps.v): ... and of an answer that has expired.
* `C63_no_responder_crashes_refuted` (OcspProps.v): Such a certificate crashes the handshake every time ...
* `C63_flush_crashes_refuted` (OcspProps.v): ... and, when the cache is next saved, the whole process.
* `C105_link_refuted` (PagesProps.v): Links of pages with a port in the address lead to another port: here the page that shows https://www.example.com:8443/ links to https://www.example.com/.
* `C105_name_refuted` (PagesProps.v): International names are looked up for display and then written with escapes: the page never shows them.
* `C83_endpoint_with_a_port_refuted` (PasskeyHttpProps.v): Missing, because false: with a port in the endpoint's URL the browser is told a relying party that includes the port, and the key is checked for the name without.
* `C41_own_origin_refuted` (PasskeyProps.v): ** C41
* `C42_no_trailing_bytes_refuted` (PasskeyProps.v): Bytes after the data are only allowed for extensions, but they are accepted without.
* `C57_handle_selects_the_user_refuted` (PasskeyProps.v): The answer to the same challenge by the same key then gives the session of the user that the unsigned handle names.
* `C109_colon_refuted` (PemProps.v): What cannot be written so: a type with a colon in a block without bytes.
* `C109_expired_refuted` (PemProps.v): The root can be past its end: one that is read from the file is used although it has expired, and nothing that the certificate manager issues is accepted then.
* `C109_unsaved_refuted` (PemProps.v): The root can change although no start was killed: if it cannot be saved, it is used all the same.
* `C109_leaf_refuted` (PemProps.v): So for an hour, nobody is given a certificate that has ended; afterwards, everybody is.
* `C109_broken_key_refuted` (PemProps.v): Bytes that are no key are not noticed: a key that is a nil pointer is returned, without an error. The entry counts as a certificate with a key, the account key as valid.
* `C109_panic_refuted` (PemProps.v): The first certificate with a broken key that has not expired ends the program.
* `C43_all_managers_refuted` (PkiProps.v): With several managers it is not so for all of them. Manager 1 is started by a reconfiguration while the request that revokes is in flight in manager 0: manager 1 goes on to accept the certificate.
* `C44_same_second_refuted` (PkiProps.v): A certificate that is revoked in the second in which a list was made is missing from the lists for an hour and a half.
* `C44_past_next_update_refuted` (PkiProps.v): A list can be past its next update when it is handed out.
* `C60_ca_never_revoked_refuted` (PkiProps.v): The page does not offer to revoke the certificate of the authority (http.go:322), but a request of an administrator does.
* `C61_after_failed_write_refuted` (PkiProps.v): After a failed write of the first delegate the next request for a list does.
* `C92_admin_button_refuted` (PkiWebProps.v): So an administrator is shown a button that does not work.
* `C92_view_button_refuted` (PkiWebProps.v): They are also on the lines of revoked certificates, where they fail.
* `C72_http3_backend_refuted` (PoolProps.v): The case that is missing: with backendProto h3 the version is accepted, and no header is ever sent.
* `C71_quic_backend_refuted` (ProxyHdrProps.v): The same settings on a backend in QUIC mode are accepted and have no effect: the backend is not told who the client is.
* `C71_version_1_quic_clients_refuted` (ProxyHdrProps.v): With version 1 the header says UNKNOWN for clients that use QUIC.
* `C69_reset_looks_like_end_refuted` (QuicProps.v): C69. What does not hold: a stream that a peer aborted in the middle looks to the other like one that ended there.
* `C69_unidirectional_timeout_refuted` (QuicProps.v): C69. What does not hold: without anybody ending or aborting anything, a unidirectional stream is cut, and the cut looks like its end: the half-close timeout (one minute unless configured) starts as soon as such a stream is joined, since the reverse direction ends at once.
* `C70_silent_backend_refuted` (QuicProps.v): C70. What does not hold: a client is gone, yet the proxy keeps the connection to the backend, since it waits for a stream on which the backend is silent.
* `C70_backend_loss_refuted` (QuicProps.v): C70. What does not hold: the backend closed its connection, yet the client's stays open.
* `C70_lost_stream_refuted` (QuicProps.v): C70. What does not hold: when the backend's connection was lost (not closed), a stream of the client that cannot be joined is neither refused nor ended: the client waits.
* `C09_removed_name_crashes_refuted` (ReauthProps.v): C09, "the proxy keeps running", is false: if the new configuration does not serve the name of an open connection any more, the check dereferences a nil backend (proxy.go:872-875) in a goroutine without recover.
* `C09_added_acl_crashes_refuted` (ReauthProps.v): Likewise when an ACL is added to a backend that has an open connection without certificate: the nil certificate is dereferenced (backend.go:222).
* `C09_starting_connection_crashes_refuted` (ReauthProps.v): Likewise for a connection that is between reading its hello and being given to a backend (proxy.go:1164-1173), even if nothing changed.
* `C09_added_client_auth_ignored_refuted` (ReauthProps.v): C09, "no forbidden connection survives", is false when client authentication without ACL is added: a connection without certificate stays open, although the backend now requires one (proxy.go:890-893, backend.go:218-221).
* `C09_passthrough_closed_refuted` (ReauthProps.v): C09, "the others stay open", is false for passthrough connections: no protocol was negotiated for them, so they are checked against the default backend of their name. Here nothing changed, the connection was routed to the passthrough backend by its protocol, and it is closed because the default backend has another mode.
* `C09_quic_race_refuted` (ReauthProps.v): C09 for QUIC: a connection whose handshake finished under the old configuration and which is entered in the list of open connections after the check is served under the new configuration although its new backend requires a client certificate and none was presented (quic.go:117-190 looks the backend up again but never checks the certificate).
* `C49_upper_case_refuted` (ReconfProps.v): A group name with an upper case letter: accepted, and no limit at all.
* `C49_case_collision_refuted` (ReconfProps.v): Two groups that differ in the case of a letter: the one gets the limits of the other.
* `C49_unnamed_group_refuted` (ReconfProps.v): A group without a name limits the backends that have no group, also after it has been removed from the configuration.
* `C50_failed_reload_refuted` (ReconfProps.v): The limits of a rejected configuration are in force for the connections of the old one, and its HTTP servers keep running.
* `C99_post_refuted` (RefreshProps.v): And a form that is posted at that moment is lost: the browser asks for the page with GET.
* `C99_untidy_refuted` (RefreshProps.v): Paths with empty elements name another page afterwards.
* `C04_routing_refuted` (RouteProps.v): C04 without the restriction to non-empty protocol names is false: an accepted configuration may claim the protocol "" for a backend, and that claim also captures connections that offer no claimed protocol and should go to the first backend in the file. (key {name, ""} doubles as the default entry, proxy.go:439-448 and 1418-1420.)
* `C08_revocation_refuted` (RouteProps.v): C08 in full is false: in an accepted configuration, over TCP, a client that offers only h3 reaches the backend that claims h3 with a certificate that this backend's CA has revoked, because the handshake consulted the rules of the default backend of the same name (proxy.go:591-607: the lookup uses the negotiated protocol, which is empty).
* `C104_parameters_refuted` (SamlProps.v): Not so for every address: a piece with a semicolon is dropped without a word.
* `C104_page_refuted` (SamlProps.v): An address without a scheme is accepted, and the browser then asks the proxy itself for it.
* `C104_id_refuted` (SamlProps.v): Otherwise the identifier begins with a digit.
* `C104_honest_refuted` (SamlProps.v): With any other entity the answer is refused: the audience that is expected is not the issuer of the request.
* `C104_source_refuted` (SamlProps.v): So an attribute with this name takes the place of the issuer,
* `C104_all_values_refuted` (SamlProps.v): and of several values only the first one is kept.
* `C104_pending_refuted` (SamlProps.v): and nothing else does: each login of a client that has none is kept, for as long as no user logs in. Identifiers are random, so any number of them are different.
* `C113_names_hidden_refuted` (ScriptProps.v): Whoever asks for the options of a login with a name gets to know whether the name is registered here, and the identifiers of the keys of that user: the key that nobody has is always the same one.
* `C54_other_versions_refuted` (SettingsProps.v): Versions that do not exist are accepted, and a header of that version is then due.
* `C91_shutdown_waits_for_nothing_refuted` (ShutdownProps.v): The last connection ends after Shutdown has looked at the list and before it waits. Its report is lost, and only the end of the grace period ends Shutdown.
* `C91_tunnels_are_cut_refuted` (ShutdownProps.v): "waiting for all existing connections to close": tunnels are not waited for.
* `C91_no_new_connections_refuted` (ShutdownProps.v): The other backends are not told: a connection that is being set up is given to them after Shutdown was called.
* `C91_waits_for_a_tunnel_refuted` (ShutdownProps.v): ... except by accident: a tunnel that is being set up when Shutdown looks is taken for something else, and then Shutdown waits until a connection is closed.
* `C111_p521_refuted` (SigProps.v): FINDING: the size of the numbers is rounded down, so with P-521 (65 bytes instead of 66) the program panics for half of all numbers, and the signatures of the others are too short for any verifier. The keys that the proxy makes today are all P-256.
* `C84_registered_key_usable_refuted` (SignProps.v): A registered key can be used: false, since the key itself is not looked at when it is registered. The user of such a key cannot log in, nor register another one.
* `C102_one_way_refuted` (StreamListProps.v): C102 is false for HTTP/3. The library that serves HTTP/3 gets the streams that the client opens for one direction as streams that can be read, and there is nothing else that it can do with them: their other half, which does not exist, is never ended, and they stay in the list as long as the connection.
* `C101_no_backend_refuted` (StreamProps.v): C101. So it does when the backend cannot be reached at all: the answer seems to be empty.
* `C101_log_refuted` (StreamProps.v): C101. What the log says about a stream is not: it is always that nothing was received or sent.
* `C101_destination_refuted` (StreamProps.v): C101. What is missing: when the backend has several addresses, all the streams are shown with the address of the one that was connected last.
* `C103_address_refuted` (TlsClientProps.v): C103. What is not understood: an IPv6 address in brackets without a port. The brackets become part of the name.
* `C103_other_addresses_refuted` (TlsClientProps.v): C103. What does not hold: when the host has several addresses, only the first one is tried: the others make no difference.
* `C103_own_response_refuted` (TlsClientProps.v): C103. What is missing: that it is the issuer who says so. The list is what the server sends, not the chain that was verified. So whoever holds the key of a certificate can sign the response themselves, also after the certificate was revoked: they send the certificate twice, and then the others that are needed to verify it; or the certificate alone.
* `C103_any_key_refuted` (TlsClientProps.v): C103. Any other key will do as well, with a certificate that the server makes for it.
* `C103_ocsp_root_refuted` (TlsClientProps.v): C103. What is missing: a server whose certificate was issued by a root does not need to send any other, and then its response is refused; and so is one that does not say until when it is valid.
* `C103_status_refuted` (TlsClientProps.v): C103. What does not hold: a script cannot tell. The status is 0 whether the output is complete or not.
* `C103_cut_input_refuted` (TlsClientProps.v): C103. What is missing: when the input cannot be read any more, the server sees the regular end of it.
* `C27_bearer_of_other_provider_refuted` (TokenProps.v): Also false: an identity token of one provider is accepted as a bearer token by a backend that requires another provider with the same callback host.
* `C77_no_roots_refuted` (TrustProps.v): FINDING. Config.Check accepts client authentication without any roots (config.go:1040-1056), and then Reconfigure leaves the pool nil (proxy.go:569-572): crypto/tls verifies clients against the roots of the operating system, so that a certificate from any public authority is accepted although the administrator listed none.
* `C116_saml_refuted` (VisitLoginProps.v): If the provider gives the user an attribute called nbf then the proxy does not accept the session that it has just made: the claim nbf of a token has to be a number, and attributes become claims with the names that they have. The user is sent to the provider again and again.
* `C108_quic_certificate_refuted` (WholeProps.v): Without the restriction to one configuration, C108_quic_certificate_partial is false: the certificate is asked for by the configuration of the handshake. If a new one, which wants a certificate for the name, is loaded before the connection is handled, its backend is given a connection without one.
* `C74_answering_clients_refuted` (WsProps.v): Finding: a client that answers every ping at once can be given up all the same. Pongs are read by the goroutine that copies the client's messages to the server; while the server does not take any bytes, no pong is read.

## What is modelled and what is not

For each Go file: the functions that a definition of the model cites, with the model file, and the functions that no definition cites.  A function can be modelled in part; the comment at the definition says what is left out.

* `certmanager/certmanager.go`: modelled: New (PemModel); createRootKeyAndCert (PemModel); readRootKeyAndCert (PemModel); saveRootKeyAndCert (PemModel); CertManager.GetCertificate (CertModel); CertManager.GetCert (CertModel, PemModel).  Not modelled: CertManager.RootCAPEM, CertManager.RootCACertPool, CertManager.TLSConfig, CertManager.HTTPHandler.
* `main.go`: modelled: main (CertModel, MainModel); configLoop (ReloadModel).  Not modelled: none.
* `proxy/backend-http.go`: modelled: Backend.localHandler (HttpModel); Backend.redirectPermanently (LogModel, PathModel); pathClean (LogModel, PathModel); Backend.serveStaticFiles (LogModel, PathModel); Backend.reverseProxy (ForwardModel, HttpModel, LogModel, PoolModel); addr2ip (HeadersModel); expandVars (HeadersModel); Backend.setAltSvc (HeadersModel); Backend.handleLocalEndpointsAndAuthorize (DiscoveryModel, HttpModel); Backend.reverseProxyDirector (HttpModel); Backend.reverseProxyTransport (ConsoleModel, PoolModel); Backend.reverseProxyModifyResponse (HeadersModel, LogModel).  Not modelled: Backend.logPanic, funcRoundTripper.RoundTrip.
* `proxy/backend-sso.go`: modelled: Backend.authenticateUser (HttpModel, RefreshModel); Backend.checkCookies (HttpModel, RefreshModel); Backend.serveSSOStyle (DiscoveryModel); Backend.serveSSOStatus (PagesModel); Backend.serveLogin (PagesModel); Backend.serveLogout (PagesModel); Backend.servePermissionDenied (PagesModel); Backend.enforceSSOPolicy (ConsoleModel, HttpModel, LogModel, PagesModel); pathMatches (PathModel).  Not modelled: init, claimsFromCtx.
* `proxy/backend.go`: modelled: Backend.incInFlight (AccountModel, LifeModel); Backend.close (AccountModel, LifeModel, PkiModel, ShutdownModel); Backend.dial (DialModel, OcspModel, PoolModel, SettingsModel, StreamModel, TrustModel); writeProxyHeader (ProxyHdrModel); Backend.authorize (ReauthModel, RouteModel); Backend.checkIP (AcceptModel, IPModel); Backend.bridgeConns (BridgeModel, QuicModel, StreamModel); forward (BridgeModel, QuicModel, StreamModel); closeWrite (BridgeModel, StreamModel); closeRead (BridgeModel).  Not modelled: none.
* `proxy/config.go`: modelled: Config.serialize (ConsoleModel); Config.equal (LifeModel, ReloadModel); Config.clone (ConsoleModel, ReloadModel); Config.Check (ConfigModel, ForwardModel, QuicModel, ReconfModel, RouteModel); validateProxyProtoVersion (SettingsModel); ReadConfig (ReloadModel).  Not modelled: none.
* `proxy/conntracker.go`: modelled: connTracker.add (AdmitModel); connTracker.remove (AdmitModel).  Not modelled: newConnTracker, connTracker.slice.
* `proxy/hello.go`: modelled: peekClientHello (HelloModel); sendCloseNotify (AnswerModel); sendInternalError (AnswerModel); sendUnrecognizedName (AnswerModel); sendAlert (AnswerModel).  Not modelled: sendHandshakeFailure.
* `proxy/http.go`: modelled: startInternalHTTPServer (ForwardModel, LifeModel, WholeModel); proxyListener.Accept (AccountModel, LifeModel); proxyListener.Close (AccountModel, LifeModel); userAgent (LogModel); logHandler (LogModel).  Not modelled: serveHTTP, proxyListener.Addr.
* `proxy/internal/cookiemanager/cookiemanager.go`: modelled: CookieManager.SetAuthTokenCookie (BrowserModel, OauthModel, TokenModel); CookieManager.SetIDTokenCookie (BrowserModel, TokenModel); CookieManager.SetNonce (BrowserModel); CookieManager.Nonce (BrowserModel); CookieManager.ClearCookies (BrowserModel); CookieManager.ValidateAuthTokenCookie (HttpModel, TokenModel); CookieManager.ValidateIDTokenCookie (HttpModel, TokenModel); CookieManager.ValidateAuthorizationHeader (HttpModel, TokenModel); FilterOutAuthTokenCookie (HttpModel); audienceFromReq (TokenModel); audienceForToken (TokenModel).  Not modelled: New.
* `proxy/internal/counter/counter.go`: modelled: New (CounterModel); Counter.Value (CounterModel, StreamModel); Counter.Incr (CounterModel, StreamModel); Counter.Rate (CounterModel); Counter.advance (CounterModel).  Not modelled: none.
* `proxy/internal/idp/idp.go`: modelled: WithLoginHint (OauthModel); WithSelectAccount (OauthModel); ApplyOptions (OauthModel).  Not modelled: LoginOptions.LoginHint, LoginOptions.SelectAccount.
* `proxy/internal/netw/netw.go`: modelled: Listen (ConnModel); listener.Accept (ConnModel); Conn.SetCounters (ConsoleModel); Conn.Peek (ConnModel); Conn.Read (ConnModel, LimitModel, StreamModel); Conn.Write (LimitModel, StreamModel); Conn.Close (AccountModel, LimitModel, ShutdownModel).  Not modelled: NewConn, NewConnForTest, Conn.StreamID, Conn.SetAnnotation, SetAnnotation, Conn.Annotation, Conn.SetLimiters, Conn.BytesSent, Conn.BytesReceived, Conn.ByteRateSent, Conn.ByteRateReceived, Conn.OnClose, newCounter.
* `proxy/internal/netw/quic.go`: modelled: NewQUIC (LifeModel); QUICConn.removeStream (StreamListModel); QUICConn.Close (AnswerModel); QUICConn.WrapConn (StreamModel); QUICConn.AcceptStream (StreamListModel, StreamModel); QUICConn.AcceptUniStream (StreamListModel, StreamModel); QUICConn.OpenStream (StreamListModel); QUICConn.OpenStreamSync (StreamListModel); QUICConn.OpenUniStream (StreamListModel); QUICConn.OpenUniStreamSync (StreamListModel); SendOnlyStream.Read (QuicModel); SendOnlyStream.CancelRead (QuicModel); SendOnlyStream.SetReadDeadline (QuicModel); ReceiveOnlyStream.Write (QuicModel, StreamModel); ReceiveOnlyStream.Close (QuicModel); QUICStream.markReadDone (StreamListModel, StreamModel); QUICStream.markWriteDone (StreamListModel, StreamModel); QUICStream.Read (LimitModel, QuicModel, StreamListModel, StreamModel); QUICStream.Write (LimitModel, QuicModel, StreamModel); QUICStream.Close (LimitModel, QuicModel, StreamModel); QUICStream.CancelRead (StreamListModel); QUICStream.CloseRead (QuicModel, StreamListModel, StreamModel); QUICStream.CloseWrite (LimitModel).  Not modelled: QUICTransport.Addr, QUICTransport.Close, QUICTransport.Listen, QUICTransport.Dial, QUICTransport.DialEarly, QUICListener.Accept, QUICListener.Addr, QUICListener.Close, newQUICConn, QUICConn.SetAnnotation, QUICConn.Annotation, QUICConn.Streams, QUICConn.SetLimiters, QUICConn.SetCounters, QUICConn.BytesSent, QUICConn.BytesReceived, QUICConn.ByteRateSent, QUICConn.ByteRateReceived, QUICConn.HandshakeComplete, QUICConn.NextConnection, QUICConn.TLSConnectionState, QUICConn.OnClose, QUICConn.Read, QUICConn.Write, QUICConn.SetDeadline, QUICConn.SetReadDeadline, QUICConn.SetWriteDeadline, QUICConn.LocalAddr, QUICConn.RemoteAddr, QUICConn.ConnectionState, QUICConn.CloseWithError, QUICConn.Context, QUICConn.SendDatagram, QUICConn.ReceiveDatagram, SendOnlyStream.SetDeadline, ReceiveOnlyStream.CancelWrite, ReceiveOnlyStream.Context, ReceiveOnlyStream.SetDeadline, ReceiveOnlyStream.SetWriteDeadline, QUICStream.streamID, QUICStream.BridgeAddr, QUICStream.SetBridgeAddr, QUICStream.LocalAddr, QUICStream.RemoteAddr, QUICStream.CancelWrite.
* `proxy/internal/ocspcache/ocsp.go`: modelled: New (OcspModel); OCSPCache.load (OcspModel); OCSPCache.flush (OcspModel); OCSPCache.VerifyChains (OcspModel); certHash (OcspModel); OCSPCache.Response (CertModel, OcspModel); OCSPCache.fetchOCSP (OcspModel); OCSPCache.fetchOneOCSP (OcspModel).  Not modelled: OCSPCache.FlushLoop.
* `proxy/internal/oidc/client.go`: modelled: New (LoginModel, OauthModel); ProviderClient.RequestLogin (LoginModel, OauthModel); ProviderClient.HandleCallback (JwtModel, LoginModel, OauthModel).  Not modelled: none.
* `proxy/internal/oidc/server.go`: modelled: NewServer (LoginModel); ProviderServer.vacuum (LoginModel); ProviderServer.ServeConfig (DiscoveryModel); ProviderServer.ServeAuthorization (DiscoveryModel, LoginModel, TokenModel); ProviderServer.ServeToken (DiscoveryModel, LoginModel); ProviderServer.ServeUserInfo (LoginModel); ProviderServer.applyRewriteRules (TokenModel).  Not modelled: none.
* `proxy/internal/passkeys/manager.go`: modelled: NewManager (PasskeyHttpModel, PasskeyModel); Manager.vacuum (PasskeyModel); Manager.ServeWellKnown (DiscoveryModel); Manager.RequestLogin (PasskeyHttpModel); Manager.HandleCallback (PasskeyHttpModel, PasskeyModel, ScriptModel); Manager.ManageKeys (PasskeyHttpModel, ScriptModel); Manager.keys (ScriptModel); Manager.subjectIsAllowed (EndpointModel, PasskeyModel); Manager.deleteKey (PasskeyModel); Manager.setAuthToken (PasskeyHttpModel); Manager.attestationOptions (PasskeyModel, ScriptModel); Manager.processAttestation (PasskeyModel, ScriptModel); Manager.assertionOptions (PasskeyModel, ScriptModel); Manager.processAssertion (PasskeyModel, ScriptModel).  Not modelled: init, Manager.SetACL, serveWebauthnJS, Manager.subjectIsRegistered.
* `proxy/internal/passkeys/testutils.go`: not modelled (9 functions).
* `proxy/internal/passkeys/webauthn.go`: modelled: Bytes.MarshalJSON (ScriptModel, SignModel); newAttestationOptions (ScriptModel); newAssertionOptions (ScriptModel); parseAuthenticatorData (PasskeyModel); parseClientData (ScriptModel); signedBytes (SignModel); verifySignature (CborModel, SignModel).  Not modelled: parseAttestationObject.
* `proxy/internal/pki/clientwasm/impl/impl.go`: modelled: MakeCSR (KeygenModel); MakeResponse (KeygenModel).  Not modelled: none.
* `proxy/internal/pki/clientwasm/main.go`: modelled: makeCSR (KeygenModel); makeResponse (KeygenModel).  Not modelled: main, Uint8ArrayFromBytes.
* `proxy/internal/pki/http.go`: modelled: PKIManager.ServeCACert (AuthorityModel); PKIManager.ServeOCSP (OcspGetModel); PKIManager.ServeCertificateManagement (PkiModel, PkiWebModel); PKIManager.handleRequestCert (PkiModel); PKIManager.handleRevokeCert (PkiModel, PkiWebModel); PKIManager.handleDownloadCert (PkiWebModel); PKIManager.handleStaticFile (PkiWebModel); PKIManager.findCert (PkiModel); etag (DiscoveryModel).  Not modelled: init, PKIManager.ServeCRL.
* `proxy/internal/pki/keys/keys.go`: modelled: GenerateKey (AuthorityModel).  Not modelled: none.
* `proxy/internal/pki/pki.go`: modelled: New (AuthorityModel); PKIManager.initCA (AuthorityModel, PkiModel); PKIManager.generateKey (AuthorityModel); PKIManager.maybeRotateDelegateCert (AuthorityModel, PkiModel); PKIManager.RevocationList (AuthorityModel, PkiModel); PKIManager.OCSPResponse (PkiModel); PKIManager.RevokeCertificate (PkiModel, PkiWebModel); PKIManager.CACert (TrustModel); PKIManager.IssueCertificate (PkiModel); PKIManager.signCertificate (PkiModel); bytesToHex (PkiModel).  Not modelled: certificate.parse, certificate.pem, certificate.revoke, PKIManager.open, PKIManager.parseKeyBytes, PKIManager.RevocationListPEM, PKIManager.IsRevoked, PKIManager.ValidateCertificateRequest, publicKeyFromCert, wipe.
* `proxy/internal/saml/saml.go`: modelled: New (ReloadModel); Provider.RequestLogin (LoginModel, SamlModel); Provider.HandleCallback (LoginModel, SamlModel); readCerts (ReloadModel); findElementText (SamlModel); findElementAttr (SamlModel); samlAuthnRequest.URL (SamlModel).  Not modelled: none.
* `proxy/internal/sshca/sshca.go`: modelled: New (AuthorityModel, SshModel); SSHCA.initCA (SshModel); SSHCA.generateKey (AuthorityModel); SSHCA.ServePublicKey (SshModel); SSHCA.ServeCertificate (SshModel).  Not modelled: SSHCA.open, SSHCA.parseKeyBytes.
* `proxy/internal/tokenmanager/tokenmanager.go`: modelled: TokenManager.rotateKeys (TokenModel); TokenManager.createNewTokenKeys (TokenModel); createNewECDSATokenKey (JwksModel, JwtModel); TokenManager.createNewTPMECDSATokenKey (JwksModel, JwtModel); createNewRSATokenKey (JwksModel, JwtModel); TokenManager.createNewTPMRSATokenKey (JwksModel, JwtModel); createNewED25519TokenKey (JwksModel, JwtModel); TokenManager.CreateToken (JwtModel, TokenModel); tpmSigningMethod.Sign (JwtModel, SigModel); TokenManager.getKey (JwtModel, TokenModel); TokenManager.ValidateToken (JwtModel, TokenModel); TokenManager.ServeJWKS (DiscoveryModel, JwksModel).  Not modelled: New, TokenManager.KeyRotationLoop.
* `proxy/internal/tokenmanager/urltoken.go`: modelled: sessionID (BrowserModel); TokenManager.URLToken (PagesModel, TokenModel); TokenManager.ValidateURLToken (PagesModel, PasskeyHttpModel, TokenModel).  Not modelled: none.
* `proxy/logging.go`: modelled: Proxy.logConnF (SettingsModel); Proxy.logError (SettingsModel); Proxy.logErrorF (SettingsModel); Backend.logConnF (SettingsModel); Backend.logRequestF (SettingsModel); Backend.logErrorF (ReauthModel, RouteModel, SettingsModel); Backend.logError (SettingsModel); shouldLog (SettingsModel).  Not modelled: Proxy.extLogger, Backend.extLogger, logger.Info, logger.Infof, logger.Error, logger.Errorf, logger.Fatal, logger.Fatalf.
* `proxy/metrics.go`: modelled: Proxy.recordEvent (ConsoleModel); Proxy.setCounters (ConsoleModel); Proxy.metricsHandler (ConsoleModel, StreamModel).  Not modelled: init, Proxy.faviconHandler.
* `proxy/nopprof.go`: not modelled (1 functions).
* `proxy/noquic.go`: not modelled (4 functions).
* `proxy/otheros.go`: not modelled (1 functions).
* `proxy/pprof.go`: not modelled (1 functions).
* `proxy/proxy.go`: modelled: New (CertModel, LifeModel, ReconfModel); NewTestProxy (CertModel, ReconfModel); Proxy.Reconfigure (AccountModel, AuthorityModel, CertModel, CleanupModel, ConsoleModel, DiscoveryModel, EndpointModel, HeadersModel, HttpModel, LifeModel, LimitModel, LogModel, OcspModel, PagesModel, PkiModel, PoolModel, ReauthModel, ReconfModel, ReloadModel, RouteModel, SettingsModel, ShutdownModel, TokenModel, TrustModel, WholeModel); Proxy.reAuthorize (ConsoleModel, ReauthModel); Proxy.Start (AccountModel, CleanupModel, LifeModel, ShutdownModel); Proxy.ctxWait (LifeModel, ShutdownModel); Proxy.acceptLoop (ShutdownModel); Proxy.Stop (LifeModel, ShutdownModel); Proxy.Shutdown (LifeModel, ShutdownModel); Proxy.baseTLSConfig (CertModel, ConsoleModel, OcspModel, TrustModel); Proxy.getCertFromConfig (CertModel); Proxy.acceptProxyHeader (ProxyHdrModel); Proxy.handleConnection (AcceptModel, AccountModel, AdmitModel, AnswerModel, ConsoleModel, ForwardModel, LifeModel, LogModel, ProxyHdrModel, ReconfModel, RouteModel, ShutdownModel, WholeModel); Proxy.checkIP (AnswerModel, ConsoleModel); Proxy.authorizeTLSConnection (ConsoleModel, RouteModel); Proxy.handleHTTPConnection (ConsoleModel, ForwardModel, LogModel, ShutdownModel); Proxy.handleTLSConnection (ConsoleModel, ForwardModel, ShutdownModel); Proxy.handleTLSPassthroughConnection (AnswerModel, ConsoleModel, ForwardModel, ShutdownModel); Proxy.backend (ConsoleModel, LifeModel, RouteModel); formatReqDesc (LogModel); formatConnDesc (LogModel); loadCerts (ConfigModel, TrustModel); hostFromReq (HttpModel); hostAndPath (ConfigModel, EndpointModel); certSummary (LogModel).  Not modelled: eventRecorder.Record, Proxy.handleACMEConnection, Proxy.defaultServerName, setKeepAlive, guessIDP, unwrapErr.
* `proxy/quic.go`: modelled: Proxy.startQUIC (LifeModel, RouteModel); Proxy.handleQUICConnection (AccountModel, AdmitModel, AnswerModel, ConsoleModel, ForwardModel, LifeModel, QuicModel, ReconfModel, RouteModel, StreamModel, WholeModel); Proxy.handleQUICTCPStream (ConsoleModel, ForwardModel, StreamModel, WholeModel); Backend.handleQUICQUICStream (ConsoleModel, QuicModel); Backend.dialQUIC (ConsoleModel); Backend.dialQUICBackend (OcspModel, PoolModel, TrustModel); http3Server (LifeModel).  Not modelled: Proxy.quicAcceptLoop, Backend.dialQUICStream, Backend.http3Transport.
* `proxy/revoke.go`: modelled: Proxy.RevokeAllCertificates (CleanupModel, PemModel); Proxy.revokeUnusedCertificates (CleanupModel, PemModel); Proxy.acmeAccountKey (PemModel); Proxy.acmeAllCerts (CleanupModel, PemModel); parseRevocationReason (CleanupModel); parsePrivateKey (PemModel).  Not modelled: none.
* `proxy/unix.go`: not modelled (1 functions).
* `proxy/util.go`: modelled: connServerNameIsSet (ReauthModel); connServerName (ProxyHdrModel, ReauthModel, WholeModel); connProto (ProxyHdrModel, ReauthModel, WholeModel); connClientCert (ReauthModel, WholeModel); connBackend (AccountModel, ReauthModel, WholeModel); connMode (ShutdownModel); idnaToASCII (ConfigModel, RouteModel).  Not modelled: netwConn, annotatedConn, connIntConn, connProxyProto, connHTTPUpgrade, idnaToUnicode, formatSize10, isProxyProtoConn, localNetConn.
* `proxy/websocket.go`: modelled: Proxy.webSocketHandler (WsModel).  Not modelled: newWebSocketUpgrader.
* `proxy/xfcc.go`: modelled: addXFCCHeader (XfccModel); encodeXFCCSubject (XfccModel); encodeXFCC (XfccModel).  Not modelled: none.
* `tlsclient/main.go`: modelled: main (TlsClientModel).  Not modelled: none.

Outside the model altogether: the cryptography of TLS, X.509, SSH and JWT
(signatures are modelled as authentic), TLS record processing, QUIC, HTTP/1,
HTTP/2 and HTTP/3 framing, regular expressions, YAML and XML decoding,
IDNA tables, the file encryption and atomic rename inside the storage library,
the TPM, the fairness of the Go scheduler, real time, memory and disk limits,
HTML templates and the display code in the browser (JavaScript and WASM).
JSON is modelled where tokens, the passkey pages and OpenID use it (C112, C113,
C115), CBOR for passkeys (C114), and the scripts of the passkey and certificate
pages as far as they exchange messages with the server.

The models of Go's standard library (net/http headers and cookies, httputil's
ReverseProxy, net/url, path, crypto/tls ALPN, net.IPNet) and of other
libraries (jwt, autocert, x/crypto/ocsp, the LRU cache) are written
from their documentation and from knowledge of their source; they are part of
the trusted reading, like the reading of /repo itself.

## Trusted base

* Coq's kernel, version 8.16.1, as run by `coqc`; every file is compiled
  without any flag that relaxes a check.
* `Print Assumptions` follows each property theorem in the `*Props.v` files.
  For every one of them it prints "Closed under the global context": no axiom
  is used, neither of the standard library nor of the model.
* The only axioms anywhere in the loaded libraries are the declarations inside
  the standard library's own module `Coq.ssr.ssrunder` (`Under_rel` and its
  six companions), which come with the standard library files that are
  loaded.  No theorem depends on them.
* There is no `Admitted`, `admit`, `Axiom`, `Parameter`, `Conjecture` or
  section-less `Variable`; sections are closed and their variables are
  universally quantified in the resulting statements.
* The model.  Whether it says what the Go code does is a matter of reading:
  each definition cites the lines it stands for.  Definitions marked
  "Artefact" have no counterpart in the code (records of the state, lists of
  operations, updates).

## Tests of the theorems

`seeded/LOG.jsonl` records deliberate errors put into a copy of the model, the
claim each one breaks and the theorems that no longer held.  An entry with an
empty list of failed theorems names what was tightened, or says why the edit
does not change any claim.

