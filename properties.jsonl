{"id": "C01", "title": "Looking at the ClientHello never alters the byte stream", "statement": "Whatever sequence of peeks and reads is applied to an accepted connection, and however the network splits the data, the bytes returned by the reads, concatenated, are exactly a prefix of the bytes the client sent: nothing is lost, duplicated or reordered by the peeking that routing needs, and the peeked bytes are the first unread bytes.", "quantifier": "all client byte streams, all splittings of it into network reads, all sequences of Peek(n)/Read(n) calls with any sizes", "why_tests_cant": "The interleavings of peeks, short network reads and buffer sizes are unbounded; a test fixes a few.", "anchors": ["proxy/internal/netw/netw.go:Conn.Peek,Conn.Read", "proxy/hello.go:peekClientHello"]}
{"id": "C02", "title": "Routing sees exactly the server name and ALPN list that the client sent", "statement": "For every well-formed TLS ClientHello that fits one record, whatever its session id, cipher suites, compression methods and other extensions in any order, the server name and the ALPN list the proxy extracts for routing are exactly the ones encoded in the message (empty when absent), and extraction consumes no byte of the stream.", "quantifier": "all ClientHello messages (all field lengths, extension lists and orders, all names and protocol lists)", "why_tests_cant": "Binary format with nested lengths; a parser bug shows only for particular field lengths or extension orders.", "anchors": ["proxy/hello.go:peekClientHello", "proxy/hello.go:readLength8,readLength16"]}
{"id": "C03", "title": "No byte sequence sent by an unauthenticated client makes ClientHello inspection panic", "statement": "For every byte sequence received on a new connection, inspecting it either yields a ClientHello or an error; it never indexes out of range.", "quantifier": "all byte sequences (any length, any content) a peer can send before authentication", "why_tests_cant": "The input space is all byte strings; fuzzing samples it.", "anchors": ["proxy/hello.go:peekClientHello"]}
{"id": "C04", "title": "An accepted configuration routes every connection unambiguously", "statement": "If a configuration passes validation then no two backends claim the same server name and application protocol, and each connection goes to the backend which claims the first protocol in the client's ALPN list that any backend claims for that server name, or else to the first backend in the file that lists the server name. No other backend can ever receive it.", "quantifier": "all accepted configurations, all server names, all client ALPN lists", "why_tests_cant": "Quantifies over all configurations and client hellos; also over the order of backends in the file.", "anchors": ["proxy/config.go:Config.Check", "proxy/proxy.go:Proxy.Reconfigure", "proxy/proxy.go:Proxy.backend"]}
{"id": "C05", "title": "Connections for unknown server names are never forwarded", "statement": "A connection whose server name (or, without SNI, the default server name) is not listed by any backend, or whose backend is shutting down, is refused before any byte is sent to a backend.", "quantifier": "all configurations, all client hellos", "why_tests_cant": "A negative property over all names and configurations.", "anchors": ["proxy/proxy.go:Proxy.handleConnection", "proxy/proxy.go:Proxy.backend"]}
{"id": "C06", "title": "IP allow and deny lists are enforced before any traffic reaches a backend", "statement": "For every backend and client address: the connection is refused if the address is in any deny range, and otherwise if an allow list exists and the address is in none of its ranges; it is accepted otherwise. No connection in any mode reaches the backend or the HTTP handler without passing this test (the ACME challenge responder is the only exception and never contacts a backend).", "quantifier": "all addresses, all CIDR lists, all backend modes, all client hellos", "why_tests_cant": "All addresses and prefix lengths; all dispatch branches.", "anchors": ["proxy/backend.go:Backend.checkIP", "proxy/proxy.go:Proxy.handleConnection,handleTLSPassthroughConnection,handleHTTPConnection,handleTLSConnection"]}
{"id": "C07", "title": "Client certificate ACLs mean what the documentation says", "statement": "With client authentication and an ACL, a certificate is accepted exactly when the ACL lists its non-empty subject (plain or with SUBJECT:), one of its DNS names with DNS:, one of its e-mail addresses with EMAIL: or one of its URIs with URI:. Without an ACL any verified certificate is accepted. An empty ACL accepts none. A connection with a refused certificate never reaches a backend.", "quantifier": "all ACLs, all certificates", "why_tests_cant": "All string contents, including names that look like prefixed ACL entries.", "anchors": ["proxy/backend.go:Backend.authorize", "proxy/proxy.go:Proxy.authorizeTLSConnection", "proxy/proxy.go:Reconfigure (VerifyConnection)"]}
{"id": "C08", "title": "The TLS session is authorised for the same server name that selected the backend", "statement": "A TLS-terminated connection is delivered to a backend only if the server name negotiated in the TLS handshake is the one used to select the backend, and the client-certificate rules applied during the handshake are those of that same backend.", "quantifier": "all client hellos, all configurations (fixed during the handshake), all ALPN preference orders on both sides", "why_tests_cant": "Needs all combinations of the client's and the server's protocol preference orders.", "anchors": ["proxy/proxy.go:Proxy.authorizeTLSConnection", "proxy/quic.go:Proxy.startQUIC,handleQUICConnection", "proxy/proxy.go:Proxy.backend"]}
{"id": "C09", "title": "After a configuration change no connection survives that the new configuration forbids", "statement": "When a configuration is replaced, each open connection whose server name is no longer served, whose backend mode changed, whose address is no longer allowed or whose certificate is not accepted any more is closed, the others stay open, and the proxy itself keeps running.", "quantifier": "all pairs of configurations, all sets of open connections in every phase of their set-up", "why_tests_cant": "Depends on the phase each connection is in at the moment of the change.", "anchors": ["proxy/proxy.go:Proxy.reAuthorize", "proxy/proxy.go:Reconfigure", "proxy/quic.go:handleQUICConnection"]}
{"id": "C10", "title": "The number of connections being served never exceeds maxOpen", "statement": "At every moment of every history of connection arrivals and closings, the number of connections admitted and not yet closed is at most the configured maxOpen, and a connection is refused only when the limit is reached.", "quantifier": "all interleavings of arrivals and closings, all limits", "why_tests_cant": "A bound over all histories.", "anchors": ["proxy/conntracker.go", "proxy/proxy.go:Proxy.handleConnection", "proxy/quic.go:handleQUICConnection"]}
{"id": "C11", "title": "Each connection is accounted for exactly once", "statement": "The close callback of a connection runs exactly once however many goroutines close it and in whatever order, so after all connections are closed the list of open connections is empty and the number of requests in flight on each backend is zero.", "quantifier": "all interleavings of any number of Close calls and accounting steps", "why_tests_cant": "Concurrent closers: all schedules.", "anchors": ["proxy/internal/netw/netw.go:Conn.Close,OnClose", "proxy/internal/netw/quic.go:QUICConn.Close,OnClose", "proxy/conntracker.go", "proxy/backend.go:Backend.incInFlight"]}
{"id": "C12", "title": "Replacing a backend never breaks the hand-over of accepted connections to its HTTP server", "statement": "During graceful replacement of a backend its hand-over queue is closed at most once and only when no accepted connection still needs it; every connection handed over is either served or closed.", "quantifier": "all interleavings of connection set-up, hand-over, closing and reconfiguration", "why_tests_cant": "A race: only particular schedules fail.", "anchors": ["proxy/backend.go:incInFlight,close", "proxy/http.go:proxyListener", "proxy/proxy.go:handleConnection,handleHTTPConnection"]}
{"id": "C13", "title": "Backend addresses are used round-robin, and a dial fails only after trying every address", "statement": "Successive connections to a backend with n addresses use them in cyclic order, so over any k*n successive successful dials each is used exactly k times; a dial returns an error only when each of the n addresses has been tried once and failed.", "quantifier": "all address lists, all patterns of failing addresses, all dial sequences, all interleavings of concurrent dials", "why_tests_cant": "All failure patterns and schedules.", "anchors": ["proxy/backend.go:Backend.dial"]}
{"id": "C14", "title": "Bridged connections deliver all bytes before the close, in each direction", "statement": "When one side of a bridged connection finishes sending, the other side receives all of the data sent so far and then end of file; the opposite direction stays usable as configured (server-close and client-close settings), and both connections end up closed.", "quantifier": "all byte streams, all orders of end-of-file and errors on both sides, all settings of the half-close options", "why_tests_cant": "Both directions run concurrently and may end in either order.", "anchors": ["proxy/backend.go:bridgeConns,forward,closeWrite,closeRead"]}
{"id": "C15", "title": "Path cleaning is canonical and never redirects to another host", "statement": "For every request path the cleaned path starts with exactly one slash, has no empty, dot or dot-dot element, keeps a trailing slash, and cleaning is idempotent. A redirect to the cleaned path therefore always stays on the same host.", "quantifier": "all path strings", "why_tests_cant": "All strings, including encoded and nested dot segments.", "anchors": ["proxy/backend-http.go:pathClean,redirectPermanently,sanitizeRequestPath"]}
{"id": "C16", "title": "Static file serving never leaves the document root or shows hidden files", "statement": "For every request, the file served is below the configured document root and no element of its path below the root starts with a dot or contains a backslash.", "quantifier": "all request paths, all document roots and override prefixes, all file trees (symbolic links excepted)", "why_tests_cant": "Path traversal: all strings.", "anchors": ["proxy/backend-http.go:Backend.serveStaticFiles"]}
{"id": "C17", "title": "Single sign-on cannot be bypassed", "statement": "On a backend with an SSO policy, a request whose path, as sent or as cleaned, is below a protected path reaches the backend server, a static file or a local handler that is not marked as bypassing SSO only if it carries a session cookie that the proxy issued for that backend's provider, or a bearer identity token that it issued for the host of the request under that provider's issuer, for a user accepted by the ACL.", "quantifier": "all requests (method, path, headers, cookies), all policies, all path lists", "why_tests_cant": "All combinations of path encodings and handlers.", "anchors": ["proxy/backend-http.go:reverseProxy,localHandler,handleLocalEndpointsAndAuthorize", "proxy/backend-sso.go:authenticateUser,enforceSSOPolicy,pathMatches"]}
{"id": "C18", "title": "The SSO access list matches exactly the listed users and domains", "statement": "A user is accepted exactly when the access list contains the e-mail address or @ followed by everything after the first @ of the address. A nil list accepts every authenticated user and an empty list accepts none.", "quantifier": "all e-mail strings, all lists", "why_tests_cant": "All strings: sub-domains, several @ signs, missing @.", "anchors": ["proxy/backend-sso.go:enforceSSOPolicy", "proxy/internal/passkeys/manager.go:subjectIsAllowed"]}
{"id": "C19", "title": "Clients cannot forge the identity headers given to backends", "statement": "Whatever headers a client sends, the user-id header that the backend receives is absent or the authenticated user, the X-Forwarded-For header holds only the peer address added by the proxy, and the client-certificate header is absent or describes the certificate actually presented.", "quantifier": "all request header sets (repeated headers, any letter case), all configurations", "why_tests_cant": "All header combinations.", "anchors": ["proxy/backend-sso.go:authenticateUser", "proxy/backend-http.go:reverseProxyDirector,reverseProxy", "proxy/xfcc.go:addXFCCHeader"]}
{"id": "C20", "title": "Backends that ask for the client-certificate header always get it", "statement": "When the backend is configured to receive the client certificate header, each forwarded request of a connection with a client certificate carries it; no client request can suppress it.", "quantifier": "all requests, all header sets", "why_tests_cant": "All header combinations, including connection options.", "anchors": ["proxy/backend-http.go:reverseProxyDirector", "proxy/xfcc.go:addXFCCHeader"]}
{"id": "C21", "title": "The client-certificate header cannot be forged from certificate contents", "statement": "The header value produced for a certificate decodes, by the header's own quoting rules, to exactly the fields of that certificate: no field content can end its element early or add another one, so different certificates give different headers.", "quantifier": "all certificate hashes, subjects, URIs and DNS names (any characters)", "why_tests_cant": "All strings with quotes, backslashes, commas, semicolons, equals signs.", "anchors": ["proxy/xfcc.go:addXFCCHeader,encodeXFCC,encodeXFCCSubject"]}
{"id": "C22", "title": "Requests for other hosts are never forwarded to a backend", "statement": "Every request forwarded to a backend, or answered from its files by the reverse proxy, names a host that the backend serves; otherwise the client gets 421.", "quantifier": "all requests, all host headers, all configurations", "why_tests_cant": "All host strings.", "anchors": ["proxy/backend-http.go:reverseProxy", "proxy/proxy.go:hostFromReq"]}
{"id": "C23", "title": "Forwarding loops are cut", "statement": "A request that has already been forwarded by this proxy, whatever proxies it went through afterwards, is not forwarded again.", "quantifier": "all request histories, all Via header lists that intermediate proxies may build", "why_tests_cant": "All header layouts and hop counts.", "anchors": ["proxy/backend-http.go:reverseProxy"]}
{"id": "C24", "title": "The most specific local endpoint answers, independent of configuration order", "statement": "A request is answered by a built-in endpoint exactly when one matches its host and path; among the matching ones those bound to the host of the request come first, then the one with the longest path, whatever the order in which endpoints were configured.", "quantifier": "all sets of endpoints, all requests", "why_tests_cant": "All orders and overlapping prefixes.", "anchors": ["proxy/proxy.go:Reconfigure (localHandlers sort)", "proxy/backend-http.go:handleLocalEndpointsAndAuthorize"]}
{"id": "C25", "title": "Path overrides select backends by whole path elements, first match wins", "statement": "A request is sent to the addresses of the first override one of whose path prefixes is a prefix of the cleaned request path at an element boundary, and to the default addresses when none matches.", "quantifier": "all override lists, all paths", "why_tests_cant": "All strings and orders.", "anchors": ["proxy/backend-http.go:reverseProxy", "proxy/config.go:Check (PathOverrides)"]}
{"id": "C26", "title": "The proxy's own session cookie is not disclosed to backends", "statement": "The authentication cookie set by the proxy is never forwarded to a backend server, and all other cookies are forwarded unchanged and in order.", "quantifier": "all requests, all cookie headers, all SSO path lists", "why_tests_cant": "All cookie lists and paths.", "anchors": ["proxy/internal/cookiemanager/cookiemanager.go:FilterOutAuthTokenCookie", "proxy/backend-sso.go:enforceSSOPolicy"]}
{"id": "C27", "title": "Session, identity, URL and API tokens are never interchangeable", "statement": "A token issued for one purpose is refused for every other: an identity token or a URL token is never accepted as a session cookie, a session cookie is never accepted as a bearer token, a token of one provider is not accepted as a session for another.", "quantifier": "all issued tokens of all kinds, all providers, all claim contents including claims supplied by the identity provider", "why_tests_cant": "Cross product of token kinds and attacker-chosen claims.", "anchors": ["proxy/internal/cookiemanager/cookiemanager.go", "proxy/internal/tokenmanager/urltoken.go", "proxy/internal/oidc/server.go"]}
{"id": "C28", "title": "Claims supplied by an identity provider cannot override the proxy's own claims", "statement": "Whatever extra claims or SAML attributes come with a login, the resulting session token has the issuer, audience, subject, e-mail, expiry, session id and marker chosen by the proxy.", "quantifier": "all extra-claim maps", "why_tests_cant": "All claim names.", "anchors": ["proxy/internal/cookiemanager/cookiemanager.go:SetAuthTokenCookie,createAuthToken", "proxy/internal/saml/saml.go:HandleCallback"]}
{"id": "C29", "title": "Identity tokens never outlive the session they come from", "statement": "The identity token derived from a session expires exactly when the session does and carries the same user; it never has a later expiry.", "quantifier": "all session tokens, all derivation times", "why_tests_cant": "All claim maps and times.", "anchors": ["proxy/internal/cookiemanager/cookiemanager.go:SetIDTokenCookie"]}
{"id": "C30", "title": "A redirect after login only goes to a URL the proxy itself signed for this browser", "statement": "The URL to which the login, logout and passkey pages redirect is one that was signed for the session id of the same browser; a URL token copied to another browser, or any other token, is refused.", "quantifier": "all tokens, all cookies, all histories of token creation", "why_tests_cant": "All histories and cookie values.", "anchors": ["proxy/internal/tokenmanager/urltoken.go:URLToken,ValidateURLToken", "proxy/backend-sso.go:serveLogin,serveLogout"]}
{"id": "C31", "title": "Signed tokens stay verifiable for their whole lifetime", "statement": "A session token issued at any moment can be verified by the proxy until it expires 20 hours later, across any number of key rotations and restarts.", "quantifier": "all histories of rotations, restarts, downtimes and token creations", "why_tests_cant": "Histories of days or weeks.", "anchors": ["proxy/internal/tokenmanager/tokenmanager.go:rotateKeys,CreateToken,getKey,KeyRotationLoop"]}
{"id": "C32", "title": "The signing key set stays bounded and usable", "statement": "Under periodic rotation there is always a key of every algorithm to sign with, a new key is used only after it was published for two hours when an older one exists, and the number of stored keys stays bounded.", "quantifier": "all rotation histories", "why_tests_cant": "Unbounded histories.", "anchors": ["proxy/internal/tokenmanager/tokenmanager.go:rotateKeys,createNewTokenKeys,CreateToken"]}
{"id": "C33", "title": "Forced re-authentication is honoured per host", "statement": "When the policy demands re-authentication, a request is accepted only if the session was created for this very host within the configured time.", "quantifier": "all sessions, hosts and times", "why_tests_cant": "All hosts and times.", "anchors": ["proxy/backend-sso.go:enforceSSOPolicy"]}
{"id": "C34", "title": "OpenID authorization codes and access tokens work once, for two minutes, for the right client", "statement": "The built-in OpenID server exchanges a code at most once, only for the client it was issued to with that client's secret, at most two minutes after it was issued; an access token gives user information at most once.", "quantifier": "all interleavings of authorization, token and userinfo requests, all clock readings", "why_tests_cant": "All request histories and concurrent redemptions.", "anchors": ["proxy/internal/oidc/server.go:ServeAuthorization,ServeToken,ServeUserInfo,vacuum"]}
{"id": "C35", "title": "The token request must use the redirect URI of the authorization request", "statement": "The built-in OpenID server exchanges a code only if the token request names the same redirect URI as the authorization request that produced the code (RFC 6749, 4.1.3).", "quantifier": "all clients and request pairs", "why_tests_cant": "All request pairs.", "anchors": ["proxy/internal/oidc/server.go:ServeToken"]}
{"id": "C36", "title": "An OpenID login completes only in the browser and for the login that started it", "statement": "A login callback creates a session only if its state belongs to a login request that was started at most five minutes ago by the same browser, is used for the first time, and the identity token returned by the provider was issued for that same login request.", "quantifier": "all interleavings of logins and callbacks of several browsers, all provider responses", "why_tests_cant": "Needs interleaved logins of an attacker and a victim.", "anchors": ["proxy/internal/oidc/client.go:RequestLogin,HandleCallback"]}
{"id": "C37", "title": "A SAML response is accepted once, within its validity, for this service", "statement": "A SAML response creates a session only if its signed assertion answers a request made by this proxy at most five minutes ago that was not answered before, is addressed to this service, and is within its validity period.", "quantifier": "all responses, all histories of requests and responses", "why_tests_cant": "All histories.", "anchors": ["proxy/internal/saml/saml.go:RequestLogin,HandleCallback"]}
{"id": "C38", "title": "A SAML login completes only in the browser that started it", "statement": "A SAML response posted by one browser never completes a login that another browser started.", "quantifier": "all interleavings of logins of several browsers", "why_tests_cant": "Needs interleaved logins of an attacker and a victim.", "anchors": ["proxy/internal/saml/saml.go:RequestLogin,HandleCallback"]}
{"id": "C39", "title": "A passkey logs in only the user who registered it", "statement": "In every history of registrations, logins, refreshes and deletions, a successful passkey login yields the e-mail address under which that very key was registered and not deleted since; adding or deleting keys of one user never changes another user's keys.", "quantifier": "all histories of the passkey endpoints by any users", "why_tests_cant": "Histories over a persistent store.", "anchors": ["proxy/internal/passkeys/manager.go:processAttestation,processAssertion,deleteKey,attestationOptions"]}
{"id": "C40", "title": "A passkey challenge is used at most once and for five minutes", "statement": "Each challenge issued by the proxy is accepted by at most one registration or login, at most five minutes after it was issued, and a registration only by the session that asked for it.", "quantifier": "all histories, all orders", "why_tests_cant": "All histories.", "anchors": ["proxy/internal/passkeys/manager.go:vacuum,assertionOptions,attestationOptions,processAttestation,processAssertion"]}
{"id": "C41", "title": "A passkey assertion is accepted only from the proxy's own origin", "statement": "A passkey login is accepted only if the browser reports the proxy's own origin in the signed client data.", "quantifier": "all client data", "why_tests_cant": "All client data values.", "anchors": ["proxy/internal/passkeys/manager.go:processAssertion"]}
{"id": "C42", "title": "Authenticator data is decoded exactly, and malformed data is refused without panic", "statement": "Decoding authenticator data produced by the WebAuthn format gives back its fields; every other byte string is refused with an error and never indexes out of range.", "quantifier": "all byte strings", "why_tests_cant": "All byte strings.", "anchors": ["proxy/internal/passkeys/webauthn.go:parseAuthenticatorData"]}
{"id": "C43", "title": "Revocation is permanent and consistent", "statement": "Once a certificate of the built-in CA is revoked it is reported revoked for ever, by the handshake check and by the OCSP responder alike; a certificate issued and never revoked is reported good by both; revoking one certificate never affects another.", "quantifier": "all histories of issuing, revoking and querying, all serial numbers", "why_tests_cant": "All histories; serial encodings.", "anchors": ["proxy/internal/pki/pki.go:RevokeCertificate,IsRevoked,OCSPResponse,bytesToHex"]}
{"id": "C44", "title": "Every revocation list handed out is complete and current", "statement": "A revocation list fetched after a revocation lists every revoked unexpired certificate, is not past its next-update time, and list numbers strictly increase.", "quantifier": "all histories of revocations and fetches at all clock readings", "why_tests_cant": "Sub-second timing and clock boundaries.", "anchors": ["proxy/internal/pki/pki.go:RevocationList"]}
{"id": "C45", "title": "The built-in CA certifies only the authenticated user's identity", "statement": "A certificate obtained through the web page has exactly the authenticated user's e-mail address, and one that carries DNS names is never usable as a client certificate. Only the owner or an administrator can revoke it.", "quantifier": "all requests, all certificate signing requests, all users", "why_tests_cant": "All CSRs.", "anchors": ["proxy/internal/pki/http.go:handleRequestCert,handleRevokeCert", "proxy/internal/pki/pki.go:IssueCertificate"]}
{"id": "C46", "title": "SSH certificates are short-lived and name only the authenticated user", "statement": "A certificate issued by the SSH CA names exactly the authenticated user's e-mail address as key id and principal, is a user certificate and expires ten minutes after it was issued; without authentication none is issued.", "quantifier": "all requests", "why_tests_cant": "All requests and times.", "anchors": ["proxy/internal/sshca/sshca.go:ServeCertificate"]}
{"id": "C47", "title": "A revoked peer certificate is refused", "statement": "A TLS peer is accepted only if it has a verified chain in which no certificate with an OCSP responder is known to be revoked, and it is accepted whenever it has a chain whose certificates are all good.", "quantifier": "all chains, all responder answers, all cache states", "why_tests_cant": "All combinations of chains and answers.", "anchors": ["proxy/internal/ocspcache/ocsp.go:VerifyChains,Response,fetchOCSP"]}
{"id": "C48", "title": "OCSP answers are only used for the certificate they are about and while current", "statement": "A peer certificate with an OCSP responder is accepted on the basis of an answer only if the answer is about that certificate and is not expired.", "quantifier": "all responder answers", "why_tests_cant": "All answers, including replayed ones.", "anchors": ["proxy/internal/ocspcache/ocsp.go:VerifyChains,Response,fetchOneOCSP"]}
{"id": "C49", "title": "A configured bandwidth limit is applied", "statement": "Every connection to a backend that names a bandwidth limit group in an accepted configuration is subject to the limits of that group.", "quantifier": "all accepted configurations, all group names", "why_tests_cant": "All strings.", "anchors": ["proxy/proxy.go:Reconfigure (bwLimits)", "proxy/config.go:Check"]}
{"id": "C50", "title": "A rejected configuration changes nothing", "statement": "When loading a new configuration fails at any point, routing, limits and everything else the proxy does stay exactly as they were.", "quantifier": "all configurations and failure points", "why_tests_cant": "All failure points.", "anchors": ["proxy/proxy.go:Reconfigure"]}
{"id": "C51", "title": "Traffic counters are exact", "statement": "A counter's value is the sum of all increments, and its rate over a period is the sum of increments in the corresponding window divided by the window's length, at every time and for every history of increments.", "quantifier": "all histories of increments at all times, all periods", "why_tests_cant": "Ring buffer wrap-around over unbounded time.", "anchors": ["proxy/internal/counter/counter.go"]}
{"id": "C52", "title": "Certificates of names still in use are never revoked by the clean-up", "statement": "The automatic revocation of unused certificates never revokes or deletes a certificate that covers at least one configured server name.", "quantifier": "all certificates, all configurations", "why_tests_cant": "All name sets.", "anchors": ["proxy/revoke.go:revokeUnusedCertificates"]}
{"id": "C53", "title": "Log settings resolve from the most specific to the most general", "statement": "Whether a class of events is logged for a backend is decided by the backend's setting if present, otherwise by the global one, otherwise it is logged.", "quantifier": "all settings", "why_tests_cant": "All combinations.", "anchors": ["proxy/logging.go:shouldLog"]}
{"id": "C54", "title": "The proxy protocol version setting is validated", "statement": "A proxy-protocol setting in an accepted configuration selects version 1 or 2 of the protocol, and every other value is rejected.", "quantifier": "all strings", "why_tests_cant": "All strings.", "anchors": ["proxy/config.go:validateProxyProtoVersion"]}
{"id": "C55", "title": "Everything else in a request reaches the backend unchanged", "statement": "A request header that is not a hop-by-hop header, not named in a Connection header, not set by the proxy itself and not named in the backend's header rules reaches the backend with the same values in the same order, and the path is the cleaned path or, where cleaning is switched off, the path as sent.", "quantifier": "all requests, header names and values, backend configurations", "why_tests_cant": "All header sets, spellings and repetitions.", "anchors": ["proxy/backend-http.go:reverseProxy", "proxy/backend-http.go:reverseProxyDirector"]}
{"id": "C56", "title": "Authorization codes are sent only to an address registered for the client", "statement": "The built-in OpenID server sends an authorization code only in a redirect of a logged-in user, to the address named in the request, and only when that address is registered for the client the request names.", "quantifier": "all authorization requests, all configurations, all histories", "why_tests_cant": "All requests; a single address that is not checked leaks codes.", "anchors": ["proxy/internal/oidc/server.go:ServeAuthorization"]}
{"id": "C57", "title": "A passkey credential belongs to one user", "statement": "No two users have a registered key with the same credential identifier, so that what the authenticator signed determines the user who is logged in.", "quantifier": "all histories of registrations and logins", "why_tests_cant": "Histories of several users.", "anchors": ["proxy/internal/passkeys/manager.go:processAttestation,processAssertion"]}
{"id": "C58", "title": "A passkey login rests on an identity confirmed within the refresh interval", "statement": "When a refresh interval is configured, a passkey login creates a session only if the identity behind the key was confirmed by the other identity provider within that interval; otherwise the user is sent to confirm it again.", "quantifier": "all histories, all ages of identities, all intervals", "why_tests_cant": "All histories and clock readings.", "anchors": ["proxy/internal/passkeys/manager.go:HandleCallback,processAssertion"]}
{"id": "C59", "title": "Only a passkey session can add a key to an account that has one", "statement": "A user who is identified by the other identity provider alone can register a passkey only while the account has no key, and only if the access list of the passkey provider allows the user.", "quantifier": "all histories of registrations and deletions", "why_tests_cant": "All histories.", "anchors": ["proxy/internal/passkeys/manager.go:HandleCallback,processAttestation,subjectIsAllowed"]}
{"id": "C60", "title": "The authority's own certificate cannot be revoked by a user of the web page", "statement": "The page offers no way to revoke the certificate of the authority itself or of its delegated signer, and no request revokes one; a request of somebody who is not an administrator revokes only certificates that were issued to that user.", "quantifier": "all histories of requests, all users", "why_tests_cant": "All requests, forged ones included, in all histories.", "anchors": ["proxy/internal/pki/http.go:ServeCertificateManagement,handleRevokeCert", "proxy/internal/pki/pki.go:RevokeCertificate"]}
{"id": "C61", "title": "Requests for revocation lists and OCSP answers never crash", "statement": "Whatever happened before, writes to the store that failed included, a request for the revocation list or for the status of a certificate is answered or refused, and does not crash.", "quantifier": "all histories, all failing writes", "why_tests_cant": "All histories with failures at all points.", "anchors": ["proxy/internal/pki/pki.go:RevocationList,OCSPResponse,createDelegateIfNeeded"]}
{"id": "C62", "title": "Every standard way of sending an OCSP request by GET is understood", "statement": "An OCSP request sent in the path of a GET request, in standard or URL-safe base64, with or without padding, percent-encoded or not, reaches the responder as the bytes that the client encoded.", "quantifier": "all byte strings, all four encodings", "why_tests_cant": "All byte strings; only some contain the characters that matter.", "anchors": ["proxy/internal/pki/http.go:ServeOCSP"]}
{"id": "C63", "title": "A certificate without an OCSP responder can be served", "statement": "Serving a certificate to a client never crashes, whether or not the certificate names an OCSP responder and whatever the responder answers, and neither does saving the cache of answers.", "quantifier": "all certificates, all answers, all interleavings of handshakes, evictions, saves and restarts", "why_tests_cant": "All certificates and interleavings; the tests use a certificate with a responder or a self-signed one.", "anchors": ["proxy/proxy.go:baseTLSConfig", "proxy/internal/ocspcache/ocsp.go:Response,fetchOCSP,flush"]}
{"id": "C64", "title": "An SSH authority keeps its key", "statement": "The public key that an SSH certificate authority publishes is the same after every restart and reconfiguration, whichever writes fail, is the key that signs its certificates, and is not the key of another authority.", "quantifier": "all histories of starts and failures, all names", "why_tests_cant": "All names, including ones with special characters, and all histories.", "anchors": ["proxy/internal/sshca/sshca.go:New,initCA,ServePublicKey"]}
{"id": "C65", "title": "Connections that are already open follow their bandwidth limit group", "statement": "After a configuration has been loaded, a connection that was opened under a bandwidth limit group is subject to the limits that the new configuration gives the group, or to the old ones if the group is gone.", "quantifier": "all states, all accepted configurations", "why_tests_cant": "All configurations and histories.", "anchors": ["proxy/proxy.go:Reconfigure (bwLimits)"]}
{"id": "C66", "title": "Certificates revoked by the clean-up are not served again", "statement": "When the clean-up of unused certificates has run, the certificates it has revoked are no longer in the cache, so none of them is served if its name is configured again.", "quantifier": "all caches, configurations, points of failure", "why_tests_cant": "All points of failure.", "anchors": ["proxy/revoke.go:revokeUnusedCertificates"]}
{"id": "C67", "title": "Revoking all certificates revokes all of them or says so", "statement": "The command that revokes all certificates reports success only if every certificate in the cache that has not expired has been revoked and all are gone from the cache; otherwise it reports an error and the cache is unchanged. It revokes nothing else.", "quantifier": "all caches, all answers of the CA", "why_tests_cant": "All caches and failures.", "anchors": ["proxy/revoke.go:RevokeAllCertificates"]}
{"id": "C68", "title": "The backend's mode decides what is done with a connection", "statement": "A connection that reaches a backend in mode CONSOLE, LOCAL, HTTP or HTTPS is given to that backend's HTTP server, one for a TLSPASSTHROUGH backend is passed on undecrypted, any other is decrypted and bridged to one of the backend's addresses. A certificate challenge (ACME) for a name whose backend is not passthrough reaches no backend.", "quantifier": "all configurations, client hellos, addresses and handshakes", "why_tests_cant": "All combinations of modes, protocols and hellos.", "anchors": ["proxy/proxy.go:handleConnection,handleHTTPConnection,handleTLSConnection,handleTLSPassthroughConnection,handleACMEConnection"]}
{"id": "C69", "title": "Streams of a forwarded QUIC connection are kept apart", "statement": "When a QUIC connection is forwarded to a QUIC backend, each stream that a peer opens is joined to one new stream of the same kind on the other connection, and to no other; what is sent on a stream arrives on that one and nowhere else, complete and in order, followed by the end of the stream exactly when the sender ended it. No stream appears that the other peer did not open.", "quantifier": "all histories of both peers, the network, the clock and the goroutines of the proxy, all numbers of streams", "why_tests_cant": "All interleavings of any number of streams.", "anchors": ["proxy/quic.go:handleQUICConnection,handleQUICQUICStream", "proxy/backend.go:bridgeConns,forward", "proxy/internal/netw/quic.go:QUICStream,SendOnlyStream,ReceiveOnlyStream"]}
{"id": "C70", "title": "A forwarded QUIC connection ends when either side does", "statement": "When one of the two connections of a forwarded QUIC connection is over, the proxy, once it has nothing left to do, has closed the other one, and has left no stream of a connection that is still up without an answer. It closes neither before.", "quantifier": "all histories of both peers, the network, the clock and the goroutines of the proxy", "why_tests_cant": "All interleavings and all points at which a connection can be lost.", "anchors": ["proxy/quic.go:handleQUICConnection,handleQUICQUICStream", "proxy/backend.go:forward"]}
{"id": "C71", "title": "Backends learn from the PROXY header who the client is", "statement": "When a PROXY protocol version is configured for a backend, each connection to it starts with one header from which any reader of that protocol recovers exactly the client's address and port, the address and port the client connected to and, in version 2, the server name and protocol of the connection; what follows the header is what the client sends. Without a version nothing is put in front.", "quantifier": "all client and server addresses, ports, names, protocols, versions and data", "why_tests_cant": "All addresses and names; formatting and parsing must agree on all of them.", "anchors": ["proxy/backend.go:dial,writeProxyHeader", "proxy/quic.go:dialQUICBackend"]}
{"id": "C72", "title": "Requests share a backend connection only if that makes no difference", "statement": "A request is only ever sent on a connection that goes to one of the addresses that apply to it, was opened with the TLS settings that apply to it, shows the backend the certificate of the server name its client asked for and, with PROXY headers, started with a header about the very client that sent the request.", "quantifier": "all histories of requests of any clients, all configurations with path overrides, all ways to keep and drop connections", "why_tests_cant": "All histories of a shared pool.", "anchors": ["proxy/backend-http.go:reverseProxy,reverseProxyTransport", "proxy/backend.go:dial", "proxy/quic.go:dialQUICBackend"]}
{"id": "C73", "title": "Only listed peers can speak for other clients", "statement": "A PROXY header is believed only on TCP connections from the addresses listed in acceptProxyHeaderFrom; from them it sets the client address that the address rules are applied to, and the connection's data starts behind it. From any other peer it is data, and the connection is refused. A TLS connection without header is never taken for one with a header.", "quantifier": "all lists, peers and byte streams", "why_tests_cant": "All byte streams and addresses.", "anchors": ["proxy/proxy.go:acceptProxyHeader,handleConnection,checkIP"]}
{"id": "C74", "title": "WebSocket tunnels carry bytes unchanged", "statement": "The server behind a WebSocket endpoint receives exactly the contents of the client's binary messages, in order, and the client receives exactly the server's bytes, in messages of at most 1024 bytes; when one end finishes, everything it sent before has been delivered. A tunnel is given up when the client has answered no ping for more than 30 seconds, and a client that answers its pings is not given up.", "quantifier": "all sequences of frames and bytes, all fragmentations, all interleavings of the three goroutines, the ends and the clock", "why_tests_cant": "All interleavings of three goroutines and two peers, and all fragmentations.", "anchors": ["proxy/websocket.go:webSocketHandler"]}
{"id": "C75", "title": "Config.Check accepts the valid configurations and no others", "statement": "A configuration is accepted exactly when it satisfies the documented rules: known modes, unique names, no two backends for the same server name and protocol, references only to things that are defined, readable certificates, correct URLs, ranges and versions. Anything else is an error. What comes back is the configuration with its defaults, and checking that again changes nothing. An accepted configuration lets connections in, its cookie domains cover their hosts, and a passkey provider relies on another provider.", "quantifier": "all configurations and all answers of the system", "why_tests_cant": "All configurations; the rules interact across sections.", "anchors": ["proxy/config.go:Check,validateProxyProtoVersion", "proxy/proxy.go:hostAndPath,loadCerts", "proxy/unix.go:openFileLimit"]}
{"id": "C76", "title": "A configuration file that cannot be used does not stop the proxy", "statement": "Whatever the configuration file contains when it is read again, the proxy goes on serving; it uses the last file that could be used in full.", "quantifier": "all sequences of file contents and all answers of the system", "why_tests_cant": "All histories of files, including ones that no editor would write.", "anchors": ["main.go:configLoop", "proxy/config.go:ReadConfig,Check,clone,equal", "proxy/proxy.go:Reconfigure", "proxy/internal/saml/saml.go:New,readCerts"]}
{"id": "C77", "title": "Peers are trusted only through the configured roots", "statement": "With client authentication, a connection is accepted only from a client whose certificate chains to one of the roots listed for that backend and is not revoked; every listed root is either used or the configuration is refused. A TLS connection to a backend server is used only if the server's certificate chains to a listed forwarding root (the system's roots if none is listed) and is valid for the configured server name, and a certificate of one of the proxy's own authorities must not be revoked. Settings of a path override replace those of the backend for the requests they apply to.", "quantifier": "all root lists, certificate files, chains, revocation states and configurations", "why_tests_cant": "All certificates and configurations; unit tests exercise one chain each.", "anchors": ["proxy/proxy.go:Reconfigure,loadCerts", "proxy/backend.go:dial", "proxy/quic.go:dialQUICBackend"]}
{"id": "C78", "title": "Endpoints are served at their URLs and nowhere else", "statement": "Each login callback, certificate authority, OCSP, CRL and discovery endpoint of the configuration answers requests for its URL, on the backend that serves its host, and is not reachable through any other host or backend.", "quantifier": "all configurations, URLs and requests", "why_tests_cant": "All combinations of backends that share names with all endpoints.", "anchors": ["proxy/proxy.go:Reconfigure,hostAndPath", "proxy/backend-http.go:handleLocalEndpointsAndAuthorize"]}
{"id": "C79", "title": "The access list of a backend applies to its passkey provider", "statement": "Only users on the access list of the backend that uses a passkey provider can register a passkey with it.", "quantifier": "all configurations, registration orders and users", "why_tests_cant": "All iteration orders of a Go map.", "anchors": ["proxy/proxy.go:Reconfigure", "proxy/internal/passkeys/manager.go:SetACL,subjectIsAllowed"]}
{"id": "C80", "title": "Configured request headers reach the backend with the values of this user and connection", "statement": "Each header configured for a backend (or for the path override in use) reaches the backend with exactly the configured value, in which each variable is replaced by its value for this connection and this user's session; values are not expanded again, and what the client sent under the same name is dropped.", "quantifier": "all templates, variable values, requests, sessions and header rules", "why_tests_cant": "All template strings and all headers that a client can send, including Connection.", "anchors": ["proxy/backend-http.go:expandVars,addr2ip,reverseProxy"]}
{"id": "C81", "title": "Responses of backends arrive unchanged, with HSTS and an HTTP/3 offer", "statement": "A backend's response keeps its status and headers; if the backend does not set them itself, Strict-Transport-Security is added (except to 421), and Alt-Svc is added exactly when HTTP/3 is served, not used yet and the response is not an error. The HTTP/3 connection that follows is served by the same backend.", "quantifier": "all responses, Host headers, negotiated protocols and configurations", "why_tests_cant": "All combinations of statuses, headers and configurations.", "anchors": ["proxy/backend-http.go:reverseProxyModifyResponse,setAltSvc", "proxy/proxy.go:Reconfigure,backend"]}
{"id": "C82", "title": "Keys are changed only by their user, from the proxy's own pages", "statement": "The passkeys of a user change only (a) in a POST of the proxy's own scripts to the management page, on the host of the passkey endpoint, by that user signed in there with a passkey within the last ten minutes, or (b) when the user registers the first key, during a login that this browser started, after the other identity provider identified them and the access list admits them. Nobody can delete the key they are signed in with. A login starts with a nonce that is accepted once, within five minutes, for the URL that was asked for, and a session is given only at the end of a login of the same browser, for the host of that URL, to a user who holds a key. A session whose key has been deleted cannot change keys.", "quantifier": "Every history of requests to the login endpoint, the management endpoint and logins requested by backends, with any form values, cookies and times.", "why_tests_cant": "The handlers combine cookies, nonces, tokens, modes and stored keys; a gap in any combination gives somebody else's account away, and tests only exercise the intended sequences.", "anchors": ["proxy/internal/passkeys/manager.go: RequestLogin, HandleCallback, ManageKeys, setAuthToken, processAttestation, processAssertion, deleteKey"]}
{"id": "C83", "title": "An honest registration or login succeeds", "statement": "A browser and authenticator that do what the options ask get the key registered, and later get a session for the user the key belongs to, whatever other users do in between, as long as the answer comes within five minutes: for any host and port of the endpoint.", "quantifier": "Every history of other operations between the challenge and its answer, every user, key and endpoint.", "why_tests_cant": "The interleavings with other users' registrations, logins and deletions are unbounded, and the relying party ID has to agree between the options, the browser and the check.", "anchors": ["proxy/internal/passkeys/manager.go: attestationOptions, processAttestation, assertionOptions, processAssertion, vacuumChallenges"]}
{"id": "C84", "title": "A passkey login is signed by the holder of the key, for this login", "statement": "A signature is accepted only if it is an ECDSA signature with a P-256 key on the curve (ES256) or an RSA PKCS #1 v1.5 signature (RS256) of the hash of the authenticator data followed by the hash of the client data. Therefore, if signatures cannot be forged and hashes do not collide, every login was signed by the holder of the registered key, over exactly this authenticator data and client data, and so over a challenge that the proxy drew. Challenges and identifiers reach the browser byte for byte. A key that is accepted for registration can be used to log in.", "quantifier": "Every COSE key, authenticator data, client data, signature and byte string.", "why_tests_cant": "Whether two different inputs can lead to the same signed bytes, or some malformed key be treated as valid, is a question about all byte strings.", "anchors": ["proxy/internal/passkeys/webauthn.go: verifySignature, signedBytes, Bytes.MarshalJSON", "proxy/internal/passkeys/manager.go: processAttestation, processAssertion"]}
{"id": "C85", "title": "Clients see the certificate that is configured for the name", "statement": "A client that asks for a name listed in tlsCertificates (literally or by a pattern) sees the certificate of the first such entry, and Let's Encrypt is not involved; if the files cannot be loaded the handshake fails. For other names it sees the certificate of the certificate manager for exactly that name. A client that sends no name is treated as if it had sent the default one. The only thing added to a certificate is an OCSP staple that says it is good. Patterns mean what the documentation of path.Match says, and malformed patterns match nothing. An entry is used only for names its certificate is good for, whichever way the name is written, and also for the certificates shown to backends.", "quantifier": "Every configuration, pattern, server name, file content and state of the certificate manager.", "why_tests_cant": "The matching algorithm searches for a split of the name at every star; that it finds one whenever there is one is a statement about all patterns and names.", "anchors": ["proxy/proxy.go: baseTLSConfig, getCertFromConfig, getClientCert", "proxy/config.go: TLSCertificate", "certmanager/certmanager.go: GetCert"]}
{"id": "C86", "title": "Let's Encrypt is asked for certificates only while its terms are accepted", "statement": "The proxy asks Let's Encrypt for a certificate only while acceptTOS is set in the configuration in force, and only for names that are not listed in tlsCertificates. While it is set, certificates can be obtained.", "quantifier": "Every history of configuration changes, handshakes and connections to backends.", "why_tests_cant": "The setting can change at any point between the start and a handshake, and certificates are requested in more than one place.", "anchors": ["proxy/proxy.go: New, baseTLSConfig, getClientCert", "main.go: main"]}
{"id": "C87", "title": "The published key set lets others check the proxy's tokens", "statement": "The JSON Web Key Set that the proxy serves lists exactly its current public keys, each under its identifier and with its algorithm, in a form that a reader of RFC 7517 and 7518 decodes to the same key. Not modified is answered only to those who hold the current set. A verifier that keeps the set as long as it is allowed to (one hour) knows the key of every token that is issued meanwhile, across rotations and restarts. Coordinates of elliptic curve keys have the full width.", "quantifier": "Every key, every set of keys, every history of rotations and every moment of fetching and signing.", "why_tests_cant": "It ranges over all key values (short coordinates are rare), and over all interleavings of rotations, fetches and signatures.", "anchors": ["proxy/internal/tokenmanager/tokenmanager.go: ServeJWKS, rotateKeys, CreateToken"]}
{"id": "C88", "title": "A login is recognised by the hosts that the provider covers", "statement": "After a login, the browser's next requests to every host in the Domain of the provider (or to the callback host, without a Domain) carry the new session, the proxy reads it among all other cookies, and does not ask for another login while the session lasts; where identity tokens are generated the user is redirected once, not in a loop. The nonce set where the login started comes back to the callback and is not used twice. This holds for every Domain that the configuration check accepts and next to sessions of other providers.", "quantifier": "Every history of cookies that a browser received before and after the login, every Domain, host, path, browser and moment.", "why_tests_cant": "Which cookie a server reads depends on the whole history of a browser's cookie store: Domains, paths and creation times. Tests use one cookie and no browser.", "anchors": ["proxy/internal/cookiemanager/cookiemanager.go: SetAuthTokenCookie, SetIDTokenCookie, SetNonce, Nonce, ValidateAuthTokenCookie", "proxy/backend-sso.go: checkCookies", "proxy/config.go: Check"]}
{"id": "C89", "title": "Logging out ends the session in the browser", "statement": "After a logout the browser sends no session of this provider to any host, the user is unknown everywhere the session was known, and no identity token of that user is sent on; all other cookies stay.", "quantifier": "Every history of cookies before the logout, every host and path afterwards.", "why_tests_cant": "It ranges over the whole history of a cookie store and over all hosts.", "anchors": ["proxy/internal/cookiemanager/cookiemanager.go: ClearCookies", "proxy/backend-sso.go: serveLogout"]}
{"id": "C90", "title": "Links on the proxy's pages work in the browser that got the page", "statement": "A login or logout link on a page of the proxy is accepted when the same browser follows it within the life of its session identifier, whatever other pages it loaded in between or at the same time.", "quantifier": "Every history of cookies, every order of pages and links.", "why_tests_cant": "It depends on the interleaving of requests by one browser and on its cookie store.", "anchors": ["proxy/internal/tokenmanager/urltoken.go: sessionID, URLToken, ValidateURLToken", "proxy/backend-sso.go: serveLogin, serveLogout"]}
{"id": "C91", "title": "Shutting down is graceful, complete and prompt", "statement": "Shutdown takes no new connections, waits for all existing connections until the grace period is over, and returns as soon as they are closed. Stop closes every connection, also those that are being accepted or set up at that moment.", "quantifier": "Every schedule of any number of connections being accepted, set up, served and closed, against Shutdown and Stop.", "why_tests_cant": "Each clause depends on how the steps of many goroutines interleave; the failing schedules are narrow windows.", "anchors": ["proxy/proxy.go: Shutdown, Stop, acceptLoop, handleConnection", "proxy/backend.go: close", "proxy/conntracker.go", "proxy/internal/netw/netw.go: Conn.Close"]}
{"id": "C92", "title": "The page of the certificate authority tells the truth and its buttons work", "statement": "The page lists exactly the certificates that were asked for, each in its state (valid, revoked, expired), the newest first; what a user was issued stays on their page. A button that is shown works: Revoke revokes the certificate of the line, for its owner or an administrator, and View shows it. Nothing is issued or revoked without a deliberate request of a signed-in user.", "quantifier": "Every history of issues, revocations, rotations, restarts and failed writes, every manager, every request and filter.", "why_tests_cant": "The list depends on the whole history, and the rights of a line on the user, the certificate and the parameters together; the page and the request behind a button are in different languages.", "anchors": ["proxy/internal/pki/http.go: ServeCertificateManagement, handleRevokeCert, handleDownloadCert, findCert", "proxy/internal/pki/certs.html", "proxy/internal/pki/certs.js: revokeCert, showView"]}
{"id": "C93", "title": "Bandwidth limits hold and do nothing but delay", "statement": "In any interval the connections that share a limit group together move no more bytes in a direction than the group's burst and its limit times the length of the interval. A call is delayed only as long as the limit requires, and no connection fails because of a limit.", "quantifier": "Every limit, every number of connections of the group, every history of reads, writes and closes with all sizes and times, every interval.", "why_tests_cant": "The bound is over all histories and intervals and over the sum of all connections; tests measure a few transfers of one connection.", "anchors": ["proxy/internal/netw/netw.go: Conn.Read, Conn.Write, Conn.Close", "proxy/internal/netw/quic.go: QUICStream.Read, QUICStream.Write, CloseWrite", "proxy/proxy.go: Reconfigure (bwLimits)", "golang.org/x/time/rate: Limiter"]}
{"id": "C94", "title": "The forward rate limit holds for connections and HTTP requests", "statement": "A backend forwards no more connections and HTTP requests than its forwardRateLimit allows per second, in any interval, whatever the clients do. What is above the limit is delayed, as long as the limit requires and no longer, and not refused.", "quantifier": "Every limit, every number of clients over TCP and QUIC, every history of connections, streams and requests with all times, every interval.", "why_tests_cant": "The bound is over all histories and over the sum of all clients; whether a request is counted depends on the protocol of its connection and on the schedule of the requests beside it.", "anchors": ["proxy/backend-http.go: reverseProxy director (forward rate limit)", "proxy/proxy.go: handleHTTPConnection, handleTLSConnection, handleTLSPassthroughConnection", "proxy/quic.go: handleQUICConnection, handleQUICStreams", "proxy/config.go: ForwardRateLimit"]}
{"id": "C95", "title": "Clients cannot write to the log what they like", "statement": "Every entry in the log is one line, written by the proxy. The status and the identity that it shows are those of the request and its client, whatever the client sends.", "quantifier": "Every request target, method, user agent, client certificate and user, every answer of the proxy, every sequence of entries.", "why_tests_cant": "The claim is about all byte strings that a client can send, after they are decoded, cleaned, quoted and joined with others.", "anchors": ["proxy/proxy.go: formatConnDesc, formatReqDesc, certSummary", "proxy/backend-http.go: serveStaticFiles, redirectPermanently, reverseProxyModifyResponse", "proxy/backend-sso.go: enforceSSOPolicy", "proxy/http.go: logHandler, userAgent"]}
{"id": "C96", "title": "What the OpenID server announces about itself is true", "statement": "The discovery document of the built-in OpenID server is where its issuer says, its URLs are answered by the endpoints it names, identity tokens carry its issuer and an algorithm of its list, clients can authenticate the way it says, and only users whom the backend's policy admits get a code. A client is told to keep its copy only when that is the current document.", "quantifier": "Every configuration of names, prefix, clients and policy, every request and Host header, every history of the server.", "why_tests_cant": "Whether announced URLs are answered depends on the prefix, the policy, the other endpoints and the name under which the server is reached, all at once.", "anchors": ["proxy/internal/oidc/server.go: ServeConfig, ServeAuthorization, ServeToken", "proxy/proxy.go: Reconfigure", "proxy/backend-http.go: handleLocalEndpointsAndAuthorize"]}
{"id": "C97", "title": "The console shows what has happened, and no secrets", "statement": "On the page of the console every event has one row with the exact number of times it happened, every server name one row with the exact number of its connections and of their bytes; the configuration is shown as it is, but without secrets; looking at the page changes nothing; and clients cannot make its tables grow without bound.", "quantifier": "Every history of connections, requests and configuration changes, every interleaving of connections that get their counters, every configuration, every number of views.", "why_tests_cant": "Counts are right or wrong only over whole histories and schedules; that a secret has no influence on the page is a statement about all values of the secret.", "anchors": ["proxy/metrics.go: recordEvent, setCounters, metricsHandler", "proxy/proxy.go: handleConnection, authorizeTLSConnection, reAuthorize", "proxy/quic.go: handleQUICConnection", "proxy/config.go: clone"]}
{"id": "C98", "title": "An authority works with every type of key that it accepts, and its files can be read", "statement": "An authority, for certificates or for SSH, starts with exactly the types of keys that are documented and keeps its key for ever; with each type that it accepts it answers all requests for the status of a certificate and for revocation lists, and these requests do not make its database grow without bound; the file with its certificate has the form that its content type says.", "quantifier": "Every type of key in every spelling, with and without every TPM, every history of requests, restarts and configuration changes, whatever the clock does.", "why_tests_cant": "The authority's reaction depends on the certificates that earlier requests made it issue; that its database does not grow is a statement about all histories.", "anchors": ["proxy/internal/pki/keys/keys.go: GenerateKey", "proxy/internal/pki/pki.go: New, initCA, generateKey, maybeRotateDelegateCert, OCSPResponse", "proxy/internal/pki/http.go: ServeCACert", "proxy/internal/sshca/sshca.go: New, initCA, generateKey"]}
{"id": "C99", "title": "Renewing the identity token brings the user back to the page that they asked for", "statement": "When GenerateIDTokens is on and the identity token of a signed-in user is missing or too old, the proxy sets a new one and sends the browser back: to the same host, the same page and the same query, with the same method.", "quantifier": "Every target of a request that a browser can send, escaped in any way, every method, every backend and every state of the cookies.", "why_tests_cant": "The redirect goes through three functions that read, write and clean URLs; that they give back the same page is a statement about all targets, and which host a Location leads to depends on how browsers read it.", "anchors": ["proxy/backend-sso.go: checkCookies, authenticateUser", "proxy/internal/cookiemanager/cookiemanager.go: SetIDTokenCookie"]}
{"id": "C100", "title": "A key that is made in the browser is delivered with its certificate under the user's password", "statement": "A user who fills in the form for a key and a certificate gets a file with that key and the certificate for it, which opens with the password they typed. Forms submitted at the same time do not mix. The server sees the public key, the label and the names, and nothing of the password. The browser's worker keeps no key and no password after the request.", "quantifier": "Every password, label and list of names, every number of forms in progress, every order of the steps of these requests, every answer of the server.", "why_tests_cant": "The worker keeps keys of several requests in one table between asynchronous steps; that no interleaving mixes them, and that the text of a form survives its encoding, are statements about all schedules and all strings.", "anchors": ["proxy/internal/pki/certs.js: generateKeyAndCert", "proxy/internal/pki/sw.js: generateKeyAndCert", "proxy/internal/pki/clientwasm/main.go: makeCSR, makeResponse", "proxy/internal/pki/clientwasm/impl/impl.go: MakeCSR, MakeResponse"]}
{"id": "C101", "title": "A QUIC stream that is forwarded to a TCP backend is like a connection to it", "statement": "Each stream of a QUIC connection to a backend in mode TCP or TLS is forwarded over a connection of its own. What either side receives is what the other has sent, in order; the end of a direction is passed on after all its data and only then; when the backend ends its connection, or the QUIC connection is gone, both ends are closed; and the console and the log tell which streams are open, where they lead and how much they carried.", "quantifier": "Every order of the actions of the client, the backend and the clock, and of the steps of the two copying goroutines and of the bookkeeping of streams; both settings for the end of a connection; both kinds of streams.", "why_tests_cant": "The two directions of a stream are closed separately and by different goroutines, so that what is closed, and what is left behind, depends on the schedule.", "anchors": ["proxy/quic.go: Proxy.handleQUICTCPStream", "proxy/backend.go: Backend.bridgeConns, forward, closeWrite, closeRead", "proxy/internal/netw/quic.go: QUICStream, QUICConn.WrapConn", "proxy/metrics.go: Proxy.metricsHandler"]}
{"id": "C102", "title": "The list of streams of a QUIC connection is exact and does not grow", "statement": "However many goroutines open and end streams at the same time, the list of streams of a QUIC connection names no stream twice, names every stream that is open for the whole call, and none that both sides have ended before it, in the order in which they were opened; no call waits for ever; and what has been ended is not kept.", "quantifier": "Every interleaving of any number of calls that open streams, end one half of a stream, read or set its address, or ask for the list, at the granularity of the two locks.", "why_tests_cant": "Two locks are nested and the two halves of a stream end in different goroutines: a lost removal or a deadlock shows up only in particular schedules, and growth only after a long time.", "anchors": ["proxy/internal/netw/quic.go: QUICConn.Streams, removeStream, AcceptStream, AcceptUniStream, OpenStream, OpenStreamSync, OpenUniStream, OpenUniStreamSync", "proxy/internal/netw/quic.go: QUICStream.markReadDone, markWriteDone"]}
{"id": "C103", "title": "The client command carries its input and output faithfully, to the server that was named", "statement": "tlsclient connects to the host and port that it was given and accepts only a server with a certificate for that name; with -ocsp only one that proves with a current answer of the certificate's issuer that the certificate is good. What comes on standard input reaches the server, and what the server sends reaches standard output, complete and in order; each end is passed on only after everything before it; and the exit status says whether the output is complete.", "quantifier": "All command lines and addresses, all answers of the resolvers, all lists of certificates and stapled responses at any time, and every interleaving of input, server, network and the two copy loops, with TCP and QUIC.", "why_tests_cant": "The parser must be right for every address, a forged staple is something no honest server sends, and whether bytes are lost at the end depends on which of two goroutines finishes first.", "anchors": ["tlsclient/main.go: main"]}
{"id": "C104", "title": "A SAML login sends the provider a request that it can read, and the session says what the provider signed", "statement": "The browser is sent to the configured page of the identity provider with the parameters that it has, and one request that the provider can read: its identifier is a valid one, and it names this service, its callback and the page. When the provider answers that request honestly, within five minutes, the user gets a session for the page they asked for. Every session comes from an element that the provider signed; its user and its claims are what that element says. Requests of clients that cannot log in do not use memory for ever.", "quantifier": "All configurations, identifiers, pages, compressions and documents, and all histories of logins and responses.", "why_tests_cant": "Escaping must be right for every configured text in three nested encodings, and the identifier is random: a test sees one of them.", "anchors": ["proxy/internal/saml/saml.go: RequestLogin, HandleCallback, samlAuthnRequest.URL, findElementText, findElementAttr"]}
{"id": "C105", "title": "The pages of single sign-on lead to where the user wanted to go, and show the truth", "statement": "A user who has to log in, or who is not permitted, gets a page whose buttons work in the same browser: the login that they start is for the page that was asked for, with its host, port, path and query. The page names that address and links to it. Choosing another account or logging out ends the session in the browser. A login starts only with an address that the proxy itself gave to this browser. The status page lists each claim of the user once, and its buttons fit: to log in when nobody is logged in, otherwise to choose another account or to log out. It can be shown for every user that the proxy knows.", "quantifier": "All requests, configurations, providers, sessions, tokens and addresses.", "why_tests_cant": "The address goes through four encodings (request, token, query, page) and back; the interesting characters, ports and international names are in no test.", "anchors": ["proxy/backend-sso.go: serveSSOStatus, serveLogin, serveLogout, servePermissionDenied, enforceSSOPolicy", "proxy/internal/tokenmanager/urltoken.go: URLToken, ValidateURLToken", "proxy/login-template.html, proxy/permission-denied-template.html, proxy/sso-status-template.html"]}
{"id": "C106", "title": "The command does what its flags ask for, and stops in good order", "statement": "Each flag of the command tlsproxy counts in each of the ways it may be written, and the last one of a name. The command serves exactly if it has a configuration, a passphrase and the consent to the terms of the certificate authority, or was told to use certificates for tests. Certificates are revoked only if that was asked for, and then the command ends and its status says whether it worked. A mistake in the line is reported and nothing is done. A status other than 0 comes with a line that says why. The passphrase is never shown. A signal makes the proxy shut down in good order within the grace period; a second one ends it at once.", "quantifier": "All command lines, environments, failures of what is called, and all interleavings of signals with the steps of main, of its goroutine and of the shutdown.", "why_tests_cant": "main cannot be called by unit tests, and signals arrive at any moment: the windows between the calls of Notify are too short to hit.", "anchors": ["main.go: main"]}
{"id": "C107", "title": "A client that is turned away hears why, and nothing more", "statement": "A client that the proxy turns away before a session starts is sent exactly one well-formed fatal TLS alert and the connection is closed: close_notify if there are too many connections, unrecognized_name if its name is not served, its backend shuts down or its address is not let in, internal_error if a passthrough backend cannot be reached. Other clients are sent nothing by the proxy itself. A client whose address is not let in cannot tell whether the proxy serves a name.", "quantifier": "All configurations, states of backends, numbers of open connections, addresses, first messages, and outcomes of waiting and dialling; pairs of configurations for the last claim.", "why_tests_cant": "The last claim compares all configurations with each other; tests look at single refusals.", "anchors": ["proxy/hello.go: sendAlert", "proxy/proxy.go: handleConnection, checkIP, handleTLSPassthroughConnection", "proxy/quic.go: handleQUICConnection"]}
{"id": "C108", "title": "Everything that a backend gets has passed all of its checks", "statement": "Whatever bytes a client sends and however it connects, a backend gets something from it (a forwarded request, a bridged session, or the raw bytes) only if all checks of that very backend hold together: there are not too many connections, the first bytes are a client hello for a name that the backend lists, the connection belongs to that backend, it is not shutting down, the address of the client is let in, its certificate satisfies the rules, the host of each request is one of its names, each protected request carries a token of the proxy for an allowed user, and the backend is told the true address, certificate and user. All that comes of one connection is done by one backend. An honest client of a plain backend gets all its requests forwarded.", "quantifier": "All configurations, client bytes, PROXY headers, addresses, certificates, sequences of requests on a connection, times and keys at each request.", "why_tests_cant": "The checks are made by different parts of the program, one after the other, on data that each derives anew; tests of one part cannot show that what it lets through is what the next one checked.", "anchors": ["proxy/proxy.go: handleConnection, Reconfigure", "proxy/quic.go: handleQUICConnection", "proxy/backend-http.go: reverseProxy, localHandler", "proxy/http.go: startInternalHTTPServer", "proxy/backend-sso.go: enforceSSOPolicy"]}
{"id": "C109", "title": "What is written in PEM files is read back, whole or not at all", "statement": "Keys and certificates that are written in PEM form are read back with their types and all of their bytes, in their order, whatever text is around them. If a file is cut anywhere (a crash or a full disk), the blocks that are complete are read and no other, and what is read from any text was there. The certificate manager for tests uses a root whose certificate is for its key, keeps it over restarts once it is saved, does not use it after it has expired, and gives out certificates that are valid. The entries of the certificate cache are read back with their key and chain; a key that is broken is reported.", "quantifier": "All types, bytes, texts and positions at which a file is cut; all sequences of starts with failed and interrupted writes; all sequences of requests for certificates; all entries.", "why_tests_cant": "A test writes and reads a few keys of one size. The last line of base64, the padding, the end of lines and the position of a crash give a case for each length; the nil pointer that is returned for a broken key looks like a key.", "anchors": ["certmanager/certmanager.go: New, createRootKeyAndCert, readRootKeyAndCert, saveRootKeyAndCert, GetCert", "proxy/revoke.go: acmeAllCerts, acmeAccountKey, parsePrivateKey, RevokeAllCertificates"]}
{"id": "C110", "title": "What the proxy opens it closes, over all of its life", "statement": "Over any sequence of loading configurations, starting, reloading, shutting down, stopping, and of connections that come and go: the backends in force have just the servers that the configuration asks for; reloading opens and closes no socket and does not cut connections that are in flight; a server of a backend that was replaced goes away when its last connection has ended; after Stop no socket, server or connection is left; calling Stop twice is harmless, and no channel is closed twice; a Start that fails leaves nothing behind; HTTP/3 is advertised just when it is served.", "quantifier": "All finite histories of calls of Reconfigure, Start, Stop and Shutdown, of cancelled contexts, of connections that begin and end, with any of the sockets failing to open, and any interleaving of the goroutines that close what is left.", "why_tests_cant": "A test starts and stops a proxy once, in order. What is left behind depends on the order of reloads, ends of connections and calls to stop, of which there are infinitely many; a socket that is left open, or an HTTP/3 server that is never closed, is not seen by a test that ends.", "anchors": ["proxy/proxy.go: New, Reconfigure, Start, ctxWait, Stop, Shutdown", "proxy/backend.go: incInFlight, close", "proxy/quic.go: startQUIC", "proxy/http.go: startInternalHTTPServer, http3Server"]}
{"id": "C111", "title": "Tokens that are signed by the TPM verify like any other", "statement": "A token whose ECDSA key is in the TPM has the signature that the TPM has made, in the form that tokens have (R and S side by side, each of the size of the curve), for every R and S and for each of the curves that tokens may use. Bytes from the TPM that are not such a signature, a failure of the TPM, or a key of another curve give an error, not a token and not a crash.", "quantifier": "All signatures (all values of R and S, so with any number of leading zero bits), all bytes that may come from the TPM, all sizes of curves.", "why_tests_cant": "Signatures are random: an R with a leading zero byte comes once in 256 times, two once in 65536; a test sees the usual case only.", "anchors": ["proxy/internal/tokenmanager/tokenmanager.go: tpmSigningMethod.Sign, CreateToken"]}
{"id": "C112", "title": "An OpenID login sends the provider requests that it can read, and an honest login succeeds", "statement": "The browser is sent to the authorization endpoint with exactly the parameters of the standards, whatever characters the configured values, the hint and the address have. When the browser comes back within five minutes with the code and the state, the token endpoint gets a request that it accepts for this code, with the verifier that belongs to the challenge. If the provider then names an acceptable user, in an ID token or at the user info endpoint, that user has a session that says what the provider said, and the browser gets the page that it wanted. This holds whatever other logins happen in between. Nobody else gets a session. A refusal by the provider ends the login.", "quantifier": "All configurations, options, pages, random values, codes and claims; all histories of other logins, callbacks and answers of the provider, interleaved in any way.", "why_tests_cant": "The provider is another program: tests use one that was written for the client, with one login at a time and with values that need no escapes.", "anchors": ["proxy/internal/oidc/client.go: RequestLogin, HandleCallback, New", "proxy/internal/idp/idp.go: ApplyOptions", "proxy/internal/cookiemanager/cookiemanager.go: SetAuthTokenCookie", "proxy/internal/oidc/server.go: ServeAuthorization, ServeToken", "examples/sso/README.md: GitHub OAuth2"]}
{"id": "C113", "title": "The scripts of the passkey pages and the server understand each other", "statement": "What the scripts in the pages send is what the server reads: every credential, signature, name and identifier arrives as it was, for the login that the page belongs to, and what the server sends in its options reaches the authenticator as it was. So a user whose authenticator answers the options gets a session: with a first key that they register, or with a key that they have. The authenticator is asked for the algorithms that the server can check, for the right relying party, and for user verification. The buttons of the page with the keys remove the key of their line and no other. The options say nothing about who is registered.", "quantifier": "All byte strings of the authenticator, all names that are typed, all tokens, challenges, handles and sets of keys, all members that browsers add to the client data; all histories of requests at the passkey endpoint.", "why_tests_cant": "The scripts run in browsers, which the tests of the server do not have; the tests build the requests with the same library that reads them.", "anchors": ["proxy/internal/passkeys/webauthn.js", "proxy/internal/passkeys/manage-template.html", "proxy/internal/passkeys/auth-template.html", "proxy/internal/passkeys/manager.go: HandleCallback, ManageKeys, assertionOptions, attestationOptions", "proxy/internal/passkeys/webauthn.go: Bytes, parseClientData, AttestationOptions, AssertionOptions"]}
{"id": "C114", "title": "What authenticators write is understood, down to the bytes", "statement": "An authenticator that follows the standards can be used: every attestation object, of any format and with any statement, gives the key that the authenticator made, with its identifier, and any extensions after it are skipped without loss. Every key for ES256 or RS256 in the form of the standards, with labels in any order, is the key that signatures are checked with. So a user whose authenticator makes a key gets it registered and is logged in, and whoever has a key and signs with it is logged in.", "quantifier": "All items of CBOR with definite lengths, all attestation objects and statements, all identifiers, keys, extensions and signatures; all histories of requests at the passkey endpoint.", "why_tests_cant": "Tests have one fake authenticator, which writes its data with the library that reads it.", "anchors": ["proxy/internal/passkeys/webauthn.go: parseAttestationObject, parseAuthenticatorData, verifySignature", "proxy/internal/passkeys/manager.go: processAttestation, processAssertion"]}
{"id": "C115", "title": "Tokens survive being written down, and only texts with the proxy's signature are accepted", "statement": "The token manager accepts a text exactly if it is a signed token in the compact form of the standards, names one of the algorithms ES256, RS256 and EdDSA, names one of the current keys, which must be of the type for the algorithm, has a signature of that key over the first two parts as they are written, and is not used outside its times. So no text with the algorithm none, with a MAC, or with a changed header or payload is accepted, and an accepted text has the claims of a token that the proxy made. Every token that the proxy makes is a text that goes into cookies, URLs and headers unchanged, and is read back with the same claims: sessions, the addresses to return to, and the identity tokens that another proxy reads as a client.", "quantifier": "All texts, all claims with any strings, lists, booleans and numbers up to 2^53, all sets of keys with different IDs, all times and signatures.", "why_tests_cant": "Tests create and validate a few tokens; acceptance is about all texts that anybody could send.", "anchors": ["proxy/internal/tokenmanager/tokenmanager.go: CreateToken, getKey, ValidateToken", "proxy/internal/tokenmanager/urltoken.go: URLToken, ValidateURLToken", "proxy/internal/cookiemanager/cookiemanager.go: SetAuthTokenCookie, ValidateAuthTokenCookie", "proxy/internal/oidc/client.go: HandleCallback"]}
{"id": "C116", "title": "A login works from end to end, and nothing else names a user to a backend", "statement": "When a user signs in with a passkey, from the bytes that the authenticator signs, through the page's script and the proxy's answer, to the session cookie in the browser and the next request to the host that they came for, they are let in without another login page, and the backend is told their e-mail address and no other. The same holds for the session cookie of any provider. Conversely a backend is told the name of a user only if the request carries a text with the claims of a token that the proxy made for this user and provider, and that has not expired.", "quantifier": "All authenticators' keys and signatures, all histories of the passkey manager and of the browser, all claims, keys of the proxy, hosts, paths, backends and times; for the converse all requests and all texts.", "why_tests_cant": "Tests run single steps with fixed data; the claim joins all steps, for all data, and the converse is about everything that anybody could send.", "anchors": ["proxy/internal/passkeys/manager.go: HandleCallback, processAssertion", "proxy/internal/passkeys/webauthn.js", "proxy/internal/cookiemanager/cookiemanager.go: SetAuthTokenCookie, ValidateAuthTokenCookie", "proxy/internal/tokenmanager/tokenmanager.go: CreateToken, ValidateToken", "proxy/backend-sso.go: authenticateUser, checkCookies, enforceSSOPolicy", "proxy/backend-http.go: reverseProxy"]}
