{
 "claims": [
  {
   "property": "C01",
   "status": "proved",
   "theorems": [
    "C01_reads_are_the_stream",
    "C01_peek_shows_next_bytes",
    "C01_no_byte_lost"
   ],
   "note": "All interleavings of Peek and Read, any fragmentation."
  },
  {
   "property": "C02",
   "status": "proved",
   "theorems": [
    "C02_hello_roundtrip",
    "C02_hello_sound",
    "C02_hello_consumes_nothing"
   ],
   "note": "Round trip for every well-formed hello in one record, and soundness of every accepted parse."
  },
  {
   "property": "C03",
   "status": "partial",
   "theorems": [
    "C03_hello_terminates",
    "C03_hello_panics_only_on_empty_record",
    "C03_hello_never_panics_refuted"
   ],
   "note": "No-panic is refuted by an empty handshake record (recovered panic); proved that this is the only panic and that the parser terminates."
  },
  {
   "property": "C04",
   "status": "partial",
   "theorems": [
    "C04_routing_partial",
    "C04_routing_unambiguous",
    "C04_claims_are_unique",
    "C04_routing_refuted"
   ],
   "note": "Proved for non-empty protocol names; refuted when a configuration or client uses the empty protocol name, which doubles as the default entry."
  },
  {
   "property": "C05",
   "status": "proved",
   "theorems": [
    "C05_only_listed_names",
    "C05_unknown_names_refused"
   ],
   "note": "Decision function of handleConnection, all hellos and configurations."
  },
  {
   "property": "C06",
   "status": "proved",
   "theorems": [
    "C06_ip_decision",
    "C06_ip_enforced",
    "C06_no_ip_refused",
    "C06_quic_ip_enforced"
   ],
   "note": "Bit-level CIDR semantics; literals in ::ffff: form excluded from the decision theorem."
  },
  {
   "property": "C07",
   "status": "proved",
   "theorems": [
    "C07_acl_meaning",
    "C07_empty_acl_accepts_none",
    "C07_acl_enforced"
   ],
   "note": "authorize iff, and enforcement on every path that reaches a backend over TCP; QUIC in C08_quic_partial."
  },
  {
   "property": "C08",
   "status": "partial",
   "theorems": [
    "C08_session_matches_backend",
    "C08_revocation_partial",
    "C08_revocation_refuted",
    "C08_quic_partial"
   ],
   "note": "Name, chain and ACL proved; revocation proved except when the backend was selected by h3 over TCP and is not the default of the name (refuted there)."
  },
  {
   "property": "C09",
   "status": "partial",
   "theorems": [
    "C09_closes_exactly_the_forbidden_partial",
    "C09_new_connections_untouched",
    "C09_removed_name_crashes_refuted",
    "C09_removed_name_always_crashes",
    "C09_added_acl_crashes_refuted",
    "C09_starting_connection_crashes_refuted",
    "C09_added_client_auth_ignored_refuted",
    "C09_passthrough_closed_refuted",
    "C09_quic_race_refuted"
   ],
   "note": "Exact set of closed connections proved when every open connection is checkable; crashes and surviving/closed connections outside that are refutations."
  },
  {
   "property": "C10",
   "status": "partial",
   "theorems": [
    "C10_limit_never_exceeded",
    "C10_refused_only_when_full",
    "C10_admitted_when_room",
    "C10_counts_open_connections",
    "C10_full_capacity_refuted"
   ],
   "note": "Bound proved for all histories; \"refused only at the limit\" is off by one (refuted), exact threshold proved."
  },
  {
   "property": "C11",
   "status": "partial",
   "theorems": [
    "C11_callback_at_most_once",
    "C11_open_list_empties",
    "C11_in_flight_exact_partial",
    "C11_in_flight_leak_refuted"
   ],
   "note": "At most one callback and empty list proved for all interleavings; in-flight exactness proved for orderly histories and refuted for the QUIC early-close race."
  },
  {
   "property": "C12",
   "status": "partial",
   "theorems": [
    "C12_channel_closed_once",
    "C12_second_close_noticed",
    "C12_channel_closed_when_idle_partial",
    "C12_none_after_shutdown",
    "C12_send_on_closed_refuted",
    "C12_dropped_connection_refuted"
   ],
   "note": "Single close proved for all interleavings; idle-close proved for orderly histories; send on closed channel and dropped connections are refutations."
  },
  {
   "property": "C13",
   "status": "partial",
   "theorems": [
    "C13_cyclic_order",
    "C13_equal_share",
    "C13_error_after_all",
    "C13_first_that_answers",
    "C13_concurrent_attempts_cyclic_partial",
    "C13_concurrent_dial_refuted"
   ],
   "note": "Sequential dials: full. Concurrent dials: attempts are cyclic and a dial fails only after n attempts, but C13_concurrent_dial_refuted shows a dial may try one address twice and fail without trying another."
  },
  {
   "property": "C14",
   "status": "proved",
   "theorems": [
    "C14_delivered_is_prefix",
    "C14_eof_after_all_data",
    "C14_timeout_only_after_half_close",
    "C14_closed_only_when_configured",
    "C14_end_state",
    "C14_nothing_held_back",
    "C14_reset_ends",
    "C14_half_open_ends",
    "C14_comes_to_rest"
   ],
   "note": "Interleaved model of both copy goroutines, peers, faults and half-close settings."
  },
  {
   "property": "C15",
   "status": "proved",
   "theorems": [
    "C15_clean_is_canonical",
    "C15_idempotent",
    "C15_redirect_same_host",
    "C15_readable_paths_unchanged"
   ],
   "note": "Go path.Clean modelled byte by byte and shown equal to element-wise resolution; redirect Location modelled down to percent-encoding."
  },
  {
   "property": "C16",
   "status": "proved",
   "theorems": [
    "C16_only_visible_files_below_root",
    "C16_redirects_are_clean"
   ],
   "note": "Lexical containment for any file system answers; symbolic links inside the document root are outside the model."
  },
  {
   "property": "C17",
   "status": "proved",
   "theorems": [
    "C17_sso_cannot_be_bypassed",
    "C17_anonymous_is_sent_to_login"
   ],
   "note": "reverseProxy and localHandler, every request; relies on unforgeable signatures (unforged)."
  },
  {
   "property": "C18",
   "status": "proved",
   "theorems": [
    "C18_access_list",
    "C18_nil_accepts_all",
    "C18_empty_accepts_none",
    "C18_domain_entry",
    "C18_domain_entry_exact"
   ],
   "note": ""
  },
  {
   "property": "C19",
   "status": "proved",
   "theorems": [
    "C19_user_header",
    "C19_forwarded_for",
    "C19_client_certificate"
   ],
   "note": "For headers that the administrator's own forwarding rules do not set (user id only)."
  },
  {
   "property": "C20",
   "status": "partial",
   "theorems": [
    "C20_certificate_header_present_partial",
    "C20_client_can_suppress_it_refuted"
   ],
   "note": "Present whenever the request does not name it in a Connection header; a client can suppress it that way (refuted)."
  },
  {
   "property": "C21",
   "status": "partial",
   "theorems": [
    "C21_header_reads_back",
    "C21_query_escape_reversible",
    "C21_certificate_determined",
    "C21_hash_determined",
    "C21_subject_determined_partial",
    "C21_subject_forged_refuted"
   ],
   "note": "Header decodes to exactly the configured fields, for every certificate; the certificate and hash fields determine the certificate; the subject field determines the subject unless an attribute value contains a slash (refuted there)."
  },
  {
   "property": "C22",
   "status": "proved",
   "theorems": [
    "C22_only_own_hosts",
    "C22_misdirected"
   ],
   "note": ""
  },
  {
   "property": "C23",
   "status": "partial",
   "theorems": [
    "C23_loops_are_cut_partial",
    "C23_via_can_be_dropped_refuted",
    "C23_no_endless_loop"
   ],
   "note": "Cut on the second arrival unless the client named Via in a Connection header (refuted); no endless loop even then."
  },
  {
   "property": "C24",
   "status": "proved",
   "theorems": [
    "C24_matches",
    "C24_most_specific",
    "C24_matching_requests_stay",
    "C24_order_irrelevant",
    "C24_sorting_exists"
   ],
   "note": ""
  },
  {
   "property": "C25",
   "status": "partial",
   "theorems": [
    "C25_first_matching_override",
    "C25_override_files",
    "C25_redirects",
    "C25_override_without_default_addresses_refuted"
   ],
   "note": "First match and element boundaries proved; an override with addresses is ignored when the backend has none of its own (refuted)."
  },
  {
   "property": "C26",
   "status": "partial",
   "theorems": [
    "C26_cookies_partial",
    "C26_session_cookie_withheld_partial",
    "C26_session_cookie_disclosed_refuted"
   ],
   "note": "Proved for protected paths; the cookie is forwarded outside them (refuted)."
  },
  {
   "property": "C27",
   "status": "partial",
   "theorems": [
    "C27_session_only_from_session_of_provider",
    "C27_other_tokens_are_no_sessions",
    "C27_only_in_its_time",
    "C27_bearer_only_from_identity_tokens",
    "C27_session_and_url_tokens_are_no_bearer_tokens",
    "C27_url_tokens_partial",
    "C27_session_token_as_url_token_refuted",
    "C27_bearer_of_other_provider_refuted"
   ],
   "note": "Sessions: full. Bearer tokens: never session or URL tokens; an identity token of another provider with the same callback host is accepted (refuted clause). URL tokens: a session or identity token with an IdP-supplied url claim is accepted (refuted clause)."
  },
  {
   "property": "C28",
   "status": "proved",
   "theorems": [
    "C28_reserved_claims_fixed",
    "C28_other_claims_kept",
    "C28_session_has_user"
   ],
   "note": ""
  },
  {
   "property": "C29",
   "status": "proved",
   "theorems": [
    "C29_identity_token_inherits",
    "C29_identity_token_drops",
    "C29_not_accepted_after_session",
    "C29_cookie_of_its_session"
   ],
   "note": ""
  },
  {
   "property": "C30",
   "status": "partial",
   "theorems": [
    "C30_url_bound_to_browser_partial",
    "C30_url_bound_to_browser",
    "C30_other_browser_refused",
    "C30_own_browser_accepted"
   ],
   "note": "Full when no identity provider supplies a claim named url; the exception is refuted by C27_session_token_as_url_token_refuted. The url path \"signed for this browser\" is the sid cookie."
  },
  {
   "property": "C31",
   "status": "partial",
   "theorems": [
    "C31_tokens_stay_verifiable_partial",
    "C31_long_downtime_refuted",
    "C31_keys_kept_seven_days"
   ],
   "note": "Proved for downtimes up to five days; refuted for downtimes of more than a week."
  },
  {
   "property": "C32",
   "status": "partial",
   "theorems": [
    "C32_always_a_key",
    "C32_own_tokens",
    "C32_new_keys_wait",
    "C32_bounded",
    "C32_unbounded_with_daily_restarts"
   ],
   "note": "Keys of all types always present and new keys wait: full. Bounded for rotations at most 8 hours apart (they are hourly); unbounded growth with daily short runs is proved."
  },
  {
   "property": "C33",
   "status": "proved",
   "theorems": [
    "C33_forced_reauth_per_host",
    "C33_session_cookie",
    "C33_identity_tokens_do_not_count"
   ],
   "note": ""
  },
  {
   "property": "C34",
   "status": "proved",
   "theorems": [
    "C34_code_at_most_once",
    "C34_code_only_for_its_client",
    "C34_code_within_two_minutes",
    "C34_access_token_at_most_once",
    "C34_user_info_of_the_user"
   ],
   "note": "Over all histories of critical sections; clock readings non-decreasing for the two-minute bound, random codes distinct for \"at most once\" (else bounded by the number of draws)."
  },
  {
   "property": "C35",
   "status": "partial",
   "theorems": [
    "C35_same_redirect_refuted",
    "C35_registered_redirect_partial",
    "C35_single_address"
   ],
   "note": "Refuted: the token request may name any address registered for the client. Proved: both addresses are registered for the same client, and with a single registered address they are equal."
  },
  {
   "property": "C36",
   "status": "partial",
   "theorems": [
    "C36_same_browser_partial",
    "C36_one_session_per_login",
    "C36_user_checked",
    "C36_token_for_that_login_refuted"
   ],
   "note": "Same browser, first use, five minutes, once, user checks proved. The clause that the identity token was issued for the same login is refuted: a token with the nonce of another pending login is accepted."
  },
  {
   "property": "C37",
   "status": "proved",
   "theorems": [
    "C37_saml_response_checked",
    "C37_saml_once",
    "C37_end_exclusive_refuted"
   ],
   "note": "Over all histories. The finer reading that the end of the validity period is exclusive is refuted by one instant."
  },
  {
   "property": "C38",
   "status": "partial",
   "theorems": [
    "C38_saml_same_browser_refuted",
    "C38_saml_session_of_the_request_partial"
   ],
   "note": "Refuted: a SAML login is not tied to the browser. Proved: the session goes to the browser that posted the response and to the page of the request it answers."
  },
  {
   "property": "C39",
   "status": "proved",
   "theorems": [
    "C39_login_of_the_registered_user",
    "C39_keys_evolve",
    "C39_other_users_untouched"
   ],
   "note": "Over all histories of critical sections with distinct random user handles; the store is assumed not to fail; signatures, CBOR and JSON are parameters."
  },
  {
   "property": "C40",
   "status": "proved",
   "theorems": [
    "C40_challenge_once",
    "C40_registration_session_and_time",
    "C40_login_time"
   ],
   "note": "Over all histories; distinct random challenges for \"at most once\", non-decreasing clock readings for the five minutes."
  },
  {
   "property": "C41",
   "status": "partial",
   "theorems": [
    "C41_own_origin_refuted",
    "C41_relying_party_partial"
   ],
   "note": "Refuted: the origin in the client data of a login is not looked at. Proved: the origin is checked at registration, and a login carries the relying party hash of that host."
  },
  {
   "property": "C42",
   "status": "partial",
   "theorems": [
    "C42_never_panics",
    "C42_round_trip",
    "C42_only_the_format_partial",
    "C42_no_trailing_bytes_refuted"
   ],
   "note": "Round trip, no panic, and only the layout is accepted; refuted: bytes after the layout are accepted without the extension flag."
  },
  {
   "property": "C43",
   "status": "partial",
   "theorems": [
    "C43_revoked_for_ever_partial",
    "C43_good_unless_revoked",
    "C43_serials_distinct",
    "C43_all_managers_refuted"
   ],
   "note": "Proved for the manager that revoked and for every manager started later, over all histories with failing writes and restarts. Refuted for a manager that a reconfiguration started before an in-flight request to the old one revoked."
  },
  {
   "property": "C44",
   "status": "partial",
   "theorems": [
    "C44_numbers_increase",
    "C44_complete_partial",
    "C44_listed_only_if_revoked",
    "C44_current_partial",
    "C44_lists_bounded",
    "C44_same_second_refuted",
    "C44_past_next_update_refuted"
   ],
   "note": "Numbers increase, lists contain only revoked certificates; complete except for a certificate revoked in the very second in which the list was made (refuted there); a list can be up to half an hour past its next update (refuted that it never is)."
  },
  {
   "property": "C45",
   "status": "proved",
   "theorems": [
    "C45_issued_identity",
    "C45_client_certificates",
    "C45_name_of_one_user",
    "C45_revoke_authorised",
    "C45_any_server_name"
   ],
   "note": "E-mail addresses without colons for the clause on subjects. Note C45_any_server_name: server names are not checked, so any user gets a server certificate for any name."
  },
  {
   "property": "C46",
   "status": "proved",
   "theorems": [
    "C46_names_the_user",
    "C46_short_lived",
    "C46_unauthenticated_refused",
    "C46_failures",
    "C46_honest_request_succeeds"
   ],
   "note": "Clock readings from 1970 to the end of their range."
  },
  {
   "property": "C47",
   "status": "partial",
   "theorems": [
    "C47_accepted_only_if_good_partial",
    "C47_rejected_only_if_bad_partial",
    "C47_cache_content",
    "C47_issuers_unchecked_refuted",
    "C47_no_chains_refuted",
    "C47_stale_error_refuted"
   ],
   "note": "Proved for peers with a responder and a verified chain, over all interleavings of calls. Refuted: without a responder in the leaf certificate issuers are not checked; without verified chains nothing is; an error of an earlier chain is kept when a later one cannot be asked about."
  },
  {
   "property": "C48",
   "status": "partial",
   "theorems": [
    "C48_staple_good",
    "C48_about_the_certificate_refuted",
    "C48_current_refuted"
   ],
   "note": "Proved for stapled and kept answers; refuted for new answers: one about another certificate, or an expired one, is accepted."
  },
  {
   "property": "C49",
   "status": "partial",
   "theorems": [
    "C49_limit_is_applied_partial",
    "C49_no_group_no_limit_partial",
    "C49_upper_case_refuted",
    "C49_case_collision_refuted",
    "C49_unnamed_group_refuted"
   ],
   "note": "Proved for groups whose names are in lower case, over all histories. Refuted: a name with an upper case letter gives no limit at all; two names that differ in case share one limit; a group without a name limits the backends without a group, for ever."
  },
  {
   "property": "C50",
   "status": "partial",
   "theorems": [
    "C50_failed_reload_partial",
    "C50_failed_reload_refuted",
    "C50_servers",
    "C50_accepted_configuration_loads"
   ],
   "note": "Routing, backends, CAs and the default name are unchanged after any failure, and so is everything if the checks, the identity providers or the CAs fail. Refuted: an error in an SSH certificate authority or a root CA leaves the new limits in force and HTTP servers running. Also proved: while reloads succeed there is one HTTP server for each backend that needs one (C50_servers); an accepted configuration loads if the environment does not fail, unless a passkey provider names itself."
  },
  {
   "property": "C51",
   "status": "proved",
   "theorems": [
    "C51_value_is_the_total",
    "C51_rate_is_exact",
    "C51_rate_of_longer_period_refuted"
   ],
   "note": "For periods up to the one the counter was made for; for longer ones the rate is wrong (refuted). The int64 range and the floating point division are not modelled."
  },
  {
   "property": "C52",
   "status": "partial",
   "theorems": [
    "C52_revoked_was_unused_partial",
    "C52_used_certificate_survives_partial",
    "C52_disabled_clean_up_changes_nothing",
    "C52_race_with_reload_refuted",
    "C52_wildcard_refuted"
   ],
   "note": "Proved over all interleavings: revoked certificates had none of the names (letter by letter) configured when the clean-up looked; alone, certificates with a configured name survive. Refuted when a configuration is loaded meanwhile, and for wildcard names."
  },
  {
   "property": "C53",
   "status": "proved",
   "theorems": [
    "C53_most_specific_setting",
    "C53_classes_are_independent",
    "C53_proxy_setting"
   ],
   "note": ""
  },
  {
   "property": "C54",
   "status": "partial",
   "theorems": [
    "C54_accepted_values_partial",
    "C54_real_versions",
    "C54_header_due",
    "C54_other_versions_refuted"
   ],
   "note": "The accepted strings are exactly characterised; refuted that only versions 1 and 2 are accepted."
  },
  {
   "property": "C55",
   "status": "proved",
   "theorems": [
    "C55_other_headers_unchanged",
    "C55_hop_headers_removed",
    "C55_trailers",
    "C55_path"
   ],
   "note": ""
  },
  {
   "property": "C56",
   "status": "proved",
   "theorems": [
    "C56_codes_only_to_registered_addresses",
    "C56_granted_scope"
   ],
   "note": ""
  },
  {
   "property": "C57",
   "status": "partial",
   "theorems": [
    "C57_credential_of_one_user_refuted",
    "C57_handle_selects_the_user_refuted",
    "C57_distinct_credentials_partial"
   ],
   "note": "Refuted: two users can register the same credential. Proved: if identifiers are distinct, the identifier determines the user."
  },
  {
   "property": "C58",
   "status": "proved",
   "theorems": [
    "C58_identity_confirmed_in_interval"
   ],
   "note": ""
  },
  {
   "property": "C59",
   "status": "proved",
   "theorems": [
    "C59_first_key_only"
   ],
   "note": ""
  },
  {
   "property": "C60",
   "status": "partial",
   "theorems": [
    "C60_ca_never_revoked_refuted",
    "C60_only_by_admin_partial"
   ],
   "note": "Refuted: an administrator can revoke the certificate of the authority with a request that the page does not offer. Proved: nobody else can."
  },
  {
   "property": "C61",
   "status": "partial",
   "theorems": [
    "C61_fetch_never_panics_partial",
    "C61_after_failed_write_refuted"
   ],
   "note": "Proved while the store works; refuted after a failed write of a delegate."
  },
  {
   "property": "C62",
   "status": "partial",
   "theorems": [
    "C62_get_understood_partial",
    "C62_url_safe_understood",
    "C62_standard_base64_refuted",
    "C62_other_characters_refused",
    "C62_post_understood"
   ],
   "note": "URL-safe base64 and POST are always understood; refuted for standard base64 with a slash."
  },
  {
   "property": "C63",
   "status": "partial",
   "theorems": [
    "C63_crash_cause_partial",
    "C63_no_responder_crashes_refuted",
    "C63_every_handshake_crashes",
    "C63_flush_crashes_refuted"
   ],
   "note": "Refuted: a certificate of the certificate manager without a responder crashes every handshake and, a minute later, the process. Proved: nothing else crashes."
  },
  {
   "property": "C64",
   "status": "proved",
   "theorems": [
    "C64_files_distinct",
    "C64_key_stays",
    "C64_no_directory",
    "C64_file_names",
    "C64_keys_distinct"
   ],
   "note": "Generated keys distinct for the clause on different authorities."
  },
  {
   "property": "C65",
   "status": "proved",
   "theorems": [
    "C65_open_connections_follow_their_group"
   ],
   "note": "Group names in lower case, see C49."
  },
  {
   "property": "C66",
   "status": "partial",
   "theorems": [
    "C66_clean_up_completes",
    "C66_success_is_true",
    "C66_failure_is_true",
    "C66_revoked_certificate_kept_refuted"
   ],
   "note": "Proved for a clean-up that meets no error. Refuted after an error in the middle."
  },
  {
   "property": "C67",
   "status": "proved",
   "theorems": [
    "C67_revoke_all"
   ],
   "note": ""
  },
  {
   "property": "C68",
   "status": "proved",
   "theorems": [
    "C68_mode_decides",
    "C68_acme_never_reaches_backend",
    "C68_acme_needs_name"
   ],
   "note": ""
  },
  {
   "property": "C69",
   "status": "partial",
   "theorems": [
    "C69_streams_paired",
    "C69_one_to_one",
    "C69_no_stray_stream",
    "C69_joined_for_good",
    "C69_data_not_mixed",
    "C69_end_of_stream_partial",
    "C69_nothing_held_back",
    "C69_reset_looks_like_end_refuted",
    "C69_unidirectional_timeout_refuted"
   ],
   "note": "Pairing and data are proved in full. The end of a stream is passed on correctly unless a stream is aborted, a connection lost or a deadline passes; refuted otherwise: an aborted stream looks complete, and a unidirectional stream is cut after the half-close timeout."
  },
  {
   "property": "C70",
   "status": "partial",
   "theorems": [
    "C70_comes_to_rest",
    "C70_client_gone_partial",
    "C70_not_before_the_client",
    "C70_refused_streams_partial",
    "C70_silent_backend_refuted",
    "C70_backend_loss_refuted",
    "C70_lost_stream_refuted"
   ],
   "note": "Proved when the client goes and the backend has ended its streams. Refuted: a silent backend stream keeps the connections; the loss of the backend leaves the client connected, and its streams without an answer."
  },
  {
   "property": "C71",
   "status": "partial",
   "theorems": [
    "C71_header_tells_the_client",
    "C71_header_is_written",
    "C71_backend_connections_partial",
    "C71_quic_backend_refuted",
    "C71_unknown_address",
    "C71_version_1_quic_clients_refuted"
   ],
   "note": "Proved for TCP and TLS backends; headers are read back by an independent parser of the PROXY protocol. The text form of IPv6 addresses is any injective one. Refuted: a backend in QUIC mode gets no header although a version is configured; version 1 cannot describe clients that use QUIC."
  },
  {
   "property": "C72",
   "status": "partial",
   "theorems": [
    "C72_connection_suits_request",
    "C72_header_is_about_this_client_partial",
    "C72_no_header_unless_configured",
    "C72_http3_backend_refuted",
    "C72_protocol_is_the_configured_one"
   ],
   "note": "Proved for all transports except that HTTP/3 connections carry no header at all (refuted). Assumes that no two keys of the history collide under SHA-256."
  },
  {
   "property": "C73",
   "status": "proved",
   "theorems": [
    "C73_others_speak_for_themselves",
    "C73_headers_from_others_are_refused",
    "C73_hello_is_no_header",
    "C73_proxy_in_front",
    "C73_rules_for_the_real_client",
    "C73_broken_header"
   ],
   "note": ""
  },
  {
   "property": "C74",
   "status": "partial",
   "theorems": [
    "C74_bytes_pass_unchanged",
    "C74_nothing_left_behind",
    "C74_nothing_gets_stuck",
    "C74_end_is_final",
    "C74_given_up_after_silence_partial",
    "C74_dead_clients_are_given_up",
    "C74_answering_clients_refuted"
   ],
   "note": "Delivery, order, completeness at the end, progress and the time-out are proved. Refuted: a client that answers every ping at once is given up when the server stops taking bytes for 30 seconds. The race on lastActive (written and read by two goroutines without a lock) is not modelled."
  },
  {
   "property": "C75",
   "status": "partial",
   "theorems": [
    "C75_agrees_with_routing",
    "C75_accepted_exactly",
    "C75_otherwise_an_error",
    "C75_checked_twice",
    "C75_no_two_claims",
    "C75_limits_partial",
    "C75_domain_refuted",
    "C75_limits_refuted",
    "C75_own_provider_refuted"
   ],
   "note": "Exact characterisation of what is accepted, defaults, idempotence, agreement with the routing model. Refuted: the default limit on open connections can be zero or negative and a negative rate is accepted; the domain is only tested to be a suffix of the host; a passkey provider may name itself. Lists with null entries are C76."
  },
  {
   "property": "C76",
   "status": "partial",
   "theorems": [
    "C76_last_good_file_partial",
    "C76_only_these_crash",
    "C76_certificates_are_read_to_the_end",
    "C76_null_entries_refuted",
    "C76_certificate_text_refuted",
    "C76_own_provider_never_starts"
   ],
   "note": "Proved for files without null entries and without text outside the PEM blocks of SAML certificates, and that nothing else ends the process. Refuted for both: a null entry, or an empty line after the last certificate, is a panic that nothing recovers."
  },
  {
   "property": "C77",
   "status": "partial",
   "theorems": [
    "C77_every_root_is_read",
    "C77_clients_partial",
    "C77_connections_partial",
    "C77_servers",
    "C77_no_roots_refuted"
   ],
   "note": "Proved for backends that list at least one client root. Refuted without roots: such a configuration is accepted and every client with a certificate from a public authority gets in. Chain building is a parameter."
  },
  {
   "property": "C78",
   "status": "partial",
   "theorems": [
    "C78_who_gets_what",
    "C78_backend_of_a_host",
    "C78_empty_protocol",
    "C78_host_of_a_request",
    "C78_endpoint_answers_partial",
    "C78_nowhere_else",
    "C78_connections_reach_it_partial",
    "C78_no_path_refuted",
    "C78_shared_name_refuted"
   ],
   "note": "Where every endpoint ends up is proved exactly. That it answers is proved for URLs with a clean path whose host is listed by one backend. Refuted: URL without path; host shared by a mail backend and an HTTPS backend."
  },
  {
   "property": "C79",
   "status": "partial",
   "theorems": [
    "C79_access_list_partial",
    "C79_meaning",
    "C79_order_matters_refuted",
    "C79_not_set_refuted"
   ],
   "note": "Proved if the backends that use the provider and have a callback agree. Refuted: otherwise the order of a Go map decides, and if there is no such backend everyone may register."
  },
  {
   "property": "C80",
   "status": "partial",
   "theorems": [
    "C80_templates",
    "C80_every_value_is_a_template",
    "C80_variables",
    "C80_configured_headers_partial",
    "C80_not_forged",
    "C80_host",
    "C80_configured_headers_refuted"
   ],
   "note": "Refuted without the restriction that the client does not name the header in its Connection header: the client can remove a configured header, but never replace its value. Rules with the same header in different case are excluded (Go iterates over a map)."
  },
  {
   "property": "C81",
   "status": "proved",
   "theorems": [
    "C81_responses",
    "C81_strict_transport",
    "C81_alt_svc",
    "C81_same_backend"
   ],
   "note": "Responses that the proxy makes itself (login pages, static files, errors) carry no HSTS header; the property is about those of backends."
  },
  {
   "property": "C82",
   "status": "partial",
   "theorems": [
    "C82_keys_change",
    "C82_current_key_kept",
    "C82_login_started_here",
    "C82_session",
    "C82_session_of_deleted_key_refuted"
   ],
   "note": "All proved except the last sentence, which is false: a session made with a key that has been deleted can still register keys while it is less than ten minutes old (C82_session_of_deleted_key_refuted). Requests are handled one at a time here; the critical sections in any order are C39-C41."
  },
  {
   "property": "C83",
   "status": "partial",
   "theorems": [
    "C83_registration",
    "C83_login",
    "C83_at_the_endpoint_partial",
    "C83_endpoint_with_a_port_refuted"
   ],
   "note": "Proved for any history in between. False when the URL of the endpoint has a port: the options name a relying party with the port, the check uses the name without (C83_endpoint_with_a_port_refuted); C83_at_the_endpoint_partial is the case without a port."
  },
  {
   "property": "C84",
   "status": "partial",
   "theorems": [
    "C84_bytes",
    "C84_accepted",
    "C84_holder_signed",
    "C84_registered_key_usable_refuted",
    "C84_unsupported_key_locks_out"
   ],
   "note": "All proved except the last sentence, which is false: the public key is not looked at when it is registered, so a key of an unsupported type can become the only key of a user, who then can neither log in nor register another (C84_registered_key_usable_refuted, C84_unsupported_key_locks_out). ECDSA, RSA, SHA-256 and the CBOR decoder are parameters."
  },
  {
   "property": "C85",
   "status": "partial",
   "theorems": [
    "C85_pattern_matching",
    "C85_malformed_pattern",
    "C85_listed_certificate",
    "C85_other_certificate",
    "C85_other_certificate_available",
    "C85_wildcard_refuted",
    "C85_name_in_capitals_refuted",
    "C85_client_certificate_refuted",
    "C85_asked_once",
    "C85_for_this_name"
   ],
   "note": "Everything except the last sentence is proved, including that path.Match decides the documented relation for all patterns and all names without a slash. The last sentence is false: the star of *.example.com also covers several labels (C85_wildcard_refuted), names in tlsCertificates are not normalised like those of backends (C85_name_in_capitals_refuted), and certificates for backends never come from tlsCertificates (C85_client_certificate_refuted). Bytes stand for characters; autocert is modelled by its cache and account."
  },
  {
   "property": "C86",
   "status": "partial",
   "theorems": [
    "C86_asked_only_if_accepted_partial",
    "C86_available_if_accepted",
    "C86_client_certificates_refuted"
   ],
   "note": "Proved for handshakes. False for the certificates shown to backends, which are requested without looking at acceptTOS (C86_client_certificates_refuted)."
  },
  {
   "property": "C87",
   "status": "partial",
   "theorems": [
    "C87_answer",
    "C87_one_reading",
    "C87_not_modified",
    "C87_signing_keys_are_published",
    "C87_full_width_refuted",
    "C87_width_partial"
   ],
   "note": "All but the last sentence is proved; the document is read by a separate decoder for JSON, base64url and big-endian numbers. The last sentence is false: leading zeros of coordinates are dropped (C87_full_width_refuted gives a point of P-256), and true for the other keys (C87_width_partial). SHA-256 is assumed collision-free where it matters; the keys decode and storage does not fail, as in C31."
  },
  {
   "property": "C88",
   "status": "partial",
   "theorems": [
    "C88_recognised",
    "C88_no_login_page",
    "C88_no_redirect_loop",
    "C88_nonce_comes_back",
    "C88_nonce_used_once",
    "C88_which_cookie",
    "C88_other_provider_refuted",
    "C88_domain_refuted"
   ],
   "note": "Browsers are modelled after RFC 6265 with any list of public suffixes and any size limit. Proved for every history in which all session cookies have the same Domain; C88_which_cookie says which cookie is read in general. The last sentence is false: a Domain that is a suffix of the callback host but not of its labels is accepted and no browser stores the cookie (C88_domain_refuted), and an older session of another provider with another Domain hides all later logins, however many (C88_other_provider_refuted), because all providers use one cookie name. Set-Cookie is modelled by its attributes, not its text."
  },
  {
   "property": "C89",
   "status": "partial",
   "theorems": [
    "C89_logged_out",
    "C89_no_identity_token",
    "C89_other_cookies_stay",
    "C89_identity_token_elsewhere_refuted"
   ],
   "note": "Proved for histories in which all session cookies have the Domain of the provider. Identity tokens of other hosts stay in the browser, are sent to the backends of those hosts and accepted by the proxy as bearer tokens until the session would have ended (C89_identity_token_elsewhere_refuted, C89_example). Sessions are not stored by the proxy, so a copy of the cookie that is kept elsewhere stays valid too."
  },
  {
   "property": "C90",
   "status": "partial",
   "theorems": [
    "C90_links_work",
    "C90_two_pages_refuted"
   ],
   "note": "Proved when no other page replaced the identifier in between. Two pages loaded at once by a browser without an identifier get different ones, and the links on the first stop working (C90_two_pages_refuted)."
  },
  {
   "property": "C91",
   "status": "partial",
   "theorems": [
    "C91_requests_are_not_cut",
    "C91_no_new_requests_partial",
    "C91_stop_closes_all",
    "C91_nothing_is_accepted",
    "C91_shutdown_ends_partial",
    "C91_shutdown_waits_for_nothing_refuted",
    "C91_tunnels_are_cut_refuted",
    "C91_no_new_connections_refuted",
    "C91_waits_for_a_tunnel_refuted"
   ],
   "note": "Proved over all interleavings: HTTP connections are not cut before the end of the grace period, Stop leaves none open, Shutdown ends. False as stated: TCP, TLS and TLSPASSTHROUGH connections are not waited for (C91_tunnels_are_cut_refuted); backends without an HTTP server are not told, so connections being set up still reach them (C91_no_new_connections_refuted); the report of the last connection can be lost between the look at the list and the wait, because the broadcast is not made under the lock, and then Shutdown takes the whole grace period (C91_shutdown_waits_for_nothing_refuted); a tunnel in set-up is taken for a request and waited for (C91_waits_for_a_tunnel_refuted). QUIC connections and reconfiguration during Shutdown are not modelled."
  },
  {
   "property": "C92",
   "status": "partial",
   "theorems": [
    "C92_lines_are_true",
    "C92_nothing_is_left_out",
    "C92_issued_is_listed",
    "C92_newest_first",
    "C92_revoke_button_partial",
    "C92_offered_iff_granted",
    "C92_button_only_for_own",
    "C92_admin_button_refuted",
    "C92_filters_drop_admin",
    "C92_view_button_partial",
    "C92_view_button_refuted",
    "C92_download_not_revoked",
    "C92_changes_are_deliberate",
    "C92_refusals"
   ],
   "note": "Proved: the lines are exact and complete, issued certificates stay listed, newest first; a user can revoke their own certificates with the button; the button is on just the lines for which a request with the parameters of the page would be granted; downloads are never of revoked certificates; changes need POST and x-csrf-check. False as stated: an administrator who has asked for their rights is shown Revoke on the certificates of others, but the request of the button leaves out the parameter admin and is denied (C92_admin_button_refuted, and C92_button_only_for_own for all histories), as the filters do (C92_filters_drop_admin); View and Download are on the lines of revoked certificates and fail there (C92_view_button_refuted)."
  },
  {
   "property": "C93",
   "status": "partial",
   "theorems": [
    "C93_limit_is_kept_partial",
    "C93_total_is_kept_partial",
    "C93_any_bound_refuted",
    "C93_giving_up_refuted",
    "C93_giving_up_partial",
    "C93_refused_iff",
    "C93_only_delays",
    "C93_quic_half_close_refuted",
    "C93_small_reads_refuted",
    "C93_zero_limit"
   ],
   "note": "Proved for every history without a close during a wait: the bound on every interval, with the buffers of the calls that had passed the limiter before it; the wait is no longer than the queue needs; exactly the calls above the burst or on closed connections fail. False as stated: any number of bytes can move at one moment, because a read pays before it waits for its peer (C93_any_bound_refuted); a close during a wait can give back more than was taken, by the arithmetic of golang.org/x/time/rate (C93_giving_up_refuted); QUIC streams cannot be read after the write side is closed (C93_quic_half_close_refuted); reads are charged for their buffer, so a few bytes can use up the limit (C93_small_reads_refuted); a limit of zero, also by omission, ends all transfers after 128 KB (C93_zero_limit). The limiter is a dependency modelled from its published source; changes of the limits during the history are not in this model."
  },
  {
   "property": "C94",
   "status": "partial",
   "theorems": [
    "C94_connections_partial",
    "C94_http3_partial",
    "C94_only_delays",
    "C94_default_limit",
    "C94_requests_refuted",
    "C94_streams_refuted",
    "C94_http3_refuted",
    "C94_http_streams_refuted"
   ],
   "note": "Proved for every history without a client leaving during its wait: the bound on every interval for the connections that are forwarded as a whole, the bound since the start for them together with the requests of HTTP/3 when no two requests of a connection look at the flag at once, and the longest wait of a connection. False as stated: requests over HTTP/1 and HTTP/2 are not counted, because their context holds a *tls.Conn, which has no annotations (C94_requests_refuted); streams of QUIC connections to TCP and TLS backends are not counted (C94_streams_refuted); HTTP/3 requests that come together all count as the first (C94_http3_refuted). The limiter is that of C93."
  },
  {
   "property": "C95",
   "status": "partial",
   "theorems": [
    "C95_lines_are_entries",
    "C95_connections_partial",
    "C95_requests_partial",
    "C95_files_refuted",
    "C95_endpoints_refuted",
    "C95_every_request_partial",
    "C95_shows_the_status",
    "C95_every_request_refuted",
    "C95_url_is_true",
    "C95_url_has_no_control_characters",
    "C95_quoted",
    "C95_status_is_true",
    "C95_user_agent",
    "C95_identities_partial",
    "C95_identities_refuted",
    "C95_certificates_refuted"
   ],
   "note": "Proved: an entry of a request is one line exactly if it does not show the decoded path or that has no newline, for every target, query and user agent; entries of connections are one line for certificates without newlines; the status and the user agent are determined by the entry, and so are the identities if they have none of the separators; each request has one entry with its method, target and status, but for three kinds of answers. False as stated: a request for a name that is not one of the backend (421) leaves no trace; redirects, files and refused methods are logged with the decoded path, so that %0A starts a new line: any client of a backend with files (C95_files_refuted), and without login any client of a backend with an endpoint that needs none, such as every backend with single sign-on (C95_endpoints_refuted), can write any line. Certificates can do the same and can look like a user (C95_certificates_refuted, C95_identities_refuted)."
  },
  {
   "property": "C96",
   "status": "partial",
   "theorems": [
    "C96_endpoints_answer_partial",
    "C96_document",
    "C96_issuer_partial",
    "C96_issuer_refuted",
    "C96_tokens_match_the_document",
    "C96_codes_for_admitted_users",
    "C96_scopes",
    "C96_port_refuted",
    "C96_host_is_not_checked_refuted",
    "C96_slash_refuted",
    "C96_outside_paths_refuted",
    "C96_basic_refuted",
    "C96_form_is_read",
    "C96_not_modified"
   ],
   "note": "Proved: with a clean prefix every announced URL is answered by its endpoint; under the first name the issuer is right; all tokens of every history carry the issuer, the client and an announced algorithm, when no rewrite rule sets those claims; clients that send their secret in the form are served; when the policy covers the authorization endpoint only users on its access list get codes, for themselves (C96_codes_for_admitted_users); a copy is kept only if it is current. False as stated: under other names the issuer does not match (C96_issuer_refuted); the port is dropped (C96_port_refuted); the document names whatever host the request names (C96_host_is_not_checked_refuted); a prefix that ends with a slash disables all endpoints (C96_slash_refuted); when the paths of the policy do not cover the authorization endpoint its access list does not apply there and nobody is asked to log in (C96_outside_paths_refuted); HTTP Basic, which the document implies, is not accepted (C96_basic_refuted)."
  },
  {
   "property": "C97",
   "status": "partial",
   "theorems": [
    "C97_events_exact",
    "C97_tcp_connections_counted",
    "C97_turned_away",
    "C97_table_stays_small_partial",
    "C97_table_stays_small_refuted",
    "C97_names_exact",
    "C97_names_once",
    "C97_stream_direction",
    "C97_no_secrets",
    "C97_rest_is_shown",
    "C97_running_configuration_untouched",
    "C97_header_values_refuted",
    "C97_challenge"
   ],
   "note": "Proved: exact counts of events and of connections and bytes for each name, for every interleaving; every TCP connection is counted once; the page is the same whatever the secrets of OpenID providers and clients are; the running configuration stays as it is; clients who are not authenticated cannot add more rows than there are names and fixed texts. False as stated: every user who logs in, even if refused, adds a row for ever (C97_table_stays_small_refuted); the values of forwardHttpHeaders, where passwords for backends are, are shown (C97_header_values_refuted). Not modelled: the tables of the Go runtime and of open connections."
  },
  {
   "property": "C98",
   "status": "partial",
   "theorems": [
    "C98_starts",
    "C98_key_stays",
    "C98_answered_partial",
    "C98_growth_partial",
    "C98_capitals_refuted",
    "C98_tpm_refuted",
    "C98_pem_file",
    "C98_der_file_partial",
    "C98_der_file_refuted",
    "C98_ssh_starts"
   ],
   "note": "Proved: exactly which types start an authority; the key stays; with types written as documented every request is answered in every history and the database grows by at most one certificate each five days; the PEM file is read back exactly; the other one is a certificate until the first answer. False as stated: Ed25519 with a capital is accepted, and then no status is ever given and each anonymous request adds a certificate to the database (C98_capitals_refuted); ed25519 does not work with a TPM (C98_tpm_refuted); after the first answer the file for IssuingCertificateURL is several certificates one after the other, which is not a certificate (C98_der_file_refuted)."
  },
  {
   "property": "C99",
   "status": "partial",
   "theorems": [
    "C99_only_then",
    "C99_same_host_partial",
    "C99_same_page_partial",
    "C99_unchanged",
    "C99_other_host_refuted",
    "C99_post_refuted",
    "C99_untidy_refuted"
   ],
   "note": "Proved: which requests are answered like this; the browser stays on the host for every path that does not start with two slashes; for paths without empty, \".\" and \"..\" elements and ASCII targets it gets the same path and query, whatever was escaped; GET and HEAD stay. False as stated: //name/ sends a signed-in user to any host that the maker of a link chose (C99_other_host_refuted); a form that is posted is lost (C99_post_refuted); paths with empty elements change (C99_untidy_refuted)."
  },
  {
   "property": "C100",
   "status": "partial",
   "theorems": [
    "C100_form_round_trip",
    "C100_passwords_checked",
    "C100_names",
    "C100_page",
    "C100_defaults",
    "C100_certificate_for_the_key",
    "C100_isolated",
    "C100_password_stays",
    "C100_keys_forgotten_partial",
    "C100_refused_key_kept_refuted",
    "C100_format_checked_late_refuted",
    "C100_other_certificate_refuted"
   ],
   "note": "Proved: every text survives the form; the page gets a file with the key, the certificate and the password that was typed, under the serial number shown on the page; the certificate that the authority issues is for that key; forms in progress do not affect each other; what is sent does not depend on passwords; the names are those in the field. False as stated: when the server refuses, the key and the password stay in the worker (C100_refused_key_kept_refuted); a format that is not on the page is noticed after the certificate was issued, and the key is lost (C100_format_checked_late_refuted); the worker does not compare the certificate with the key (C100_other_certificate_refuted)."
  },
  {
   "property": "C101",
   "status": "partial",
   "theorems": [
    "C101_delivered_is_prefix",
    "C101_backend_told",
    "C101_client_told_partial",
    "C101_cut_answer_refuted",
    "C101_no_backend_refuted",
    "C101_nothing_held_back_partial",
    "C101_silent_client_refuted",
    "C101_settings_on",
    "C101_settings_off",
    "C101_settings_default",
    "C101_half_close_timeout",
    "C101_connection_gone",
    "C101_comes_to_rest",
    "C101_listed",
    "C101_unlisted_partial",
    "C101_left_behind_refuted",
    "C101_counted",
    "C101_log_refuted",
    "C101_one_way_refuted",
    "C101_destination_partial",
    "C101_destination_refuted"
   ],
   "note": "Proved for every schedule: delivered data, the half-close of the backend, that nothing is held back while the backend is connected, that the loss of the QUIC connection ends the backend connection, that the proxy comes to rest, that only finished streams leave the list, the counters of the connection. False as stated: a cut answer and an unreachable backend look like a complete answer (C101_cut_answer_refuted, C101_no_backend_refuted); the end of the backend connection does not end the stream (C101_silent_client_refuted); a stream on which the client sends after that is forgotten but stays open and listed (C101_left_behind_refuted); a backend that speaks on a unidirectional stream stops the data of the client (C101_one_way_refuted); the log always says that 0 bytes were carried (C101_log_refuted); the console shows the backend of the last stream for all (C101_destination_refuted)."
  },
  {
   "property": "C102",
   "status": "partial",
   "theorems": [
    "C102_streams",
    "C102_quiet",
    "C102_in_order",
    "C102_no_deadlock",
    "C102_all_return",
    "C102_one_way_refuted",
    "C102_list_grows_refuted"
   ],
   "note": "Proved for every schedule: what Streams returns, the list when no call is in progress, its order, the absence of deadlocks, and that all calls return. False as stated for HTTP/3: streams that the client opens for one direction are never taken off the list, because their other half, which does not exist, is never ended (C102_one_way_refuted); so a client can make the list as long as it likes with one stream at a time (C102_list_grows_refuted)."
  },
  {
   "property": "C103",
   "status": "partial",
   "theorems": [
    "C103_address",
    "C103_address_v6",
    "C103_address_refuted",
    "C103_peer",
    "C103_other_addresses_refuted",
    "C103_usage",
    "C103_ocsp_partial",
    "C103_own_response_refuted",
    "C103_any_key_refuted",
    "C103_ocsp_honest_partial",
    "C103_ocsp_required",
    "C103_ocsp_root_refuted",
    "C103_ocsp_no_next_refuted",
    "C103_ocsp_off",
    "C103_in_order",
    "C103_output",
    "C103_status_refuted",
    "C103_server_told_partial",
    "C103_cut_input_refuted",
    "C103_nothing_held_back",
    "C103_delivered",
    "C103_delivered_later",
    "C103_comes_to_rest",
    "C103_upload_refuted",
    "C103_told_over_partial",
    "C103_told_over_refuted"
   ],
   "note": "Proved: the meaning of addresses, the name that is checked, the usage, what an accepted OCSP response must say, that both directions are copied in order and completely, that nothing is held back, when each end is passed on. False as stated: the OCSP response is checked with the second certificate that the server happens to send, so the holder of a revoked certificate can sign it with their own key (C103_own_response_refuted, C103_any_key_refuted), while honest responses are refused if the certificate was issued by a root or the response has no NextUpdate (C103_ocsp_root_refuted, C103_ocsp_no_next_refuted); [address] without a port is not understood (C103_address_refuted); only the first address is tried (C103_other_addresses_refuted); the status is 0 even if the output was cut (C103_status_refuted); a read error looks like the end of the input (C103_cut_input_refuted); the rest of the input is lost when the server ends its output first (C103_upload_refuted); with QUIC the server is not told that the connection is over (C103_told_over_refuted)."
  },
  {
   "property": "C104",
   "status": "partial",
   "theorems": [
    "C104_request_arrives",
    "C104_any_text",
    "C104_answered",
    "C104_parameters",
    "C104_parameters_refuted",
    "C104_page_refuted",
    "C104_id_partial",
    "C104_id_refuted",
    "C104_honest_partial",
    "C104_honest_refuted",
    "C104_signed",
    "C104_whole_name",
    "C104_same_logins",
    "C104_claims",
    "C104_source_refuted",
    "C104_all_values_refuted",
    "C104_pending_partial",
    "C104_pending_refuted",
    "C104_refused",
    "C104_method"
   ],
   "note": "Proved: what the provider reads from the redirect, byte by byte, for every configuration; its page and its other parameters; that an honest answer makes the session if the entity is https://, the host of the callback and a slash; that sessions come from the signed element; the claims; that these are the logins of C37 and C38. False as stated: an identifier begins with a digit, which is not a valid XML name, unless the first random byte is at least 160 (C104_id_refuted, C104_id_partial); with any other entity every honest answer is refused (C104_honest_refuted); parameters with a semicolon are dropped (C104_parameters_refuted); an address without a scheme is accepted and leads back to the proxy (C104_page_refuted); an attribute called source replaces the issuer (C104_source_refuted); further values of an attribute are dropped (C104_all_values_refuted); pending logins are only cleared by a signed response (C104_pending_refuted)."
  },
  {
   "property": "C105",
   "status": "partial",
   "theorems": [
    "C105_login",
    "C105_confirmation",
    "C105_label",
    "C105_denied",
    "C105_logout",
    "C105_status",
    "C105_status_buttons",
    "C105_status_works_partial",
    "C105_link_partial",
    "C105_shown",
    "C105_only_tokens",
    "C105_link_refuted",
    "C105_name_refuted",
    "C105_shown_host_refuted",
    "C105_status_works_refuted"
   ],
   "note": "Proved: logins start only with tokens of the proxy for this browser; the buttons of the three pages, followed in the same browser, start a login for exactly the page that was asked for; logging out clears the cookies whatever else is in the request; the rows and buttons of the status page; what is shown of an address; that the link is right for hosts without a port; that the status page can be shown for all tokens with proper dates. False as stated: the link drops the port (C105_link_refuted); international names are displayed with percent escapes (C105_name_refuted); long hosts are cut, so that different ones look the same (C105_shown_host_refuted); the status page crashes for an OpenID token whose iat was rewritten by a rule (C105_status_works_refuted)."
  },
  {
   "property": "C106",
   "status": "partial",
   "theorems": [
    "C106_flags",
    "C106_serves",
    "C106_actions",
    "C106_codes",
    "C106_where",
    "C106_revoke_partial",
    "C106_revoke_refuted",
    "C106_arguments_refuted",
    "C106_switch_refuted",
    "C106_mistakes_partial",
    "C106_passphrase_refuted",
    "C106_passphrase_partial",
    "C106_graceful_partial",
    "C106_graceful_refuted",
    "C106_status",
    "C106_stops",
    "C106_second_partial",
    "C106_second_refuted"
   ],
   "note": "Proved: flags, defaults and the last one counts; when the command serves; what it calls, with which values; the status and the line that says why, for all arguments; that mistakes in flags are reported and nothing is done; where lines go; that for proper lines nothing that is written depends on the passphrase; what the status says about signals and Shutdown; that a process that rests has had no signal or waits for Shutdown. False as stated: all that follows an argument that is no flag is ignored, so -quiet false means quiet and drops the rest (C106_arguments_refuted, C106_switch_refuted); revoking is ignored with certificates for tests (C106_revoke_refuted); -help or a misspelt flag shows the passphrase of the environment (C106_passphrase_refuted); a signal between the start and Notify ends the process without Shutdown (C106_graceful_refuted); a second signal may be lost (C106_second_refuted)."
  },
  {
   "property": "C107",
   "status": "partial",
   "theorems": [
    "C107_records",
    "C107_too_many",
    "C107_unrecognized",
    "C107_internal",
    "C107_silent",
    "C107_refused",
    "C107_hidden_partial",
    "C107_quic_closed",
    "C107_hidden_refuted",
    "C107_hidden_quic_refuted",
    "C107_quic_codes",
    "C107_quic_name_refuted"
   ],
   "note": "Proved: the bytes are nothing or one fatal alert record, after which the connection is closed; which alert means what, in both directions; only unreadable first messages are closed without a word; who reached a backend was sent nothing; a client to whom all backends of a name are closed hears the same whatever the configuration, over TLS and if it does not only ask for an ACME challenge; over QUIC it is never served. False as stated: asking only for acme-tls/1 tells a client that is not let in whether the name is served (C107_hidden_refuted); over QUIC it completes the handshake and is told access denied (C107_hidden_quic_refuted); a QUIC client whose backend went away hears code 0 (C107_quic_name_refuted)."
  },
  {
   "property": "C108",
   "status": "partial",
   "theorems": [
    "C108_tcp",
    "C108_direct",
    "C108_one_backend",
    "C108_quic",
    "C108_quic_certificate_partial",
    "C108_honest",
    "C108_quic_certificate_refuted"
   ],
   "note": "Proved: over TCP all checks of the backend hold together for everything that it gets, for any bytes and requests (C108_tcp, C108_direct); one connection is one backend and requests are answered in order; over QUIC the same for name, address, limits and requests, and for certificates while the configuration stays the same; honest clients get through. False as stated: a QUIC connection that was established before a new configuration is given to a backend of the new one without the certificate that this one wants (C108_quic_certificate_refuted). Which connection belongs to a backend is stated for configurations and hellos without empty protocol names (see C04)."
  },
  {
   "property": "C109",
   "status": "partial",
   "theorems": [
    "C109_headers",
    "C109_base64",
    "C109_written_is_read",
    "C109_colon_refuted",
    "C109_file",
    "C109_cut",
    "C109_read_was_there",
    "C109_root_file",
    "C109_root_sound",
    "C109_root_of_a_start",
    "C109_same_root",
    "C109_always_starts",
    "C109_expired_refuted",
    "C109_unsaved_refuted",
    "C109_root_lasts",
    "C109_one_certificate",
    "C109_leaf_refuted",
    "C109_entry",
    "C109_entry_cut",
    "C109_account",
    "C109_no_account",
    "C109_broken_key_refuted",
    "C109_revoked",
    "C109_panic_refuted"
   ],
   "note": "Proved: round trip of blocks and files, cut files, what is read was there (C109_written_is_read, C109_file, C109_cut, C109_read_was_there), for types without a colon or a new line; the saved root is read whole or not at all, belongs together, and stays the same once it is saved, over any starts; entries of the cache are read back. False as stated: an expired root is used, one that cannot be saved changes at the next start, certificates for names are given out after their hour has passed, and bytes that are no private key are taken for one: parsePrivateKey returns a nil pointer without an error, and revoking such a certificate ends the program. x509 parsers are parameters; PEM and base64 are modelled."
  },
  {
   "property": "C110",
   "status": "partial",
   "theorems": [
    "C110_only_panic",
    "C110_in_force_runs",
    "C110_in_flight",
    "C110_sockets_closed",
    "C110_servers_closed",
    "C110_retired",
    "C110_stop_again",
    "C110_start",
    "C110_reload_sockets",
    "C110_alt_svc_partial",
    "C110_not_started_refuted",
    "C110_failed_start_refuted",
    "C110_reload_after_stop_refuted",
    "C110_restart_refuted",
    "C110_alt_svc_refuted",
    "C110_shutdown_h3_refuted",
    "C110_h3_refuted",
    "C110_h3_partial"
   ],
   "note": "Proved over all histories: nothing panics but Stop or Shutdown of a proxy that was not started; the backends in force have their servers; reloading and Shutdown do not cut what is in flight over TCP; sockets and servers are closed after Stop; retired servers go away with their last connection; Stop can be called again; Start opens all or reports an error; reloads open and close no socket. False as stated: Stop before a successful Start panics; a Start that fails leaves its sockets open so that it cannot be repeated; a configuration loaded after Stop has servers that run on; a stopped proxy can be started and serves nothing; QUIC switched on by a reload is advertised but not served; Shutdown cuts HTTP/3 at once; the HTTP/3 server of a backend that is replaced while it has a connection is never closed."
  },
  {
   "property": "C111",
   "status": "partial",
   "theorems": [
    "C111_token_signature_partial",
    "C111_one_reading",
    "C111_sound",
    "C111_refused",
    "C111_no_panic",
    "C111_p521_refuted"
   ],
   "note": "Proved for all curves whose size is a multiple of 8 (P-256, P-384), with the DER reader of encoding/asn1 modelled: R and S are kept (C111_token_signature_partial), there is one reading, tokens are made of DER signatures only, errors are refused. False for P-521: the size is rounded down, so the program panics or makes a signature that no verifier takes (C111_p521_refuted); the proxy makes only P-256 keys. The TPM and the hash are parameters. The branch for RSA hands the signature on as it is and is not modelled."
  },
  {
   "property": "C112",
   "status": "partial",
   "theorems": [
    "C112_directory",
    "C112_request",
    "C112_verifier",
    "C112_endpoint_query_refuted",
    "C112_token_request",
    "C112_honest",
    "C112_honest_info",
    "C112_session",
    "C112_no_subject_refuted",
    "C112_denied_refuted",
    "C112_token_error_refuted",
    "C112_pending_partial",
    "C112_pending_refuted",
    "C112_builtin",
    "C112_builtin_domain_refuted"
   ],
   "note": "Proved for all histories: the parameters of the request (C112_request), the request for tokens (C112_token_request), honest logins with ID token or user info (C112_honest, C112_honest_info), with the built-in server as provider (C112_builtin), and that sessions come only from there (C112_session). False in part: users without a \"sub\" never get a session, which is all of them with the configuration for GitHub in the documentation (C112_no_subject_refuted); an endpoint that has a query is spoilt (C112_endpoint_query_refuted); refusals by the provider are not looked at (C112_denied_refuted, C112_token_error_refuted); a client with a hosted domain refuses all users of the built-in server (C112_builtin_domain_refuted); pending logins grow without bound (C112_pending_refuted). SHA-256, url.Parse and the parser of tokens are parameters; the discovery document and failures of the cookie manager other than missing names are not modelled."
  },
  {
   "property": "C113",
   "status": "partial",
   "theorems": [
    "C113_json",
    "C113_json_grammar",
    "C113_login_message",
    "C113_registration_message",
    "C113_questions",
    "C113_registration_options",
    "C113_credentials",
    "C113_algorithms",
    "C113_login_options",
    "C113_client_data",
    "C113_sign_in",
    "C113_first_key",
    "C113_buttons",
    "C113_names_hidden_refuted",
    "C113_names_told"
   ],
   "note": "Proved: the reader of JSON takes exactly the texts of RFC 8259 (C113_json_grammar) and what either side writes is read back (C113_json), the messages of the scripts (C113_login_message, C113_registration_message, C113_questions), the options as the scripts read them (C113_registration_options, C113_login_options, C113_credentials), the algorithms (C113_algorithms), the client data (C113_client_data), and end to end logins, first keys and buttons (C113_sign_in, C113_first_key, C113_buttons). False in part: the options of a login tell anyone whether a name is registered (C113_names_hidden_refuted, C113_names_told). Strings are bytes: the replacement of broken UTF-8 is not modelled, nor are the times on the page, and numbers in JSON stay text."
  },
  {
   "property": "C114",
   "status": "proved",
   "theorems": [
    "C114_items",
    "C114_first",
    "C114_attestation",
    "C114_keys",
    "C114_first_key",
    "C114_sign_in"
   ],
   "note": "The reader of CBOR takes exactly the items of RFC 8949 with definite lengths (C114_items, C114_first); attestation objects (C114_attestation), keys (C114_keys), and first keys and logins from the bytes of the authenticator to the session (C114_first_key, C114_sign_in). Items of indefinite length, which authenticators must not use, and the limits of the library are not modelled; SHA-256, the curve, ECDSA and RSA are parameters. That keys which cannot be checked are registered too is in C84."
  },
  {
   "property": "C115",
   "status": "proved",
   "theorems": [
    "C115_accepted",
    "C115_claims",
    "C115_algorithms",
    "C115_refines",
    "C115_created",
    "C115_only_issued",
    "C115_one_text_refuted",
    "C115_address",
    "C115_session",
    "C115_sign_in",
    "C115_id_token",
    "C115_builtin_claims",
    "C115_builtin"
   ],
   "note": "C115_accepted says exactly which texts are accepted, against RFC 7515, RFC 4648 (bit by bit) and RFC 8259 (C115_claims, C115_algorithms); C115_refines connects texts with the tokens of C27 to C32; C115_created and C115_only_issued say that writing and reading fit together and that nothing else is accepted if signatures cannot be forged; C115_address, C115_session, C115_sign_in, C115_id_token, C115_builtin_claims and C115_builtin follow the tokens to their uses, so that C112_builtin and C113_sign_in hold without an assumption about the reading of tokens. Finding: a token has more than one text, a final end of line is accepted (C115_one_text_refuted); the claims are the same. Signature schemes are parameters; invalid UTF-8, which encoding/json replaces, and rounding of numbers above 2^53 are not modelled. Other algorithms that CreateToken could be asked for are not modelled."
  },
  {
   "property": "C116",
   "status": "partial",
   "theorems": [
    "C116_no_redirect_loop",
    "C116_texts",
    "C116_openid",
    "C116_saml_partial",
    "C116_saml_refuted",
    "C116_recognised",
    "C116_visit",
    "C116_passkey",
    "C116_only_made"
   ],
   "note": "C116_recognised and C116_visit are for the session cookie of any provider, as a text; C116_passkey joins C113, C114 and C115 with the browser of C88 and the reverse proxy of C19; C116_openid says that every session that an OpenID login makes works; C116_no_redirect_loop says that the identity token that the proxy writes for a backend is one that it accepts, so the user is sent there only once; C116_only_made is the converse. False as stated for SAML: an attribute called nbf in a signed assertion becomes a claim of the session with which the proxy does not accept it, so the user is sent to the provider again and again (C116_saml_refuted); without such an attribute every session works (C116_saml_partial). The conditions under which a session reaches a host, is recent enough and fits into a cookie are those of C88; access lists can still refuse the user (C17). Extra claims of passkey identities are arbitrary, with numbers up to 2^53."
  }
 ]
}