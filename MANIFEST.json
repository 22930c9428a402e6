{
 "claims": [
  {
   "property": "C01",
   "status": "proved",
   "theorems": [
    "C01_accepts_exactly_eip55",
    "C01_never_panics_and_keeps_the_string",
    "C01_eip55_shape"
   ],
   "note": ""
  },
  {
   "property": "C02",
   "status": "proved",
   "theorems": [
    "C02_bytes_of_accepted",
    "C02_unique_string",
    "C02_injective"
   ],
   "note": ""
  },
  {
   "property": "C03",
   "status": "partial",
   "theorems": [
    "C03_complains",
    "C03_converts_any_casing",
    "C03_idempotent",
    "C03_never_panics_refuted",
    "C03_panics_exactly"
   ],
   "note": "Conversion of every 40-digit address in any casing and idempotence proved. The clause 'never panics on any string' is false of the code: refuted by C03_never_panics_refuted; C03_panics_exactly characterises the panicking strings, and C03_complains gives the error for all others that are not hexadecimal."
  },
  {
   "property": "C04",
   "status": "proved",
   "theorems": [
    "C04_accepts_exactly",
    "C04_never_panics",
    "C04_bytes"
   ],
   "note": ""
  },
  {
   "property": "C05",
   "status": "proved",
   "theorems": [
    "C05_hashes_the_framing",
    "C05_framing_functional",
    "C05_framing_injective",
    "C05_hash_binds_message"
   ],
   "note": ""
  },
  {
   "property": "C06",
   "status": "proved",
   "theorems": [
    "C06_never_panics",
    "C06_rejects_bad_v",
    "C06_only_v_mod_27",
    "C06_result_is_address"
   ],
   "note": ""
  },
  {
   "property": "C07",
   "status": "proved",
   "theorems": [
    "C07_hashes_minimal_leb128",
    "C07_decodes",
    "C07_unique",
    "C07_distinct"
   ],
   "note": ""
  },
  {
   "property": "C08",
   "status": "proved",
   "theorems": [
    "C08_order_independent"
   ],
   "note": ""
  },
  {
   "property": "C09",
   "status": "proved",
   "theorems": [
    "C09_is_ic_digest",
    "C09_digest_functional",
    "C09_binds_every_field"
   ],
   "note": ""
  },
  {
   "property": "C10",
   "status": "partial",
   "theorems": [
    "C10_seed_binding_partial",
    "C10_one_configuration",
    "C10_seed_binding_refuted",
    "C10_claim_refuted",
    "C10_url_refuted"
   ],
   "note": "Proved when both salts are under 256 bytes, when the URI is in neither seed, when the salts agree, and for all addresses under one configuration. False in general because the salt length is stored in one byte: C10_seed_binding_refuted gives two accepted configurations and two addresses whose hashed bytes are identical."
  },
  {
   "property": "C11",
   "status": "proved",
   "theorems": [
    "C11_key_injective"
   ],
   "note": ""
  },
  {
   "property": "C12",
   "status": "proved",
   "theorems": [
    "C12_decodes",
    "C12_injective"
   ],
   "note": ""
  },
  {
   "property": "C13",
   "status": "proved",
   "theorems": [
    "C13_decodes"
   ],
   "note": "For certificates and blobs shorter than 2^64 bytes, the limit of the CBOR length field."
  },
  {
   "property": "C14",
   "status": "proved",
   "theorems": [
    "C14_refines_set"
   ],
   "note": ""
  },
  {
   "property": "C15",
   "status": "proved",
   "theorems": [
    "C15_witness_sound",
    "C15_internal_error_unreachable"
   ],
   "note": ""
  },
  {
   "property": "C16",
   "status": "proved",
   "theorems": [
    "C16_no_fault",
    "C16_ordered_and_balanced"
   ],
   "note": ""
  },
  {
   "property": "C17",
   "status": "proved",
   "theorems": [
    "C17_prune_exact",
    "C17_queue_is_unpruned_puts"
   ],
   "note": ""
  },
  {
   "property": "C18",
   "status": "partial",
   "theorems": [
    "C18_available_partial",
    "C18_never_put_before",
    "C18_available_refuted"
   ],
   "note": "Proved for every pair with no older entry left in the expiry queue when it is put, in particular for every pair never put before. False in general: C18_available_refuted puts a pair twice within a minute and the older queue entry removes it early; C18_refuted_by_query shows is_expired answering true early as well."
  },
  {
   "property": "C19",
   "status": "proved",
   "theorems": [
    "C19_expired_never_handed_out"
   ],
   "note": ""
  },
  {
   "property": "C20",
   "status": "proved",
   "theorems": [
    "C20_shortest",
    "C20_reads_back",
    "C20_calendar"
   ],
   "note": ""
  },
  {
   "property": "C21",
   "status": "partial",
   "theorems": [
    "C21_reads_back",
    "C21_text_injective_partial",
    "C21_distinct_texts_refuted",
    "C21_claim_refuted",
    "C21_prepared",
    "C21_line_break_refuted",
    "C21_line_break_url_refuted"
   ],
   "note": "The text reads back field by field for every message with single-line fields, and for every message prepared under accepted settings with single-line domain and URI. The clause 'two different messages never have the same text' is false because the scheme is stored but not shown (C21_distinct_texts_refuted); the other nine fields are determined by the text (C21_text_injective_partial). C21_line_break_refuted: validation does not exclude line breaks in the URI when the URL parser drops them."
  },
  {
   "property": "C22",
   "status": "proved",
   "theorems": [
    "C22_prepared_message"
   ],
   "note": ""
  },
  {
   "property": "C23",
   "status": "partial",
   "theorems": [
    "C23_valid_is_reported_expired_refuted",
    "C23_future_is_reported_valid_refuted",
    "C23_claim_refuted",
    "C23_is_expired_partial"
   ],
   "note": "False of the code: the comparison with issued_at is inverted (C23_claim_refuted and the two refutations for all messages). C23_is_expired_partial gives the exact behaviour. The function has no caller in /repo; login uses the expiration time directly."
  },
  {
   "property": "C24",
   "status": "partial",
   "theorems": [
    "C24_accepts_exactly",
    "C24_chain_accepts_exactly",
    "C24_never_panics_refuted",
    "C24_panics_exactly",
    "C24_no_panic_http",
    "C24_never_panics_url_refuted",
    "C24_no_panic_url"
   ],
   "note": "Acceptance proved to coincide with the documented constraints, for single settings and for whole builder chains. 'Never panics' is false: C24_never_panics_refuted (relative to Url::parse reporting an authority without host for file: URLs), with the exact panic condition in C24_panics_exactly and no panic for http/https in C24_no_panic_http; C108 says which texts these are."
  },
  {
   "property": "C25",
   "status": "proved",
   "theorems": [
    "C25_builder_chain",
    "C25_one_call"
   ],
   "note": ""
  },
  {
   "property": "C26",
   "status": "proved",
   "theorems": [
    "C26_install_or_trap",
    "C26_installs",
    "C26_deterministic"
   ],
   "note": ""
  },
  {
   "property": "C27",
   "status": "proved",
   "theorems": [
    "C27_authenticated",
    "C27_signed_text"
   ],
   "note": ""
  },
  {
   "property": "C28",
   "status": "proved",
   "theorems": [
    "C28_first_use",
    "C28_once"
   ],
   "note": ""
  },
  {
   "property": "C29",
   "status": "proved",
   "theorems": [
    "C29_malformed",
    "C29_burns",
    "C29_burnt"
   ],
   "note": ""
  },
  {
   "property": "C30",
   "status": "proved",
   "theorems": [
    "C30_prepare",
    "C30_login"
   ],
   "note": ""
  },
  {
   "property": "C31",
   "status": "proved",
   "theorems": [
    "C31_succeeds"
   ],
   "note": ""
  },
  {
   "property": "C32",
   "status": "proved",
   "theorems": [
    "C32_expiration",
    "C32_time_independent"
   ],
   "note": ""
  },
  {
   "property": "C33",
   "status": "proved",
   "theorems": [
    "C33_same",
    "C33_different"
   ],
   "note": ""
  },
  {
   "property": "C34",
   "status": "proved",
   "theorems": [
    "C34_table",
    "C34_deterministic"
   ],
   "note": ""
  },
  {
   "property": "C35",
   "status": "proved",
   "theorems": [
    "C35_logged_in"
   ],
   "note": ""
  },
  {
   "property": "C36",
   "status": "partial",
   "theorems": [
    "C36_available_partial",
    "C36_available_refuted"
   ],
   "note": "Proved for every login that is the first, since the last install or upgrade, for its address, session key and expiration, up to an earlier login sharing its keys through a hash collision of named inputs. False in general: C36_available_refuted logs in twice for the same triple and the earlier expiry entry ends the second delegation early."
  },
  {
   "property": "C37",
   "status": "partial",
   "theorems": [
    "C37_in_sync_partial",
    "C37_in_sync_refuted"
   ],
   "note": "Proved whenever each login refused for its session key at least a minute after some successful login was followed by a successful login. False in general: in C37_in_sync_refuted such a refused login prunes the signature map without updating the certified data, and the next fetched delegation does not match it."
  },
  {
   "property": "C38",
   "status": "proved",
   "theorems": [
    "C38_verifies"
   ],
   "note": ""
  },
  {
   "property": "C39",
   "status": "proved",
   "theorems": [
    "C39_recorded"
   ],
   "note": ""
  },
  {
   "property": "C40",
   "status": "partial",
   "theorems": [
    "C40_inverse_partial",
    "C40_inverse_refuted",
    "C40_there_and_back_partial"
   ],
   "note": "Proved when all configurations since installation had both mappings on and the same salt and seed URI, up to a named hash collision. False in general: C40_inverse_refuted upgrades with another salt between two logins of one wallet. The direction from an address to its principal and back holds with both mappings on and salts under 256 bytes, whatever the salts and URIs of the configurations (C40_there_and_back_partial)."
  },
  {
   "property": "C41",
   "status": "proved",
   "theorems": [
    "C41_address",
    "C41_principal",
    "C41_logged_in"
   ],
   "note": ""
  },
  {
   "property": "C42",
   "status": "proved",
   "theorems": [
    "C42_address_disabled",
    "C42_principal_disabled",
    "C42_not_written"
   ],
   "note": ""
  },
  {
   "property": "C43",
   "status": "proved",
   "theorems": [
    "C43_upgrade",
    "C43_same_answers"
   ],
   "note": ""
  },
  {
   "property": "C44",
   "status": "proved",
   "theorems": [
    "C44_trap",
    "C44_query",
    "C44_unseeded",
    "C44_prepare_error"
   ],
   "note": ""
  },
  {
   "property": "C45",
   "status": "proved",
   "theorems": [
    "C45_position",
    "C45_disjoint",
    "C45_shape"
   ],
   "note": ""
  },
  {
   "property": "C46",
   "status": "proved",
   "theorems": [
    "C46_pruned"
   ],
   "note": ""
  },
  {
   "property": "C47",
   "status": "partial",
   "theorems": [
    "C47_never_pruned",
    "C47_grows",
    "C47_bounded_refuted"
   ],
   "note": "False of the code: siwe_prepare_login never prunes (C47_never_pruned), and C47_grows and C47_bounded_refuted build histories whose store exceeds any given bound below 2^80 although every message in it has expired. Messages are pruned only by login attempts (C46)."
  },
  {
   "property": "C48",
   "status": "proved",
   "theorems": [
    "C48_delegations",
    "C48_messages"
   ],
   "note": ""
  },
  {
   "property": "C49",
   "status": "proved",
   "theorems": [
    "C49_issued",
    "C49_key",
    "C49_authenticated",
    "C49_storage_trusted_refuted"
   ],
   "note": "Under the condition that no other script writes the localStorage entry; C49_storage_trusted_refuted shows that the condition is needed, since the constructor takes any well-formed entry for a login."
  },
  {
   "property": "C50",
   "status": "partial",
   "theorems": [
    "C50_overlap_refuted",
    "C50_guard_refuted",
    "C50_refused_partial"
   ],
   "note": "False of the code. C50_overlap_refuted: two calls made before the wallet has told its accounts to either both go on. C50_guard_refuted: refusing a second call sets the status to error, after which a third call is not refused although the first is still running. C50_refused_partial: a call made while the status is busy throws at once and sends nothing."
  },
  {
   "property": "C51",
   "status": "partial",
   "theorems": [
    "C51_once_refuted",
    "C51_refused_partial"
   ],
   "note": "False of the code: login does not drop the prepared message on success, so a second login after a successful one signs and submits the used message again and fails (C51_once_refuted, C51_again). C51_refused_partial: a message is submitted again only after a successful login with it or after being handed out again."
  },
  {
   "property": "C52",
   "status": "partial",
   "theorems": [
    "C52_clear_refuted",
    "C52_clear_partial"
   ],
   "note": "False of the code: a login that is still running signs in again after clear() (C52_clear_refuted). C52_clear_partial: it holds if no login is running when clear() is called."
  },
  {
   "property": "C53",
   "status": "proved",
   "theorems": [
    "C53_agree"
   ],
   "note": ""
  },
  {
   "property": "C54",
   "status": "proved",
   "theorems": [
    "C54_reload"
   ],
   "note": ""
  },
  {
   "property": "C55",
   "status": "proved",
   "theorems": [
    "C55_secret"
   ],
   "note": ""
  },
  {
   "property": "C56",
   "status": "proved",
   "theorems": [
    "C56_signs_in"
   ],
   "note": ""
  },
  {
   "property": "C57",
   "status": "proved",
   "theorems": [
    "C57_busy",
    "C57_accepts",
    "C57_success"
   ],
   "note": ""
  },
  {
   "property": "C58",
   "status": "partial",
   "theorems": [
    "C58_switch_refuted",
    "C58_made_partial",
    "C58_account_partial"
   ],
   "note": "False of the code: if the account changes between prepareLogin and login the wallet is asked with the new account to sign the message of the old one (C58_switch_refuted). C58_account_partial: it holds as long as the wallet keeps its first account; C58_made_partial: the message was always made by the canister for some account."
  },
  {
   "property": "C59",
   "status": "proved",
   "theorems": [
    "C59_prepares",
    "C59_failed_seed"
   ],
   "note": ""
  },
  {
   "property": "C60",
   "status": "partial",
   "theorems": [
    "C60_expired_refuted"
   ],
   "note": "False of the code: loadIdentity does not look at the expiration (C60_expired_refuted)."
  },
  {
   "property": "C61",
   "status": "proved",
   "theorems": [
    "C61_login_behind",
    "C61_wallet_signed"
   ],
   "note": ""
  },
  {
   "property": "C62",
   "status": "proved",
   "theorems": [
    "C62_accepted"
   ],
   "note": ""
  },
  {
   "property": "C63",
   "status": "proved",
   "theorems": [
    "C63_caller"
   ],
   "note": "Under the condition that every configured salt is shorter than 256 bytes; with the URI feature and longer salts the seeds of two configurations can coincide (C10)."
  },
  {
   "property": "C64",
   "status": "proved",
   "theorems": [
    "C64_parses",
    "C64_prints",
    "C64_round"
   ],
   "note": ""
  },
  {
   "property": "C65",
   "status": "proved",
   "theorems": [
    "C65_typo",
    "C65_install"
   ],
   "note": ""
  },
  {
   "property": "C66",
   "status": "proved",
   "theorems": [
    "C66_pair",
    "C66_answers",
    "C66_installed",
    "C66_asks",
    "C66_upgraded"
   ],
   "note": ""
  },
  {
   "property": "C67",
   "status": "proved",
   "theorems": [
    "C67_stream",
    "C67_nonces"
   ],
   "note": ""
  },
  {
   "property": "C68",
   "status": "partial",
   "theorems": [
    "C68_react",
    "C68_vue_partial",
    "C68_vue_next",
    "C68_vue_refuted"
   ],
   "note": "False of the Vue binding: a component set up while a status is not idle shows isLoginIdle although loginStatus is something else, until the store changes next (C68_vue_refuted). C68_vue_partial says exactly when a mounted component may disagree; the React binding always agrees."
  },
  {
   "property": "C69",
   "status": "partial",
   "theorems": [
    "C69_connected_partial",
    "C69_disconnected_refuted"
   ],
   "note": "False while no account or client is reported: the manager keeps the former wallet, or takes the one at window.ethereum (C69_disconnected_refuted). Proved whenever an account and a client are reported."
  },
  {
   "property": "C70",
   "status": "partial",
   "theorems": [
    "C70_grammar",
    "C70_only",
    "C70_every",
    "C70_public_keys",
    "C70_usual_keys",
    "C70_signs_in",
    "C70_public_key_refuted"
   ],
   "note": "The last part is false of the code: nothing looks at what the elements are, so a delegation can be had for the two bytes of an ASN.1 NULL, which is nobody's key (C70_public_key_refuted). The rest is proved; string and time types inside a key are a parameter."
  },
  {
   "property": "C71",
   "status": "proved",
   "theorems": [
    "C71_exact",
    "C71_verified",
    "C71_verified_conversely",
    "C71_one_key"
   ],
   "note": ""
  },
  {
   "property": "C72",
   "status": "proved",
   "theorems": [
    "C72_login_signed",
    "C72_wallet_succeeds",
    "C72_every_key"
   ],
   "note": ""
  },
  {
   "property": "C73",
   "status": "partial",
   "theorems": [
    "C73_low_s",
    "C73_unique_partial",
    "C73_last_byte",
    "C73_same_bytes_refuted"
   ],
   "note": "The last part is false of the code: the last byte counts modulo 27, so a signature is accepted in up to ten variants (C73_last_byte, C73_same_bytes_refuted). C73_unique_partial: two signatures that share r and the reduced-x bit of the recovery id agree in s and in the last byte modulo 27."
  },
  {
   "property": "C74",
   "status": "proved",
   "theorems": [
    "C74_build_exact",
    "C74_refused",
    "C74_installed",
    "C74_one_host",
    "C74_ordinary"
   ],
   "note": ""
  },
  {
   "property": "C75",
   "status": "partial",
   "theorems": [
    "C75_shown_partial",
    "C75_plain_partial",
    "C75_claim_refuted",
    "C75_other_site_refuted",
    "C75_shapes_refuted"
   ],
   "note": "False of the code: the domain example.com@evil.org is accepted, names the site evil.org, and messages begin with it (C75_other_site_refuted); paths, escapes, blanks and line breaks are accepted too (C75_shapes_refuted). C75_shown_partial: true of domains without blanks, slashes, '?', '#' and '@'; C75_plain_partial: with ordinary characters the host is the domain up to the port, in lower case."
  },
  {
   "property": "C76",
   "status": "partial",
   "theorems": [
    "C76_uri_exact",
    "C76_has_scheme",
    "C76_other_scheme_refuted",
    "C76_same_site_refuted",
    "C76_claim_refuted"
   ],
   "note": "The last part is false of the code: URIs of any scheme with a host are accepted (C76_other_scheme_refuted) and the URI may be on another site than the domain (C76_same_site_refuted). The first two parts are proved."
  },
  {
   "property": "C77",
   "status": "partial",
   "theorems": [
    "C77_taken_partial",
    "C77_no_chain_given",
    "C77_nat32_arrives",
    "C77_claim_refuted",
    "C77_always_chain_one_refuted"
   ],
   "note": "Proved for every field but the chain id. The interface declares it opt nat, the canister reads an opt nat32, and Candid reads an optional value of another type as null: C77_claim_refuted gives the configuration, and by C77_always_chain_one_refuted wallets then always sign for chain 1 whatever chain was given. With the type that the canister reads everything arrives (C77_nat32_arrives)."
  },
  {
   "property": "C78",
   "status": "proved",
   "theorems": [
    "C78_request_arrives",
    "C78_client_requests",
    "C78_unambiguous"
   ],
   "note": ""
  },
  {
   "property": "C79",
   "status": "proved",
   "theorems": [
    "C79_reply_declared",
    "C79_reply_read",
    "C79_round_trip",
    "C79_unambiguous",
    "C79_every_history"
   ],
   "note": "C79_every_history holds for every history of messages; it assumes that simple_asn1's error texts are UTF-8 and that the reply has fewer than 2^64 bytes."
  },
  {
   "property": "C80",
   "status": "proved",
   "theorems": [
    "C80_any_bytes",
    "C80_histories",
    "C80_every_history",
    "C80_magic",
    "C80_authenticated"
   ],
   "note": ""
  },
  {
   "property": "C81",
   "status": "proved",
   "theorems": [
    "C81_configuration",
    "C81_required",
    "C81_others_ignored",
    "C81_left_out",
    "C81_unknown_feature"
   ],
   "note": ""
  },
  {
   "property": "C82",
   "status": "proved",
   "theorems": [
    "C82_display_fields",
    "C82_injective",
    "C82_one_line"
   ],
   "note": ""
  },
  {
   "property": "C83",
   "status": "proved",
   "theorems": [
    "C83_loads_exactly",
    "C83_saved"
   ],
   "note": "About the modelled reader: an expiration that is a number or has blanks after its digits, and a target with characters that are no hexadecimal digits, are refused by the model where the libraries would take them; the client writes none of these (DESIGN.md, simplifications)."
  },
  {
   "property": "C84",
   "status": "proved",
   "theorems": [
    "C84_key_behind"
   ],
   "note": "With the model of k256 in place of the recovery parameter. The collisions are explicit pairs (auth_collision, or two message keys)."
  },
  {
   "property": "C85",
   "status": "proved",
   "theorems": [
    "C85_key_suffices"
   ],
   "note": "For a session key without an earlier login since the last upgrade, and a delegation fetched within a minute of the login; unless an earlier login under another session key has the same delegation digest, a collision of SHA-256."
  },
  {
   "property": "C86",
   "status": "proved",
   "theorems": [
    "C86_exactly",
    "C86_ordinary",
    "C86_refuted",
    "C86_claim_refuted"
   ],
   "note": "C86_claim_refuted and C86_refuted: accepted configurations with a percent sign in the statement, an empty statement or a path in the domain give messages outside the grammar."
  },
  {
   "property": "C87",
   "status": "proved",
   "theorems": [
    "C87_page_behind",
    "C87_refuted"
   ],
   "note": "Up to a collision of SHA-256 as in C84. C87_refuted is the second sentence: with the statement \"Get 10% off\" a page of evil.org gets a session for the user from a wallet that keeps the rule."
  },
  {
   "property": "C88",
   "status": "proved",
   "theorems": [
    "C88_busiest_minute",
    "C88_messages"
   ],
   "note": "Between two logins the number of sign-in messages has no bound: C47."
  },
  {
   "property": "C89",
   "status": "proved",
   "theorems": [
    "C89_issued",
    "C89_one_tab"
   ],
   "note": "C89_one_tab makes the theorems about one tab among others who write localStorage (C50-C52, C55, C57, C58) theorems about each of several tabs."
  },
  {
   "property": "C90",
   "status": "proved",
   "theorems": [
    "C90_total",
    "C90_reload",
    "C90_open"
   ],
   "note": ""
  },
  {
   "property": "C91",
   "status": "partial",
   "theorems": [
    "C91_out_refuted",
    "C91_in_refuted",
    "C91_alone_partial"
   ],
   "note": "False of the code, which reads localStorage only when a manager is made: after clear() in one tab another one keeps its identity (C91_out_refuted), and after a sign-in elsewhere a tab shows its earlier one (C91_in_refuted). C91_alone_partial: a tab shows the last sign-in or nobody as long as nobody signs in or out in another tab after it was loaded."
  },
  {
   "property": "C92",
   "status": "proved",
   "theorems": [
    "C92_exactly",
    "C92_messages",
    "C92_outsiders"
   ],
   "note": ""
  },
  {
   "property": "C93",
   "status": "proved",
   "theorems": [
    "C93_signs_in",
    "C93_goes_on"
   ],
   "note": ""
  },
  {
   "property": "C94",
   "status": "proved",
   "theorems": [
    "C94_tab_signs_in",
    "C94_only_outsiders"
   ],
   "note": ""
  },
  {
   "property": "C95",
   "status": "proved",
   "theorems": [
    "C95_signs_in",
    "C95_goes_on"
   ],
   "note": ""
  },
  {
   "property": "C96",
   "status": "proved",
   "theorems": [
    "C96_accepted",
    "C96_address"
   ],
   "note": ""
  },
  {
   "property": "C97",
   "status": "proved",
   "theorems": [
    "C97_principal",
    "C97_useless",
    "C97_reload"
   ],
   "note": ""
  },
  {
   "property": "C98",
   "status": "partial",
   "theorems": [
    "C98_any_key",
    "C98_overtaken",
    "C98_one_history_partial",
    "C98_claim_refuted"
   ],
   "note": "False of the code: the signed text does not mention the session key, so wherever a login succeeds it would have succeeded with any other acceptable key (C98_any_key), and whoever sees the request and gets ahead of it acts as the user while the user's own login fails (C98_overtaken; C98_claim_refuted, and C98_tab_case as seen from the browser). Within one history it holds, a message is used up by one login (C98_one_history_partial)."
  },
  {
   "property": "C99",
   "status": "proved",
   "theorems": [
    "C99_iff",
    "C99_upgrade"
   ],
   "note": ""
  },
  {
   "property": "C100",
   "status": "proved",
   "theorems": [
    "C100_text"
   ],
   "note": ""
  },
  {
   "property": "C101",
   "status": "proved",
   "theorems": [
    "C101_table"
   ],
   "note": ""
  },
  {
   "property": "C102",
   "status": "proved",
   "theorems": [
    "C102_answers",
    "C102_one_answer"
   ],
   "note": "For times below the largest u64. C102_one_answer leaves out siwe_get_delegation, whose answers are described by C101 and C104."
  },
  {
   "property": "C103",
   "status": "proved",
   "theorems": [
    "C103_uri",
    "C103_install",
    "C103_upgrade"
   ],
   "note": "What idna does with names that are not ASCII is a parameter of which only the handling of '[' is assumed, and so is the test for a drive letter in the path of a file address."
  },
  {
   "property": "C104",
   "status": "proved",
   "theorems": [
    "C104_forgotten"
   ],
   "note": ""
  },
  {
   "property": "C105",
   "status": "partial",
   "theorems": [
    "C105_taken",
    "C105_one_partial",
    "C105_double_refuted",
    "C105_clear_refuted"
   ],
   "note": "That no press is turned away is proved. That at most one login is under way is false of the code: login() sets its status only after the wallet has told its accounts, so two quick presses start two logins (C105_double_refuted), and clear() during a login enables the button again (C105_clear_refuted). Proved if the button is not pressed while an earlier login asks for the accounts and clear() is not called during a login (C105_one_partial)."
  },
  {
   "property": "C106",
   "status": "proved",
   "theorems": [
    "C106_short"
   ],
   "note": ""
  },
  {
   "property": "C107",
   "status": "proved",
   "theorems": [
    "C107_key_behind",
    "C107_for_good"
   ],
   "note": ""
  },
  {
   "property": "C108",
   "status": "proved",
   "theorems": [
    "C108_panics"
   ],
   "note": ""
  },
  {
   "property": "C109",
   "status": "proved",
   "theorems": [
    "C109_header",
    "C109_exact",
    "C109_one_reading",
    "C109_one_meaning"
   ],
   "note": ""
  },
  {
   "property": "C110",
   "status": "proved",
   "theorems": [
    "C110_reason",
    "C110_told"
   ],
   "note": "The wording in which the agent reports a trap is modelled as \"Call failed: \" and the reason."
  },
  {
   "property": "C111",
   "status": "partial",
   "theorems": [
    "C111_failed",
    "C111_refuted",
    "C111_cleared_refuted",
    "C111_sequential_partial"
   ],
   "note": "False of the code: after two overlapping calls of login the status is \"success\" while loginError says that login was called at the wrong time (C111_refuted), and clear() removes signMessageError but leaves signMessageStatus (C111_cleared_refuted, without any overlap). \"error\" always comes with an error for login and prepareLogin (C111_failed); without overlapping calls errors only come with the status \"error\" (C111_sequential_partial)."
  },
  {
   "property": "C112",
   "status": "proved",
   "theorems": [
    "C112_sha256",
    "C112_sha224",
    "C112_keccak256",
    "C112_constants",
    "C112_used"
   ],
   "note": ""
  },
  {
   "property": "C113",
   "status": "proved",
   "theorems": [
    "C113_line",
    "C113_gone",
    "C113_kept",
    "C113_answer"
   ],
   "note": ""
  },
  {
   "property": "C114",
   "status": "proved",
   "theorems": [
    "C114_changes",
    "C114_message",
    "C114_signed"
   ],
   "note": ""
  },
  {
   "property": "C115",
   "status": "proved",
   "theorems": [
    "C115_goes_on",
    "C115_served",
    "C115_takes",
    "C115_next"
   ],
   "note": ""
  }
 ]
}
