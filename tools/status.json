{
 "C03": {
  "status": "partial",
  "note": "Conversion of every 40-digit address in any casing and idempotence proved. The clause 'never panics on any string' is false of the code: refuted by C03_never_panics_refuted; C03_panics_exactly characterises the panicking strings, and C03_complains gives the error for all others that are not hexadecimal."
 },
 "C10": {
  "status": "partial",
  "note": "Proved when both salts are under 256 bytes, when the URI is in neither seed, when the salts agree, and for all addresses under one configuration. False in general because the salt length is stored in one byte: C10_seed_binding_refuted gives two accepted configurations and two addresses whose hashed bytes are identical."
 },
 "C13": {
  "status": "proved",
  "note": "For certificates and blobs shorter than 2^64 bytes, the limit of the CBOR length field."
 },
 "C18": {
  "status": "partial",
  "note": "Proved for every pair with no older entry left in the expiry queue when it is put, in particular for every pair never put before. False in general: C18_available_refuted puts a pair twice within a minute and the older queue entry removes it early; C18_refuted_by_query shows is_expired answering true early as well."
 },
 "C21": {
  "status": "partial",
  "note": "The text reads back field by field for every message with single-line fields, and for every message prepared under accepted settings with single-line domain and URI. The clause 'two different messages never have the same text' is false because the scheme is stored but not shown (C21_distinct_texts_refuted); the other nine fields are determined by the text (C21_text_injective_partial). C21_line_break_refuted: validation does not exclude line breaks in the URI when the URL parser drops them."
 },
 "C23": {
  "status": "partial",
  "note": "False of the code: the comparison with issued_at is inverted (C23_claim_refuted and the two refutations for all messages). C23_is_expired_partial gives the exact behaviour. The function has no caller in /repo; login uses the expiration time directly."
 },
 "C24": {
  "status": "partial",
  "note": "Acceptance proved to coincide with the documented constraints, for single settings and for whole builder chains. 'Never panics' is false: C24_never_panics_refuted (relative to Url::parse reporting an authority without host for file: URLs), with the exact panic condition in C24_panics_exactly and no panic for http/https in C24_no_panic_http; C108 says which texts these are."
 },
 "C36": {
  "status": "partial",
  "note": "Proved for every login that is the first, since the last install or upgrade, for its address, session key and expiration, up to an earlier login sharing its keys through a hash collision of named inputs. False in general: C36_available_refuted logs in twice for the same triple and the earlier expiry entry ends the second delegation early."
 },
 "C37": {
  "status": "partial",
  "note": "Proved whenever each login refused for its session key at least a minute after some successful login was followed by a successful login. False in general: in C37_in_sync_refuted such a refused login prunes the signature map without updating the certified data, and the next fetched delegation does not match it."
 },
 "C40": {
  "status": "partial",
  "note": "Proved when all configurations since installation had both mappings on and the same salt and seed URI, up to a named hash collision. False in general: C40_inverse_refuted upgrades with another salt between two logins of one wallet. The direction from an address to its principal and back holds with both mappings on and salts under 256 bytes, whatever the salts and URIs of the configurations (C40_there_and_back_partial)."
 },
 "C47": {
  "status": "partial",
  "note": "False of the code: siwe_prepare_login never prunes (C47_never_pruned), and C47_grows and C47_bounded_refuted build histories whose store exceeds any given bound below 2^80 although every message in it has expired. Messages are pruned only by login attempts (C46)."
 },
 "C49": {
  "status": "proved",
  "note": "Under the condition that no other script writes the localStorage entry; C49_storage_trusted_refuted shows that the condition is needed, since the constructor takes any well-formed entry for a login."
 },
 "C50": {
  "status": "partial",
  "note": "False of the code. C50_overlap_refuted: two calls made before the wallet has told its accounts to either both go on. C50_guard_refuted: refusing a second call sets the status to error, after which a third call is not refused although the first is still running. C50_refused_partial: a call made while the status is busy throws at once and sends nothing."
 },
 "C51": {
  "status": "partial",
  "note": "False of the code: login does not drop the prepared message on success, so a second login after a successful one signs and submits the used message again and fails (C51_once_refuted, C51_again). C51_refused_partial: a message is submitted again only after a successful login with it or after being handed out again."
 },
 "C52": {
  "status": "partial",
  "note": "False of the code: a login that is still running signs in again after clear() (C52_clear_refuted). C52_clear_partial: it holds if no login is running when clear() is called."
 },
 "C58": {
  "status": "partial",
  "note": "False of the code: if the account changes between prepareLogin and login the wallet is asked with the new account to sign the message of the old one (C58_switch_refuted). C58_account_partial: it holds as long as the wallet keeps its first account; C58_made_partial: the message was always made by the canister for some account."
 },
 "C60": {
  "status": "partial",
  "note": "False of the code: loadIdentity does not look at the expiration (C60_expired_refuted)."
 },
 "C63": {
  "status": "proved",
  "note": "Under the condition that every configured salt is shorter than 256 bytes; with the URI feature and longer salts the seeds of two configurations can coincide (C10)."
 },
 "C68": {
  "status": "partial",
  "note": "False of the Vue binding: a component set up while a status is not idle shows isLoginIdle although loginStatus is something else, until the store changes next (C68_vue_refuted). C68_vue_partial says exactly when a mounted component may disagree; the React binding always agrees."
 },
 "C69": {
  "status": "partial",
  "note": "False while no account or client is reported: the manager keeps the former wallet, or takes the one at window.ethereum (C69_disconnected_refuted). Proved whenever an account and a client are reported."
 },
 "C70": {
  "status": "partial",
  "note": "The last part is false of the code: nothing looks at what the elements are, so a delegation can be had for the two bytes of an ASN.1 NULL, which is nobody's key (C70_public_key_refuted). The rest is proved; string and time types inside a key are a parameter."
 },
 "C73": {
  "status": "partial",
  "note": "The last part is false of the code: the last byte counts modulo 27, so a signature is accepted in up to ten variants (C73_last_byte, C73_same_bytes_refuted). C73_unique_partial: two signatures that share r and the reduced-x bit of the recovery id agree in s and in the last byte modulo 27."
 },
 "C75": {
  "status": "partial",
  "note": "False of the code: the domain example.com@evil.org is accepted, names the site evil.org, and messages begin with it (C75_other_site_refuted); paths, escapes, blanks and line breaks are accepted too (C75_shapes_refuted). C75_shown_partial: true of domains without blanks, slashes, '?', '#' and '@'; C75_plain_partial: with ordinary characters the host is the domain up to the port, in lower case."
 },
 "C76": {
  "status": "partial",
  "note": "The last part is false of the code: URIs of any scheme with a host are accepted (C76_other_scheme_refuted) and the URI may be on another site than the domain (C76_same_site_refuted). The first two parts are proved."
 },
 "C77": {
  "status": "partial",
  "note": "Proved for every field but the chain id. The interface declares it opt nat, the canister reads an opt nat32, and Candid reads an optional value of another type as null: C77_claim_refuted gives the configuration, and by C77_always_chain_one_refuted wallets then always sign for chain 1 whatever chain was given. With the type that the canister reads everything arrives (C77_nat32_arrives)."
 },
 "C79": {
  "status": "proved",
  "note": "C79_every_history holds for every history of messages; it assumes that simple_asn1's error texts are UTF-8 and that the reply has fewer than 2^64 bytes."
 },
 "C83": {
  "status": "proved",
  "note": "About the modelled reader: an expiration that is a number or has blanks after its digits, and a target with characters that are no hexadecimal digits, are refused by the model where the libraries would take them; the client writes none of these (DESIGN.md, simplifications)."
 },
 "C84": {
  "status": "proved",
  "note": "With the model of k256 in place of the recovery parameter. The collisions are explicit pairs (auth_collision, or two message keys)."
 },
 "C85": {
  "status": "proved",
  "note": "For a session key without an earlier login since the last upgrade, and a delegation fetched within a minute of the login; unless an earlier login under another session key has the same delegation digest, a collision of SHA-256."
 },
 "C86": {
  "status": "proved",
  "note": "C86_claim_refuted and C86_refuted: accepted configurations with a percent sign in the statement, an empty statement or a path in the domain give messages outside the grammar."
 },
 "C87": {
  "status": "proved",
  "note": "Up to a collision of SHA-256 as in C84. C87_refuted is the second sentence: with the statement \"Get 10% off\" a page of evil.org gets a session for the user from a wallet that keeps the rule."
 },
 "C88": {
  "status": "proved",
  "note": "Between two logins the number of sign-in messages has no bound: C47."
 },
 "C89": {
  "status": "proved",
  "note": "C89_one_tab makes the theorems about one tab among others who write localStorage (C50-C52, C55, C57, C58) theorems about each of several tabs."
 },
 "C91": {
  "status": "partial",
  "note": "False of the code, which reads localStorage only when a manager is made: after clear() in one tab another one keeps its identity (C91_out_refuted), and after a sign-in elsewhere a tab shows its earlier one (C91_in_refuted). C91_alone_partial: a tab shows the last sign-in or nobody as long as nobody signs in or out in another tab after it was loaded."
 },
 "C98": {
  "status": "partial",
  "note": "False of the code: the signed text does not mention the session key, so wherever a login succeeds it would have succeeded with any other acceptable key (C98_any_key), and whoever sees the request and gets ahead of it acts as the user while the user's own login fails (C98_overtaken; C98_claim_refuted, and C98_tab_case as seen from the browser). Within one history it holds, a message is used up by one login (C98_one_history_partial)."
 },
 "C102": {
  "status": "proved",
  "note": "For times below the largest u64. C102_one_answer leaves out siwe_get_delegation, whose answers are described by C101 and C104."
 },
 "C103": {
  "status": "proved",
  "note": "What idna does with names that are not ASCII is a parameter of which only the handling of '[' is assumed, and so is the test for a drive letter in the path of a file address."
 },
 "C105": {
  "status": "partial",
  "note": "That no press is turned away is proved. That at most one login is under way is false of the code: login() sets its status only after the wallet has told its accounts, so two quick presses start two logins (C105_double_refuted), and clear() during a login enables the button again (C105_clear_refuted). Proved if the button is not pressed while an earlier login asks for the accounts and clear() is not called during a login (C105_one_partial)."
 },
 "C110": {
  "status": "proved",
  "note": "The wording in which the agent reports a trap is modelled as \"Call failed: \" and the reason."
 },
 "C111": {
  "status": "partial",
  "note": "False of the code: after two overlapping calls of login the status is \"success\" while loginError says that login was called at the wrong time (C111_refuted), and clear() removes signMessageError but leaves signMessageStatus (C111_cleared_refuted, without any overlap). \"error\" always comes with an error for login and prepareLogin (C111_failed); without overlapping calls errors only come with the status \"error\" (C111_sequential_partial)."
 }
}