{"id": "C01", "title": "Address validation is exactly EIP-55", "statement": "EthAddress::new accepts a string if and only if it is '0x' followed by 40 hexadecimal digits whose letter case is the EIP-55 checksum case of that address; on every other string it returns an error, and it never panics.", "quantifier": "every string (any length, any bytes)", "why_tests_cant": "The input space is infinite; the tests try five strings.", "anchors": ["packages/ic_siwe/src/eth.rs: EthAddress::new, convert_to_eip55"]}
{"id": "C02", "title": "Accepted address strings and 20-byte addresses correspond one to one", "statement": "Every 20-byte address has exactly one accepted string, every accepted string decodes (as_bytes, as_byte_array) to exactly 20 bytes without panicking, and two accepted strings with equal bytes are the same string.", "quantifier": "every accepted string and every 20-byte array", "why_tests_cant": "2^160 addresses; a single aliasing pair would let one wallet own two identities.", "anchors": ["packages/ic_siwe/src/eth.rs: EthAddress::new, EthAddress::as_bytes, EthAddress::as_byte_array, bytes_to_eth_address, convert_to_eip55"]}
{"id": "C03", "title": "EIP-55 conversion is case-insensitive and idempotent", "statement": "On 40-digit hex addresses, with or without '0x' and in any letter case, convert_to_eip55 returns the unique EIP-55 string of the same bytes; applying it again changes nothing. It never panics on any string.", "quantifier": "every string; every letter-casing of every address", "why_tests_cant": "All casings of all addresses cannot be enumerated; panics hide at lengths no test uses.", "anchors": ["packages/ic_siwe/src/eth.rs: convert_to_eip55"]}
{"id": "C04", "title": "Signature strings are validated exactly", "statement": "EthSignature::new accepts a string if and only if it is '0x' followed by 130 hexadecimal digits; an accepted signature always yields exactly the 65 bytes its digits denote, without panicking.", "quantifier": "every string", "why_tests_cant": "Infinite input space, including multi-byte UTF-8 at slice boundaries.", "anchors": ["packages/ic_siwe/src/eth.rs: EthSignature::new, EthSignature::as_bytes, EthSignature::as_byte_array"]}
{"id": "C05", "title": "EIP-191 framing is unambiguous", "statement": "The byte string that is hashed for a message is the EIP-191 personal-message framing of it, and two different messages never produce the same framed bytes.", "quantifier": "every pair of messages", "why_tests_cant": "Ambiguity of a decimal length followed by free text can only be excluded for all pairs.", "anchors": ["packages/ic_siwe/src/eth.rs: eip191_bytes, eip191_hash"]}
{"id": "C06", "title": "Recovery is total and only depends on v modulo 27", "statement": "For every accepted signature and message, address recovery returns (never panics); it rejects every v byte whose residue modulo 27 exceeds 3, and two signatures that differ only in v bytes of equal residue behave identically; when it succeeds the result is an address string that EthAddress::new accepts.", "quantifier": "every message, every accepted signature, every recovered public key", "why_tests_cant": "The panic paths (indexing, unwrap) depend on all inputs.", "anchors": ["packages/ic_siwe/src/eth.rs: recover_eth_address, derive_eth_address_from_public_key"]}
{"id": "C07", "title": "Integers are hashed by their LEB128 encoding, within the fixed buffer", "statement": "For every u64 the 10-byte buffer used to encode it is never overrun, the encoded bytes are the minimal unsigned LEB128 encoding, and decoding them gives the integer back (so distinct integers have distinct encodings).", "quantifier": "every u64", "why_tests_cant": "2^64 values; an out-of-bounds index would only show at the largest ones.", "anchors": ["packages/ic_siwe/src/hash.rs: hash_u64"]}
{"id": "C08", "title": "The delegation hash does not depend on map iteration order", "statement": "The hash of a map of fields is the same for every order in which a HashMap may iterate over its entries.", "quantifier": "every list of fields and every permutation of it", "why_tests_cant": "HashMap order is randomised; tests see a few orders.", "anchors": ["packages/ic_siwe/src/hash.rs: hash_of_map", "packages/ic_siwe/src/delegation.rs: create_delegation_hash"]}
{"id": "C09", "title": "The delegation hash is the IC's representation-independent hash and binds every field", "statement": "create_delegation_hash equals the IC interface specification's message digest for a delegation (domain separator, then hash of the sorted field hashes), and two delegations with the same hash have the same public key, expiration and targets, unless two specific, explicitly named inputs collide under SHA-256.", "quantifier": "every pair of delegations, including absent/empty/any-length target lists", "why_tests_cant": "Binding is a statement about all pairs.", "anchors": ["packages/ic_siwe/src/delegation.rs: create_delegation_hash", "packages/ic_siwe/src/hash.rs: hash_of_map, hash_with_domain, hash_key_value, hash_value, hash_array"]}
{"id": "C10", "title": "User seeds separate addresses and applications", "statement": "The identity seed of a user determines the salt, the address and (when enabled) the URI it was derived from: two seeds agree only if all of these agree, unless two specific inputs collide under SHA-256.", "quantifier": "every pair of (salt, address, optional URI) that settings accept", "why_tests_cant": "Length-prefix ambiguity needs all lengths, including lengths over 255.", "anchors": ["packages/ic_siwe/src/delegation.rs: generate_seed", "packages/ic_siwe/src/settings.rs: validate_salt"]}
{"id": "C11", "title": "Pending sign-in messages are keyed injectively", "statement": "The key under which a sign-in message is stored determines the address and the nonce: two pairs share a key only if they are equal, unless two specific inputs collide under SHA-256. This holds for attacker-chosen nonces of every length.", "quantifier": "every pair of (address, nonce), nonce of any length", "why_tests_cant": "The nonce argument of login is attacker-controlled and unbounded.", "anchors": ["packages/ic_siwe/src/siwe.rs: siwe_message_map_hash"]}
{"id": "C12", "title": "User public keys are well-formed and bind canister and seed", "statement": "The public key returned at login is a DER SubjectPublicKeyInfo with the canister-signature OID whose content an independent decoder reads back as exactly (canister id, seed); so distinct (canister id, seed) pairs give distinct keys.", "quantifier": "every canister id of up to 29 bytes and every 32-byte seed", "why_tests_cant": "Encoders fail at particular lengths; tests use one.", "anchors": ["packages/ic_siwe/src/delegation.rs: create_user_canister_pubkey"]}
{"id": "C13", "title": "The delegation signature is decodable CBOR", "statement": "An independent CBOR decoder reads the signature bytes back as exactly the certificate and the hash tree that went in.", "quantifier": "every certificate (any length) and every hash tree (any depth)", "why_tests_cant": "CBOR heads change form with lengths; trees are unbounded.", "anchors": ["packages/ic_siwe/src/delegation.rs: create_certified_signature, cbor_serialize"]}
{"id": "C14", "title": "The signature map behaves as a set of (seed, delegation) pairs", "statement": "After any sequence of put, delete and prune operations the map can produce a witness for a pair exactly when a simple abstract set of pairs contains it.", "quantifier": "every sequence of operations with any keys and times", "why_tests_cant": "Balanced-tree bugs need particular histories.", "anchors": ["packages/ic_siwe/src/signature_map.rs: SignatureMap::put, delete, prune_expired, witness"]}
{"id": "C15", "title": "Every witness reconstructs to the map's root hash", "statement": "For every signature map reachable by any history and every pair in it, the produced witness hashes to the map's root hash and proves the path seed-hash, delegation-hash with an empty leaf; the internal-error result (witness hash mismatch) is unreachable.", "quantifier": "every history of operations, every pair in the map", "why_tests_cant": "Hash caching errors depend on the rotation history of the tree.", "anchors": ["packages/ic_siwe/src/signature_map.rs: root_hash, witness", "packages/ic_siwe/src/delegation.rs: witness"]}
{"id": "C16", "title": "Tree operations never fault", "statement": "put, delete and prune never dereference a missing node in the underlying tree, whatever the history: the tree's ordering and colour invariants are maintained by every operation.", "quantifier": "every history of operations", "why_tests_cant": "Left-leaning red-black deletion relies on invariants at every depth.", "anchors": ["packages/ic_siwe/src/signature_map.rs: SignatureMap::put, delete"]}
{"id": "C17", "title": "Pruning removes exactly the oldest expired entries, at most the requested number", "statement": "prune_expired(now, max) removes min(max, number of entries expired at now) queue entries, removes none that is unexpired, never leaves an entry that expired strictly earlier than one it removed while budget remained, and returns the number removed.", "quantifier": "every reachable signature map, every time, every budget", "why_tests_cant": "Depends on heap order after arbitrary interleavings of push and pop.", "anchors": ["packages/ic_siwe/src/signature_map.rs: prune_expired, SigExpiration::cmp"]}
{"id": "C18", "title": "A stored delegation is available for one minute", "statement": "A pair put into the map at time t is not reported expired and stays in the map at every time before t + 60 seconds, whatever other operations happen, as long as it is not deleted explicitly.", "quantifier": "every history of puts and prunes at non-decreasing times", "why_tests_cant": "Interference from other entries and duplicate puts needs all histories.", "anchors": ["packages/ic_siwe/src/signature_map.rs: put, prune_expired, is_expired"]}
{"id": "C19", "title": "An expired delegation is never handed out", "statement": "A pair whose most recent put was more than 60 seconds ago never yields a witness through delegation::witness, even if it has not been pruned yet.", "quantifier": "every history of puts and prunes at non-decreasing times", "why_tests_cant": "The prune budget of ten leaves stale entries in some histories only.", "anchors": ["packages/ic_siwe/src/signature_map.rs: is_expired", "packages/ic_siwe/src/delegation.rs: witness"]}
{"id": "C20", "title": "Timestamps never panic and denote the exact instant", "statement": "For every u64 nanosecond timestamp the RFC 3339 rendering succeeds, is a valid calendar date-time in UTC, an independent parser reads back exactly the same nanosecond, and no shorter text does.", "quantifier": "every u64", "why_tests_cant": "Calendar arithmetic fails on particular days (leap centuries, year ends).", "anchors": ["packages/ic_siwe/src/siwe.rs: impl From<SiweMessage> for String"]}
{"id": "C21", "title": "The sign-in text is a faithful ERC-4361 message", "statement": "The text shown to the user parses, with an independent ERC-4361 parser, back to the domain, address, statement, URI, version, chain id, nonce, issued-at and expiration of the message; so two different messages never have the same text.", "quantifier": "every message whose text fields contain no line break", "why_tests_cant": "Field injection is a statement about all field contents.", "anchors": ["packages/ic_siwe/src/siwe.rs: impl From<SiweMessage> for String", "packages/ic_siwe/src/settings.rs: validate_statement"]}
{"id": "C22", "title": "Sign-in messages carry the configured fields and lifetime", "statement": "A prepared message has the configured scheme, domain, statement, URI, chain id, version 1, the caller's address, the issued-at time now and expiration time now + sign_in_expires_in, capped at the largest u64 (never wrapped).", "quantifier": "every settings, address, nonce and time", "why_tests_cant": "Overflow only at extreme values.", "anchors": ["packages/ic_siwe/src/siwe.rs: SiweMessage::new"]}
{"id": "C23", "title": "is_expired reports validity correctly", "statement": "SiweMessage::is_expired returns false exactly when the current time lies between issued_at and expiration_time.", "quantifier": "every message and time", "why_tests_cant": "The comparison is wrong for almost all times but right at the one instant a test would use.", "anchors": ["packages/ic_siwe/src/siwe.rs: SiweMessage::is_expired"]}
{"id": "C24", "title": "Only valid settings are accepted", "statement": "SettingsBuilder::build returns Ok if and only if every documented constraint holds (domain and URI parse as URLs with a host, salt non-empty printable ASCII, chain id and both lifetimes non-zero, scheme http or https, statement without newline, targets absent or between 1 and 1000 distinct principals), the built settings are exactly those given, and it never panics.", "quantifier": "every combination of builder calls", "why_tests_cant": "Validators compose; only all inputs show a gap.", "anchors": ["packages/ic_siwe/src/settings.rs: SettingsBuilder, validate_*"]}
{"id": "C25", "title": "Builder calls override defaults and each other in order", "statement": "After any sequence of builder calls each field holds the value of the last call that set it, or the documented default; calls on different fields do not interfere.", "quantifier": "every sequence of builder calls", "why_tests_cant": "Sequences are unbounded.", "anchors": ["packages/ic_siwe/src/settings.rs: SettingsBuilder"]}
{"id": "C26", "title": "Initialisation installs exactly the requested configuration", "statement": "init and post_upgrade either trap or install settings that were validated, whose target list (if any) contains the canister itself, and whose feature flags are exactly those in the argument - in particular flags from before an upgrade do not survive it.", "quantifier": "every settings argument and every prior state", "why_tests_cant": "Flag combinations and prior histories.", "anchors": ["packages/ic_siwe_provider/src/service/init_upgrade.rs: siwe_init, init, upgrade"]}
{"id": "C27", "title": "Login is authenticated", "statement": "If siwe_login succeeds for an address, then earlier, since the last upgrade, siwe_prepare_login was called for that address and returned the same nonce together with a message, the supplied signature recovers to exactly that address over exactly that message text, and the message had not expired (unless two explicitly named inputs collide under SHA-256).", "quantifier": "every history of canister calls by any callers at non-decreasing times", "why_tests_cant": "Histories are unbounded and adversarial.", "anchors": ["packages/ic_siwe/src/login.rs: login, prepare_login", "packages/ic_siwe_provider/src/service/siwe_login.rs: siwe_login"]}
{"id": "C28", "title": "Sign-in messages are single-use", "statement": "Between a siwe_prepare_login and the siwe_login that succeeds with its message no other siwe_login for the same address and nonce got past argument validation; in particular one prepared message yields at most one successful login.", "quantifier": "every history of canister calls", "why_tests_cant": "Replay requires considering every interleaving.", "anchors": ["packages/ic_siwe/src/login.rs: login", "packages/ic_siwe/src/siwe.rs: SiweMessageMap::remove"]}
{"id": "C29", "title": "A failed signature check burns the message and has no other effect", "statement": "When siwe_login is called with well-formed arguments and a signature that does not recover to the address, it returns an error, the message can no longer be used, and signatures, certified data and address mappings are unchanged; when the arguments are malformed nothing at all changes.", "quantifier": "every reachable state, every arguments", "why_tests_cant": "The frame condition ranges over the whole state.", "anchors": ["packages/ic_siwe/src/login.rs: login"]}
{"id": "C30", "title": "Concurrent sign-ins do not interfere", "statement": "A siwe_prepare_login or siwe_login for one (address, nonce) leaves every other pending, unexpired sign-in message usable and unchanged (unless two explicitly named inputs collide under SHA-256).", "quantifier": "every reachable state, every pair of sign-ins", "why_tests_cant": "Interference depends on interleavings.", "anchors": ["packages/ic_siwe/src/siwe.rs: SiweMessageMap", "packages/ic_siwe/src/login.rs: login"]}
{"id": "C31", "title": "A correct login succeeds", "statement": "After siwe_prepare_login for an address returned a message and nonce, siwe_login with that nonce, a DER session key and a signature that recovers to the address over that text succeeds at every time before the message expires, provided no upgrade and no other login attempt with that address and nonce came in between.", "quantifier": "every history and every time before expiry", "why_tests_cant": "Liveness over all interleavings.", "anchors": ["packages/ic_siwe/src/login.rs: login", "packages/ic_siwe_provider/src/service/siwe_login.rs: siwe_login"]}
{"id": "C32", "title": "Session lifetime is fixed at message issue", "statement": "The expiration returned by a successful siwe_login is the issue time of the prepared message plus session_expires_in, capped at the largest u64, and never depends on when login is called.", "quantifier": "every history with a successful login", "why_tests_cant": "Overflow and timing extremes.", "anchors": ["packages/ic_siwe/src/login.rs: login"]}
{"id": "C33", "title": "A wallet always gets the same principal, and different wallets different ones", "statement": "Within one configuration two successful logins with the same address return the same user public key, whatever the session keys, nonces and times; two successful logins with different addresses return different public keys (unless two explicitly named inputs collide under SHA-256).", "quantifier": "every pair of successful logins in every history", "why_tests_cant": "Pairs of logins in unbounded histories.", "anchors": ["packages/ic_siwe/src/login.rs: login", "packages/ic_siwe/src/delegation.rs: generate_seed, create_user_canister_pubkey"]}
{"id": "C34", "title": "Login results are completely determined", "statement": "The reply of siwe_login is given by a fixed decision table: address error, signature error, message not found, signature failure, address mismatch, session-key error, success - checked in this order - and the call never traps once the canister is initialised.", "quantifier": "every reachable state and every arguments", "why_tests_cant": "Priority among errors and totality range over all inputs.", "anchors": ["packages/ic_siwe/src/login.rs: login", "packages/ic_siwe_provider/src/service/siwe_login.rs: siwe_login"]}
{"id": "C35", "title": "Delegations are only issued to logged-in sessions", "statement": "If siwe_get_delegation succeeds for (address, session key, expiration) then, since the last upgrade and at most 60 seconds ago, a siwe_login succeeded with the same address and session key and returned that expiration (unless two explicitly named inputs collide under SHA-256); the returned delegation carries exactly that key and expiration and the configured targets.", "quantifier": "every history of canister calls", "why_tests_cant": "Forgery must be excluded for all histories.", "anchors": ["packages/ic_siwe_provider/src/service/siwe_get_delegation.rs: siwe_get_delegation", "packages/ic_siwe/src/delegation.rs: create_delegation, witness"]}
{"id": "C36", "title": "A successful login's delegation can be fetched for a minute", "statement": "After a successful siwe_login, siwe_get_delegation with the same address, session key and the returned expiration succeeds at every time before login time + 60 seconds, whatever other calls happen in between (no upgrade).", "quantifier": "every history", "why_tests_cant": "Interference by duplicate logins and pruning needs all histories.", "anchors": ["packages/ic_siwe_provider/src/service/siwe_get_delegation.rs", "packages/ic_siwe/src/signature_map.rs"]}
{"id": "C37", "title": "The certified data always matches the signature map", "statement": "In every reachable state the hash tree returned by a successful siwe_get_delegation reconstructs to the canister's certified data, so that the signature verifies.", "quantifier": "every history of canister calls", "why_tests_cant": "The stale window only appears after particular failing calls.", "anchors": ["packages/ic_siwe_provider/src/lib.rs: update_root_hash", "packages/ic_siwe_provider/src/service/siwe_login.rs: siwe_login", "packages/ic_siwe/src/login.rs: login"]}
{"id": "C38", "title": "A fetched delegation verifies as an IC canister signature", "statement": "If the certified data is in sync, the signed delegation returned by siwe_get_delegation verifies under the IC interface specification's canister-signature rules for the public key returned by siwe_login.", "quantifier": "every history", "why_tests_cant": "Verification composes hash tree, CBOR, DER and domain separation for all values.", "anchors": ["packages/ic_siwe_provider/src/service/siwe_get_delegation.rs", "packages/ic_siwe_provider/src/service/siwe_login.rs"]}
{"id": "C39", "title": "Login records the address-principal mapping in both directions", "statement": "After a successful siwe_login with both mappings enabled, get_address of the user's principal (and get_caller_address called by it) returns exactly the address string used to log in, and get_principal of that address returns exactly that principal.", "quantifier": "every reachable state", "why_tests_cant": "Round trip through bytes and EIP-55 for every address.", "anchors": ["packages/ic_siwe_provider/src/service/siwe_login.rs: manage_principal_address_mappings", "packages/ic_siwe_provider/src/service/get_address.rs", "packages/ic_siwe_provider/src/service/get_caller_address.rs", "packages/ic_siwe_provider/src/service/get_principal.rs"]}
{"id": "C40", "title": "The mappings stay mutually inverse", "statement": "In every reachable state with both mappings enabled, get_principal(address) = p if and only if get_address(p) = address.", "quantifier": "every history, including upgrades", "why_tests_cant": "Upgrades and collisions across histories.", "anchors": ["packages/ic_siwe_provider/src/service/siwe_login.rs: manage_principal_address_mappings", "packages/ic_siwe_provider/src/lib.rs: PRINCIPAL_ADDRESS, ADDRESS_PRINCIPAL"]}
{"id": "C41", "title": "Mappings only contain wallets that logged in", "statement": "If get_address(p) returns an address or get_principal(address) returns p, then earlier in the canister's life (possibly before upgrades) a siwe_login with that address succeeded whose public key has principal p.", "quantifier": "every history, including upgrades", "why_tests_cant": "Provenance over unbounded histories.", "anchors": ["packages/ic_siwe_provider/src/service/get_address.rs", "packages/ic_siwe_provider/src/service/get_principal.rs"]}
{"id": "C42", "title": "Disabled mappings are neither served nor stored", "statement": "While a mapping is disabled its endpoints always return the 'disabled' error and no call writes to that mapping.", "quantifier": "every reachable state, every call", "why_tests_cant": "Ranges over all calls.", "anchors": ["packages/ic_siwe_provider/src/service/siwe_login.rs: manage_principal_address_mappings", "packages/ic_siwe_provider/src/service/get_address.rs", "packages/ic_siwe_provider/src/service/get_principal.rs", "packages/ic_siwe_provider/src/service/get_caller_address.rs"]}
{"id": "C43", "title": "Upgrades keep mappings and drop everything transient", "statement": "A successful upgrade keeps both address mappings, forgets all pending sign-in messages and prepared delegations and the random generator, and replaces the settings; a trapping upgrade changes nothing.", "quantifier": "every reachable state, every upgrade argument", "why_tests_cant": "Crash points and prior states.", "anchors": ["packages/ic_siwe_provider/src/service/init_upgrade.rs: upgrade", "packages/ic_siwe_provider/src/lib.rs: thread_local"]}
{"id": "C44", "title": "Trapping and query calls leave no trace", "statement": "Whenever a call traps, and for every query, the state is exactly as before; in particular siwe_prepare_login before the random seed has arrived traps without side effects.", "quantifier": "every state, every call", "why_tests_cant": "Crash atomicity over every call.", "anchors": ["packages/ic_siwe/src/rand.rs: generate_nonce", "packages/ic_siwe/src/init.rs: init_rng", "packages/ic_siwe_provider/src/service/*.rs"]}
{"id": "C45", "title": "Nonces come from disjoint parts of the random stream", "statement": "Every successful siwe_prepare_login consumes a fresh position of the generator's stream: no two prepared messages of one seeding use the same position, and every nonce is 20 lower-case hex digits.", "quantifier": "every history", "why_tests_cant": "Reuse could come from trap rollback in some histories.", "anchors": ["packages/ic_siwe/src/rand.rs: generate_nonce", "packages/ic_siwe/src/login.rs: prepare_login"]}
{"id": "C46", "title": "Expired sign-in messages are removed at every login", "statement": "After any siwe_login with a well-formed address and signature no stored sign-in message is expired.", "quantifier": "every reachable state", "why_tests_cant": "Ranges over all stored messages.", "anchors": ["packages/ic_siwe/src/siwe.rs: SiweMessageMap::prune_expired", "packages/ic_siwe/src/login.rs: login"]}
{"id": "C47", "title": "The number of stored sign-in messages stays bounded", "statement": "The pending-message store is pruned periodically, so its size is bounded independently of how many siwe_prepare_login calls were made.", "quantifier": "every history", "why_tests_cant": "Boundedness is a statement about unbounded histories.", "anchors": ["packages/ic_siwe/src/siwe.rs: SiweMessageMap", "packages/ic_siwe/src/login.rs: prepare_login"]}
{"id": "C48", "title": "Delegations never outlive their configuration", "statement": "After an upgrade no delegation prepared before the upgrade, and no sign-in message issued before it, can be used.", "quantifier": "every history containing an upgrade", "why_tests_cant": "Histories across upgrades.", "anchors": ["packages/ic_siwe_provider/src/service/init_upgrade.rs: upgrade", "packages/ic_siwe_provider/src/service/siwe_get_delegation.rs", "packages/ic_siwe_provider/src/service/siwe_login.rs"]}
{"id": "C49", "title": "The identity a tab shows was issued by the canister to the address it shows", "statement": "Whenever the client's store shows an identity, the canister answered a siwe_login for the shown address with the identity's own session key and later a siwe_get_delegation for the same address, key and expiration, and the identity is made of exactly these replies; as long as no other script writes the tab's localStorage entry.", "quantifier": "every interleaving of calls, wallet answers, canister calls, reloads and overlapping logins", "why_tests_cant": "Interleavings of overlapping asynchronous calls are unbounded.", "anchors": ["packages/ic_siwe_js/src/index.ts: login", "packages/ic_siwe_js/src/delegation.ts", "packages/ic_siwe_js/src/local-storage.ts"]}
{"id": "C50", "title": "At most one login runs at a time", "statement": "While one call of login is in progress every other call is refused, so no two calls of login are ever past the point of asking for accounts.", "quantifier": "every interleaving", "why_tests_cant": "Needs two calls overlapping at every possible point.", "anchors": ["packages/ic_siwe_js/src/index.ts: login"]}
{"id": "C51", "title": "A tab submits a sign-in message once", "statement": "When calls do not overlap, a tab never sends the nonce of a message it has already submitted, unless the canister hands that nonce out again.", "quantifier": "every run of non-overlapping calls", "why_tests_cant": "Ranges over sequences of logins with all outcomes.", "anchors": ["packages/ic_siwe_js/src/index.ts: login, prepareLogin"]}
{"id": "C52", "title": "clear() signs out for good", "statement": "After clear() the store shows no identity and localStorage holds none, until login is called again.", "quantifier": "every interleaving", "why_tests_cant": "Calls still in progress at the time of clear() can finish in any order.", "anchors": ["packages/ic_siwe_js/src/index.ts: clear, login", "packages/ic_siwe_js/src/local-storage.ts: clearIdentity"]}
{"id": "C53", "title": "The store and localStorage agree", "statement": "Once initialised, a tab either shows no identity and stores none, or stores exactly the identity, address and delegation chain it shows.", "quantifier": "every interleaving without foreign writes to localStorage", "why_tests_cant": "Interleavings.", "anchors": ["packages/ic_siwe_js/src/index.ts", "packages/ic_siwe_js/src/local-storage.ts: saveIdentity, clearIdentity"]}
{"id": "C54", "title": "Reloading the page restores the same identity", "statement": "Loading the page anew and constructing the manager shows exactly the identity, address and chain shown before, including after none.", "quantifier": "every reachable state of a tab without foreign writes", "why_tests_cant": "Round trip of every key pair, expiration, target list and signature through JSON.", "anchors": ["packages/ic_siwe_js/src/index.ts: constructor", "packages/ic_siwe_js/src/local-storage.ts: loadIdentity, saveIdentity"]}
{"id": "C55", "title": "Session secrets stay in the browser", "statement": "No request sent to the canister and no reply depends on the secret part of a session key: the same actions with any other secrets give the same history.", "quantifier": "every run and every replacement of the secrets", "why_tests_cant": "Non-interference relates pairs of executions.", "anchors": ["packages/ic_siwe_js/src/index.ts: login", "packages/ic_siwe_js/src/siwe-provider.ts"]}
{"id": "C56", "title": "A login with a willing wallet and canister signs in", "statement": "From every state in which all calls have settled and no message is left over, one call of login, with a wallet that signs, a seeded canister and timely answers, ends with the store showing the wallet's address and an identity with the new session key, or an explicit hash collision exists.", "quantifier": "every reachable state, wallet, session key and schedule within the windows", "why_tests_cant": "End-to-end liveness over all reachable states.", "anchors": ["packages/ic_siwe_js/src/index.ts: login, prepareLogin", "packages/ic_siwe/src/login.rs", "packages/ic_siwe_provider/src/service/siwe_login.rs", "packages/ic_siwe_provider/src/service/siwe_get_delegation.rs"]}
{"id": "C57", "title": "Statuses tell the truth", "statement": "loginStatus, prepareLoginStatus and signMessageStatus are busy only while a call is at that point, so a settled client never refuses a login; loginStatus is success only when an identity is shown.", "quantifier": "every interleaving", "why_tests_cant": "A status could get stuck under some interleaving.", "anchors": ["packages/ic_siwe_js/src/index.ts"]}
{"id": "C58", "title": "The wallet is asked to sign a message made for its account", "statement": "Whenever login asks the wallet for a signature with an account, the text was made by the canister for that account.", "quantifier": "every interleaving", "why_tests_cant": "Accounts can change between any two steps.", "anchors": ["packages/ic_siwe_js/src/index.ts: login, prepareLogin"]}
{"id": "C59", "title": "Once seeded, siwe_prepare_login succeeds", "statement": "After the first reply to raw_rand has brought a seed every siwe_prepare_login with a valid address succeeds until the next install or upgrade; after it has failed none does.", "quantifier": "every history", "why_tests_cant": "The seed can arrive at any point of any history.", "anchors": ["packages/ic_siwe/src/init.rs", "packages/ic_siwe/src/rand.rs: generate_nonce", "packages/ic_siwe/src/login.rs: prepare_login"]}
{"id": "C60", "title": "An expired identity is not restored", "statement": "An identity whose delegation has expired is not shown again when the page is reloaded.", "quantifier": "every run", "why_tests_cant": "Depends on the time between login and reload.", "anchors": ["packages/ic_siwe_js/src/index.ts: constructor", "packages/ic_siwe_js/src/local-storage.ts: loadIdentity"]}
{"id": "C61", "title": "No delegation is accepted without a login", "statement": "A delegation chain that verifies against the canister's certified data, as a replica checks it, was created by a successful login: with that session key, expiration and targets, for the address behind the public key, whose wallet had signed a text prepared by the canister; otherwise two different hash inputs with equal digests can be named.", "quantifier": "every history, every byte string offered as public key, delegation, signature and certificate", "why_tests_cant": "Soundness against arbitrary forged certificates and witnesses cannot be sampled.", "anchors": ["packages/ic_siwe/src/signature_map.rs", "packages/ic_siwe/src/delegation.rs: create_delegation_hash, create_user_canister_pubkey", "packages/ic_siwe/src/hash.rs", "packages/ic_siwe/src/login.rs: login", "packages/ic_siwe_provider/src/service/siwe_login.rs"]}
{"id": "C62", "title": "A fetched delegation is accepted until it expires", "statement": "What siwe_get_delegation returns after a login is accepted by the replica's checks up to its expiration at every target the settings name, as long as the certified data is in step with the signature map.", "quantifier": "every history, certificate below 2^64 bytes, time up to the expiration, and target", "why_tests_cant": "Relates encoding, hashing and tree witnesses of every map.", "anchors": ["packages/ic_siwe_provider/src/service/siwe_get_delegation.rs", "packages/ic_siwe/src/delegation.rs", "packages/ic_siwe/src/signature_map.rs"]}
{"id": "C63", "title": "The caller hears its own address", "statement": "A caller that is let in with a delegation and calls get_caller_address hears the address whose wallet approved its session key, even when the canister was upgraded or logins happened in between, unless a hash collision can be named.", "quantifier": "every history, accepted request and later state", "why_tests_cant": "Combines all histories, configurations and forged requests.", "anchors": ["packages/ic_siwe_provider/src/service/get_caller_address.rs", "packages/ic_siwe_provider/src/service/siwe_login.rs", "packages/ic_siwe/src/delegation.rs: generate_seed"]}
{"id": "C64", "title": "A target text stands for at most one principal", "statement": "Principal::from_text, as used for the targets, accepts exactly the texts of the IC interface specification in either case: base 32 of checksum and at most 29 bytes, in groups of five; every principal has one text, and reading the text back gives the principal.", "quantifier": "every byte string and every principal", "why_tests_cant": "All texts and all principals up to 29 bytes.", "anchors": ["packages/ic_siwe_provider/src/service/init_upgrade.rs: siwe_init (targets)", "packages/test_canister/src/lib.rs: init, whoami"]}
{"id": "C65", "title": "A mistyped target does not go unnoticed", "statement": "If one character of a target, two neighbouring ones, or the order of two neighbouring ones is wrong, installing or upgrading fails or gives the canister the configuration that was meant.", "quantifier": "every argument, position, pair of characters and state", "why_tests_cant": "All pairs of texts up to 63 characters.", "anchors": ["packages/ic_siwe_provider/src/service/init_upgrade.rs: siwe_init (targets)"]}
{"id": "C66", "title": "The application canister tells callers who they are", "statement": "The pair that whoami gives to a caller let in with a delegation consists of the text of the caller's principal and the address of the wallet that approved the session key, or a hash collision can be named; after a login whoami gives that pair. The application can be installed with exactly the texts of principals, asks only the provider it was installed with, passes its errors on, and answers nobody after an upgrade, which forgets the provider.", "quantifier": "every history, accepted request and later state", "why_tests_cant": "Combines all histories, configurations and forged requests.", "anchors": ["packages/test_canister/src/lib.rs: init, whoami", "packages/ic_siwe_provider/src/service/get_address.rs"]}
{"id": "C67", "title": "Nonces are pieces of the ChaCha20 keystream", "statement": "The k-th nonce made after an upgrade is the lower-case hexadecimal text of bytes 12k to 12k+9 of the RFC 8439 keystream whose key is the first raw_rand reply, also where a read runs over the end of the generator's buffer; so no keystream byte serves two nonces.", "quantifier": "every 32-byte seed, every k below 2^64, every history", "why_tests_cant": "A generator that repeats or shifts after refilling its buffer passes tests that make a few nonces; the buffer of 64 words is refilled after the 21st.", "anchors": ["packages/ic_siwe/src/rand.rs: generate_nonce", "packages/ic_siwe/src/init.rs: init_rng"]}
{"id": "C68", "title": "Components show the state of the store", "statement": "What the React and Vue bindings give to components agrees with the store at every moment: statuses, errors, identity, and the four flags of each status, of which exactly the one for the current status is set.", "quantifier": "every execution of the client, every time of setup and mounting", "why_tests_cant": "Depends on when a component is created and mounted relative to logins in progress.", "anchors": ["packages/ic_siwe_js/src/react/index.tsx: SiweIdentityProvider", "packages/ic_siwe_js/src/vue/index.ts: createSiweIdentityProvider", "packages/ic_siwe_js/src/context.type.ts"]}
{"id": "C69", "title": "The React binding asks the connected wallet", "statement": "prepareLogin and login ask the wallet that wagmi reports as connected, whatever wallets were connected before and however often the manager was replaced; when none is connected they ask none.", "quantifier": "every sequence of renderings and calls", "why_tests_cant": "Needs every order of connecting, disconnecting, re-rendering and calling.", "anchors": ["packages/ic_siwe_js/src/react/index.tsx: useEffect", "packages/ic_siwe_js/src/index.ts: setupWalletClient, setWalletClient"]}
{"id": "C70", "title": "Which session keys are accepted", "statement": "A session key is accepted exactly if it is a non-empty sequence of BER elements with definite lengths; every SubjectPublicKeyInfo is, so the browser client's keys, P-256 and secp256k1 keys and canister-signature keys are always accepted; and only public keys get a delegation.", "quantifier": "every byte string below 2^32 bytes, every history", "why_tests_cant": "All nestings, lengths and tag forms; tests use one key and one non-key.", "anchors": ["packages/ic_siwe/src/delegation.rs: create_delegation", "packages/ic_siwe_js/src/index.ts: login"]}
{"id": "C71", "title": "Recovery is exact", "statement": "recover_eth_address returns an address for a text and a signature exactly if the signature is one that the owner of a secp256k1 private key with that address makes for the EIP-191 digest of the text; equivalently, if it passes the verification of SEC 1 under the public key, with low s and the right recovery id. No signature belongs to two keys.", "quantifier": "every text, every 65 bytes, every private key and nonce", "why_tests_cant": "All keys, digests and nonces; the group law has exceptional cases that random tests do not reach.", "anchors": ["packages/ic_siwe/src/eth.rs: recover_eth_address, derive_eth_address_from_public_key"]}
{"id": "C72", "title": "Logging in takes the private key of the address, and nothing else", "statement": "Behind every successful login is a signature of the prepared message by a private key whose public key has the address; and for every private key the owner's address is accepted, a signature of the message exists, and with any such signature the login succeeds.", "quantifier": "every history, private key, nonce and time", "why_tests_cant": "All histories, keys and nonces.", "anchors": ["packages/ic_siwe/src/login.rs: login", "packages/ic_siwe/src/eth.rs: recover_eth_address", "packages/ic_siwe_provider/src/service/siwe_login.rs"]}
{"id": "C73", "title": "Accepted signatures cannot be altered", "statement": "Of the signatures (r, s) and (r, n - s) at most one is accepted, whatever the recovery id; two accepted signatures of one key for one message that share r are the same 65 bytes.", "quantifier": "every key, message and signature", "why_tests_cant": "Ranges over all 2^520 signatures.", "anchors": ["packages/ic_siwe/src/eth.rs: recover_eth_address"]}
{"id": "C74", "title": "Which domains are accepted", "statement": "With scheme http or https the builder accepts a domain exactly if it is, by the WHATWG URL rules, the address of one site: optional user, a host name of permitted characters, an IPv4 or an IPv6 address, an optional port up to 65535, and whatever follows a slash, '?' or '#'. Others are refused with \"Invalid domain\", never with a panic. Ordinary host names are always accepted.", "quantifier": "every settings record, every domain, every installation", "why_tests_cant": "All byte strings; the number, bracket and escape forms of hosts are endless.", "anchors": ["packages/ic_siwe/src/settings.rs: validate_domain, build", "packages/ic_siwe_provider/src/service/init_upgrade.rs: siwe_init"]}
{"id": "C75", "title": "The domain shown to the user is the site", "statement": "The text that a sign-in message shows before \"wants you to sign in\" is the host name of the site the configuration is for, followed by its port if any.", "quantifier": "every accepted domain", "why_tests_cant": "Needs every spelling that the URL parser reads in an unexpected way.", "anchors": ["packages/ic_siwe/src/settings.rs: validate_domain", "packages/ic_siwe/src/siwe.rs: SiweMessage::new, From<SiweMessage> for String"]}
{"id": "C76", "title": "The URI is an address on the site of the domain", "statement": "An http or https URI is accepted exactly if it names a site by the WHATWG rules; every accepted URI has a scheme; it is http or https and names the host that the domain names.", "quantifier": "every URI and every settings record", "why_tests_cant": "All pairs of domain and URI.", "anchors": ["packages/ic_siwe/src/settings.rs: validate_uri, build"]}
{"id": "C77", "title": "The configuration given through the published interface is the one used", "statement": "A configuration written as a value of the SettingsInput type that ic_siwe_provider.did declares is, in every field, the configuration with which the canister is installed or upgraded.", "quantifier": "every configuration and every encoding of it", "why_tests_cant": "Needs every type table and value; the tests call the Rust functions or use the types of the Rust code.", "anchors": ["packages/ic_siwe_provider/ic_siwe_provider.did: SettingsInput", "packages/ic_siwe_provider/src/service/init_upgrade.rs: SettingsInput, init, upgrade"]}
{"id": "C78", "title": "Requests arrive as they were sent", "statement": "A message that carries arguments of the types the interface declares is decoded by the canister to exactly those arguments; the messages of the client's prepareLogin, login and getDelegation are of this kind; one message is never two requests.", "quantifier": "every method, argument and encoding", "why_tests_cant": "All texts, keys and encodings, not only those of one encoder.", "anchors": ["packages/ic_siwe_provider/ic_siwe_provider.did", "packages/ic_siwe_js/src/siwe-provider.ts", "packages/ic_siwe_provider/src/service/siwe_login.rs"]}
{"id": "C79", "title": "Replies arrive as they were given", "statement": "The bytes of a reply carry a value of the type the interface declares for the method, the client reads from them exactly the reply the canister gave, and different replies have different bytes.", "quantifier": "every reply of every method, every state", "why_tests_cant": "All replies, including targets and errors.", "anchors": ["packages/ic_siwe_provider/ic_siwe_provider.did", "packages/ic_siwe_js/src/ic_siwe_provider.did.js", "packages/ic_siwe_provider/src/service/siwe_get_delegation.rs"]}
{"id": "C80", "title": "Whatever bytes are sent", "statement": "Any bytes sent to any method are either a call with arguments in range and UTF-8 texts, or the canister traps and its state is unchanged; so nobody logs in by sending bytes without a signature over a message that the canister made, and every history of calls is a history of messages.", "quantifier": "every byte string, method, caller, state and history", "why_tests_cant": "Ranges over all byte strings and all histories of them.", "anchors": ["packages/ic_siwe_provider/src/service/siwe_login.rs", "packages/ic_siwe_provider/src/service/siwe_prepare_login.rs", "packages/ic_siwe_provider/src/service/init_upgrade.rs"]}
{"id": "C81", "title": "Which configuration a message gives", "statement": "A configuration record without a text for domain, uri and salt is refused without effect; an optional field that is left out, null or of another type counts as not given; fields with other names do not matter; one runtime feature that the canister does not know switches off all listed ones.", "quantifier": "every record type and value", "why_tests_cant": "All records, with any further fields, types and nesting.", "anchors": ["packages/ic_siwe_provider/src/service/init_upgrade.rs: SettingsInput, RuntimeFeature"]}
{"id": "C82", "title": "The printed form of a message", "statement": "The Display form of a message is one line of JSON text that means one value, an object with the ten fields of the message and nothing else; two different messages are never printed alike.", "quantifier": "every message, whatever characters its fields contain", "why_tests_cant": "All texts in all fields, including quotation marks, backslashes and control characters.", "anchors": ["packages/ic_siwe/src/siwe.rs: impl fmt::Display for SiweMessage"]}
{"id": "C83", "title": "Which texts in localStorage sign a tab in", "statement": "After a reload a tab is signed in as exactly the address, session key and delegation chain that the text in localStorage states by the JSON grammar, and signed out if the text states none; the address may be any value but null, false, zero and the empty text; the text that a sign-in leaves there states exactly that sign-in.", "quantifier": "every text, every execution of the client", "why_tests_cant": "All texts: blanks, escapes, order, repeated and further members, broken text.", "anchors": ["packages/ic_siwe_js/src/local-storage.ts: loadIdentity, saveIdentity", "packages/ic_siwe_js/src/index.ts: constructor, login"]}
{"id": "C84", "title": "Behind every request a replica accepts is the private key of the wallet", "statement": "If a replica accepts a request made with a session key for a user, then the owner of the private key whose address the user's principal belongs to signed a text that the canister had made, which states the configured domain, URI and chain, the address and the nonce; the session key, expiration and targets are those of the login with that signature; the login was within the sign-in window of the text, the request within the session window; unless two inputs of SHA-256 with one digest are at hand.", "quantifier": "every history of messages of any bytes, every request, delegation and certificate", "why_tests_cant": "All histories of byte strings and all forged delegations at once, down to the arithmetic of the curve.", "anchors": ["packages/ic_siwe/src/login.rs", "packages/ic_siwe/src/eth.rs", "packages/ic_siwe/src/delegation.rs", "packages/ic_siwe/src/signature_map.rs", "packages/ic_siwe_provider/src/service/siwe_login.rs", "packages/ic_siwe_provider/src/service/siwe_get_delegation.rs"]}
{"id": "C85", "title": "The private key of a wallet is enough to act as its user", "statement": "In every history of messages in which the canister is configured and seeded, the owner of any private key gets a text from the canister, and with any signature of the key over it and a fresh session key the client's three messages give, whatever certificate the subnet issues for the certified data that the login leaves, a delegation that a replica accepts for the user of that address until the session ends, at every allowed target.", "quantifier": "every history of messages, private key, session key, signature and times within the windows", "why_tests_cant": "All states that other users' messages can leave behind and all keys.", "anchors": ["packages/ic_siwe/src/login.rs", "packages/ic_siwe/src/delegation.rs", "packages/ic_siwe_provider/src/service/siwe_prepare_login.rs", "packages/ic_siwe_provider/src/service/siwe_login.rs", "packages/ic_siwe_provider/src/service/siwe_get_delegation.rs", "packages/ic_siwe_js/src/siwe-provider.ts"]}
{"id": "C86", "title": "Messages conform to the ERC-4361 grammar exactly when the configured texts do", "statement": "A message that siwe_prepare_login returns is in the language of the ABNF of ERC-4361 (with RFC 3986 and RFC 3339) exactly when the configured domain is an authority with an optional scheme, the configured or default statement has at least one character and only reserved and unreserved characters and spaces, and the configured URI is an RFC 3986 URI; all else in it always conforms. Configurations for which it does not are accepted.", "quantifier": "every history, configuration, address, nonce and time", "why_tests_cant": "All configured texts and all splits of the message into the parts of the grammar.", "anchors": ["packages/ic_siwe/src/siwe.rs: From<SiweMessage> for String", "packages/ic_siwe/src/settings.rs: validate_domain, validate_uri, validate_statement", "packages/ic_siwe_provider/src/service/siwe_prepare_login.rs"]}
{"id": "C87", "title": "With a wallet that checks domains, only pages of the configured domain sign users in", "statement": "If a wallet signs ERC-4361 messages only for pages whose authority is the domain of the message, and the configured texts conform to ERC-4361, then behind every request that a replica accepts for a user is a signature that the user's wallet made for a page of the configured domain. If the configured texts do not conform, the wallet's rule does not apply and a page of another site can sign the user in.", "quantifier": "every history of messages of any bytes, every accepted request, every set of texts and pages for which the wallet signed", "why_tests_cant": "All histories, all other texts for which a signature may be valid, all ways to read a text by the grammar.", "anchors": ["packages/ic_siwe/src/siwe.rs: From<SiweMessage> for String", "packages/ic_siwe/src/settings.rs: validate_domain, validate_statement", "packages/ic_siwe/src/login.rs", "packages/ic_siwe_provider/src/service/siwe_prepare_login.rs", "packages/ic_siwe_provider/src/service/siwe_login.rs"]}
{"id": "C88", "title": "The canister keeps no more delegations than logins fell into one minute", "statement": "At every moment the delegations kept in the signature map, and the entries of its expiration queue, are no more than the successful logins that fell into some one minute since the last install or upgrade; right after a siwe_login with well-formed arguments the sign-in messages kept are no more than those made within the last sign-in window.", "quantifier": "every history of calls", "why_tests_cant": "All histories: how old entries, the limit of ten removals per login and new entries add up.", "anchors": ["packages/ic_siwe/src/signature_map.rs: put, prune_expired", "packages/ic_siwe/src/login.rs: MAX_SIGS_TO_PRUNE, login", "packages/ic_siwe/src/siwe.rs: prune_expired"]}
{"id": "C89", "title": "Every tab shows an identity that was issued to the address it shows", "statement": "With any number of tabs of one browser open on the page, sharing localStorage and nobody else writing it, the identity in any tab's store was issued by the canister, for its session key, after a login of the address shown beside it; and each tab goes through states that a tab on its own goes through by the same actions.", "quantifier": "every execution of any number of tabs and the canister", "why_tests_cant": "All interleavings of several tabs, their calls, reloads and sign-outs.", "anchors": ["packages/ic_siwe_js/src/index.ts: siweStateStore, constructor, login, clear", "packages/ic_siwe_js/src/local-storage.ts"]}
{"id": "C90", "title": "A page that is loaded shows the last sign-in of any tab", "statement": "A page that is opened or reloaded and makes its manager is signed in with exactly the address and identity of the last login() that returned in any tab, if no tab has called clear() since, and shows nobody otherwise.", "quantifier": "every execution of any number of tabs and the canister", "why_tests_cant": "All interleavings of several tabs, including logins that overlap in different tabs.", "anchors": ["packages/ic_siwe_js/src/index.ts: constructor, login, clear", "packages/ic_siwe_js/src/local-storage.ts"]}
{"id": "C91", "title": "All tabs show the same", "statement": "When the last thing done in any tab was to sign in, every tab with a manager shows that sign-in; when it was to sign out, no tab shows an identity.", "quantifier": "every execution of any number of tabs and the canister", "why_tests_cant": "All interleavings of several tabs.", "anchors": ["packages/ic_siwe_js/src/index.ts: constructor, clear", "packages/ic_siwe_js/src/local-storage.ts: clearIdentity"]}
{"id": "C92", "title": "Exactly which calls trap, and outsiders cannot change it", "statement": "A call with well-formed arguments traps if and only if no canister is installed (and the call is not an install), or it installs or upgrades with a configuration that is refused, or it gives siwe_prepare_login a valid address before the random seed has arrived, or it is siwe_get_delegation outside a query; a message traps if and only if it does not decode or its call traps. Two histories with the same installs, upgrades and seeds agree on which calls trap, whatever else was called.", "quantifier": "every history, every call and every message", "why_tests_cant": "All states that outsiders can bring about, all argument bytes.", "anchors": ["packages/ic_siwe_provider/src/service/siwe_prepare_login.rs", "packages/ic_siwe_provider/src/service/siwe_get_delegation.rs", "packages/ic_siwe_provider/src/service/init_upgrade.rs", "packages/ic_siwe/src/login.rs", "packages/ic_siwe/src/signature_map.rs", "packages/ic_siwe/src/settings.rs"]}
{"id": "C93", "title": "A login goes through whatever others do meanwhile", "statement": "From the call of login() on, let the wallet show one account and sign the message made for it, let nothing else be begun in the tab, let requests arrive before the message expires and within a minute after siwe_login, and let nobody else submit this tab's nonce or session key; all else - calls of the canister by anybody, logins for the same address, writes to localStorage - may happen at any point in between. Then login() never fails, its next step is always possible, and after exactly twelve steps it has returned and the tab is signed in with the account and the session key (unless the canister gives the same nonce to the same address twice, or explicitly named inputs collide under SHA-256).", "quantifier": "every interleaving of the login with actions of others", "why_tests_cant": "All interleavings with any number of foreign calls.", "anchors": ["packages/ic_siwe_js/src/index.ts: login, prepareLogin", "packages/ic_siwe_js/src/siwe-provider.ts", "packages/ic_siwe/src/login.rs", "packages/ic_siwe/src/signature_map.rs"]}
{"id": "C94", "title": "A login in one tab goes through whatever the other tabs do", "statement": "The same for a login() in one of several tabs of a browser, with the other tabs signing in and out, reloading and opening at any point in between. Nothing is asked of the other tabs except that the browser makes no session key twice, and of the canister that it gives no nonce twice: tabs submit only nonces that they were given and keys that they made. Callers outside of the browser must not submit this tab's nonce or session key.", "quantifier": "every interleaving of any number of tabs and other callers", "why_tests_cant": "All interleavings of several tabs.", "anchors": ["packages/ic_siwe_js/src/index.ts: login, prepareLogin", "packages/ic_siwe_js/src/local-storage.ts"]}
{"id": "C95", "title": "A login with a message prepared before goes through whatever others do", "statement": "The same for a login() that finds in the store a message which prepareLogin fetched earlier: it asks the canister for no new message, and signs in with the stored one after seven steps instead of twelve, provided that message was made for the account the wallet shows and its nonce was not submitted meanwhile.", "quantifier": "every state of the page that holds a prepared message; every interleaving of the login with actions of others", "why_tests_cant": "All interleavings, any delay between prepareLogin and login within the lifetime of the message.", "anchors": ["packages/ic_siwe_js/src/index.ts: login, prepareLogin", "packages/ic_siwe_js/src/siwe-provider.ts", "packages/ic_siwe/src/login.rs", "packages/ic_siwe/src/siwe.rs"]}
{"id": "C96", "title": "The identity a tab shows works", "statement": "Whatever happened before, in however many tabs: replicas accept requests signed with the identity that a tab shows, from any canister among its targets, until it expires (if the canister was not upgraded between the login and the fetching of the delegation, and its certified data was in step, see C37); and when the identity asks the canister for its own address it is told the address that the tab shows, from the login on until the canister is installed anew, also after upgrades and whoever signs in meanwhile (if that mapping was on at the login and is on, salts are under 256 bytes, and up to named hash collisions).", "quantifier": "every run of a browser with any number of tabs; every later time and target", "why_tests_cant": "All histories of logins, upgrades and other callers behind one shown identity.", "anchors": ["packages/ic_siwe_js/src/index.ts", "packages/ic_siwe_js/src/local-storage.ts", "packages/ic_siwe_provider/src/service/siwe_login.rs", "packages/ic_siwe_provider/src/service/get_caller_address.rs", "packages/ic_siwe_provider/src/service/siwe_get_delegation.rs"]}
{"id": "C97", "title": "A replica that lies in a query cannot change who a tab is signed in as", "statement": "siwe_get_delegation is a query, which a single replica answers and the client does not check. Even if such answers are anything whatever, in any number of tabs: an identity that a tab shows has the session key and the public key, hence the principal, of a successful login of the address that the tab shows; requests signed with it are accepted only if its delegation has the key, expiration and targets of a login that the canister answered with this public key (up to named hash collisions); and a page that is loaded shows what was stored, unchanged, or nothing.", "quantifier": "every run of a browser with any number of tabs in which any query of a login is answered arbitrarily", "why_tests_cant": "A test answers with a few made-up delegations; the claim is for all answers and all interleavings.", "anchors": ["packages/ic_siwe_js/src/index.ts", "packages/ic_siwe_js/src/delegation.ts", "packages/ic_siwe_js/src/siwe-provider.ts", "packages/ic_siwe_js/src/local-storage.ts", "packages/ic_siwe_provider/ic_siwe_provider.did"]}
{"id": "C98", "title": "A wallet's signature is good for one session key only", "statement": "Whichever history a signature by a wallet is submitted in, siwe_login succeeds with it for one session key only: getting hold of the signature is not enough to sign in with a key of one's own.", "quantifier": "every history of calls, every signature and session key", "why_tests_cant": "Two histories of one canister have to be compared, for every key.", "anchors": ["packages/ic_siwe/src/login.rs", "packages/ic_siwe/src/siwe.rs", "packages/ic_siwe_provider/src/service/siwe_login.rs", "packages/ic_siwe_js/src/index.ts"]}
{"id": "C99", "title": "A principal stands for one wallet, one salt and one URI at one canister", "statement": "Two successful logins, at one canister before and after upgrades or at two canisters, get the same principal exactly if canister, address and salt are the same and so is the URI where it is part of the seed (salts shorter than 256 bytes, no hash collision). Changing the domain, the statement, the session length or an unused URI keeps everybody's principal; changing the salt or a used URI keeps nobody's.", "quantifier": "every two histories of any two canisters, every two logins in them", "why_tests_cant": "Two histories under any two configurations have to be compared.", "anchors": ["packages/ic_siwe/src/delegation.rs", "packages/ic_siwe/src/login.rs", "packages/ic_siwe/src/settings.rs", "packages/ic_siwe_provider/src/service/init_upgrade.rs"]}
{"id": "C100", "title": "A sign in leaves exactly one known text in localStorage", "statement": "If nobody else writes the tab's entry, it is absent or it is the JSON text with the address, the session key and its secret in clear, and the one delegation of a login and a fetch that took place: names, order, case of the digits and the expiration without leading zeros included.", "quantifier": "every run of a tab together with the canister", "why_tests_cant": "The text is claimed for every key, address, expiration and list of targets.", "anchors": ["packages/ic_siwe_js/src/local-storage.ts", "packages/ic_siwe_js/src/index.ts", "packages/ic_siwe_js/src/delegation.ts"]}
{"id": "C101", "title": "What siwe_get_delegation answers", "statement": "After any history the query answers by this table: the error of an address that is not EIP-55, of an unusable session key, of expiration 0; 'Signature not found' if the session (address, key, expiration) has not logged in since the last install or upgrade; the delegation if all its logins are less than a minute old; 'Signature not found' or 'Signature expired' if all are more than a minute old (only if it logged in several times, or in the nanosecond exactly a minute after, both are possible). The internal hash mismatch error never occurs. Named hash collisions are the only exception.", "quantifier": "every history of calls, every time and arguments of the query", "why_tests_cant": "All histories of logins, prunings and failed calls have to be considered.", "anchors": ["packages/ic_siwe_provider/src/service/siwe_get_delegation.rs", "packages/ic_siwe/src/delegation.rs", "packages/ic_siwe/src/signature_map.rs"]}
{"id": "C102", "title": "The history determines every answer", "statement": "After any history, every call is answered by a table over the calls made before: it traps exactly for the named reasons; siwe_prepare_login answers the error of the address or one message, written out in full with the configured fields, the shortest RFC 3339 texts of the two instants and the n-th nonce of the seed as its nonce; siwe_login and siwe_get_delegation answer by C34 and C101; get_address, get_caller_address and get_principal answer that the mapping is off, that the argument is unusable, the last login recorded for the argument, or that there is none. For all calls but siwe_get_delegation the table leaves exactly one answer (up to the wording of a trap).", "quantifier": "every history of calls, every further call at every time", "why_tests_cant": "It is a statement about all histories and all arguments of all methods.", "anchors": ["packages/ic_siwe_provider/src/service", "packages/ic_siwe/src/login.rs", "packages/ic_siwe/src/siwe.rs", "packages/ic_siwe/src/rand.rs"]}
{"id": "C103", "title": "Exactly which URIs and which configurations are accepted", "statement": "A URI is accepted exactly if, after blanks in front, it has a scheme in any casing and then: for http, https, ws, wss and ftp the text of a web address; for file two slashes and a host other than localhost; for every other scheme two slashes, an optional user, a non-empty host without forbidden characters and a port. Everything else is refused with 'Invalid URI'. The canister can be installed and upgraded exactly with arguments whose scheme is http or https, whose domain is a web host, whose URI is such a text, whose salt is printable and not empty, whose statement is one line, whose numbers are not 0 and whose targets, if given, are at most 1000 different principals in text form including the canister; with any other argument the call traps and nothing changes.", "quantifier": "every text as URI, every argument of init and post_upgrade, every state of the canister", "why_tests_cant": "The set of accepted texts is infinite and its complement too.", "anchors": ["packages/ic_siwe/src/settings.rs: validate_uri, build", "packages/ic_siwe_provider/src/service/init_upgrade.rs"]}
{"id": "C104", "title": "When a delegation is forgotten", "statement": "For a session that has logged in once since the last install or upgrade: as long as no login that succeeds or has its session key refused has happened a minute or more after it, siwe_get_delegation hands out the delegation up to and including the nanosecond one minute after the login, and answers 'Signature expired' from then on. After k successful logins made a minute or more after it, it answers 'Signature not found' as soon as at most 10 k logins were made up to the time of the session's login. The exception is a collision of hashes with another session.", "quantifier": "every history of calls, session with one login, later time and number of later logins", "why_tests_cant": "Depends on every login before and after; a test sees one pattern of times.", "anchors": ["packages/ic_siwe/src/signature_map.rs: prune_expired, is_expired", "packages/ic_siwe/src/delegation.rs: witness", "packages/ic_siwe_provider/src/service/siwe_login.rs", "packages/ic_siwe_provider/src/service/siwe_get_delegation.rs"]}
{"id": "C105", "title": "The documented login button", "statement": "If login() is only called by the button of the documentation (enabled while no login is under way and a message is prepared), no press is turned away for coming at a wrong time, and at most one login is under way at a time.", "quantifier": "every run of a tab in which login() is called only while the button is enabled", "why_tests_cant": "The claim is for every interleaving of presses with the steps of earlier calls.", "anchors": ["packages/ic_siwe_js/README.md:124-136", "packages/ic_siwe_js/src/index.ts: login, prepareLogin, clear"]}
{"id": "C106", "title": "The signature of a delegation is short", "statement": "After any history, a signature that siwe_get_delegation returns is at most 77 + 448 log2(n+1) bytes longer than the replica's certificate, where n successful logins fell into some one minute since the last install or upgrade: other users' logins make it grow with their logarithm only, and old logins do not count.", "quantifier": "every history of calls; every answer of siwe_get_delegation", "why_tests_cant": "The bound depends on the tree staying balanced through all insertions and deletions.", "anchors": ["packages/ic_siwe/src/signature_map.rs", "packages/ic_siwe/src/delegation.rs", "packages/ic_siwe_provider/src/service/siwe_get_delegation.rs", "Cargo.lock: ic-certified-map"]}
{"id": "C107", "title": "A replica that knows only the root key accepts a delegation only with a login behind it", "statement": "If a canister signature passes the checks of the interface specification from the root key down (the certificate, its subnet delegation and canister ranges, the certified data, the tree, the delegation), and the subnets sign only their own states, then behind it are a login in the canister's history and the private key of the wallet, however old the certificate is; unless two inputs of SHA-256 with one digest are at hand. Conversely a fetched delegation whose certificate is good passes these checks until it expires, whatever happens to the canister later.", "quantifier": "every history of messages, every request, delegation and certificate, every network of subnets and signature scheme", "why_tests_cant": "All forged certificates and trees at once, and certificates from any time in the past.", "anchors": ["packages/ic_siwe/src/delegation.rs: create_certified_signature", "packages/ic_siwe/src/signature_map.rs", "packages/ic_siwe_provider/src/service/siwe_get_delegation.rs", "packages/ic_siwe_provider/src/lib.rs: update_root_hash"]}
{"id": "C108", "title": "Building the settings panics exactly on addresses without a host", "statement": "SettingsBuilder::build panics if and only if the configured scheme and domain, joined by '://', are by the WHATWG URL rules an address with an authority but no host: a file address without a host or with the host localhost, or one of a non-special scheme whose '//' is at once followed by the path, the query, the fragment or the end (a user written as nothing or as ':' apart); the other settings do not matter.", "quantifier": "every scheme, domain and other setting", "why_tests_cant": "The texts that reach the unwrap are scattered over all schemes, users and paths.", "anchors": ["packages/ic_siwe/src/settings.rs: validate_domain, SettingsBuilder::build", "Cargo.lock: url"]}
{"id": "C109", "title": "Which messages are calls", "statement": "A message without a well-formed Candid header (magic bytes, a type table whose references are inside it, with field numbers and method names in rising order and methods of function type, and a list of argument types) is refused. With one that lists data types, the call runs exactly if the remaining bytes are values of these types that give the method its arguments; else the canister traps and its state is unchanged. Numbers may be written longer than necessary, further types and arguments are ignored, and no message can be read in two ways.", "quantifier": "every byte string, method, caller and state, every type table and all values nested no deeper than the decoder's limit", "why_tests_cant": "All byte strings, valid and invalid, against all type tables.", "anchors": ["packages/ic_siwe_provider/src/service/siwe_login.rs", "packages/ic_siwe_provider/src/service/siwe_prepare_login.rs", "packages/ic_siwe_provider/src/service/siwe_get_delegation.rs", "packages/ic_siwe_provider/src/service/init_upgrade.rs", "Cargo.lock: candid"]}
{"id": "C110", "title": "Every error has its reason", "statement": "Whatever error prepareLogin() or login() throws or the store shows, it is the text with which the canister refused one of the tab's own requests or trapped on it, the text that the wallet or the agent threw, or one of the four texts of the client with its occasion (no account, no signature, login called during prepareLogin, login called during login). A login that fails puts its error and the status \"error\" into the store in the same step, drops the prepared message, and changes neither who is signed in nor localStorage.", "quantifier": "every interleaving of calls, answers and faults", "why_tests_cant": "An error could be lost or taken from another call under some interleaving.", "anchors": ["packages/ic_siwe_js/src/index.ts: prepareLogin, login", "packages/ic_siwe_js/src/siwe-provider.ts"]}
{"id": "C111", "title": "A status is \"error\" exactly when there is an error to show", "statement": "loginError, prepareLoginError and signMessageError are set exactly when loginStatus, prepareLoginStatus and signMessageStatus are \"error\".", "quantifier": "every interleaving", "why_tests_cant": "Ranges over all overlaps of calls.", "anchors": ["packages/ic_siwe_js/src/index.ts: prepareLogin, login, clear", "packages/ic_siwe_js/src/context.type.ts:22-59"]}
{"id": "C112", "title": "The digests are those of the standards", "statement": "With the hash functions of the concrete dependencies the seed of a user is the SHA-256 of FIPS 180-4 of salt, address and URI with their lengths, the hash a wallet signs and the address of a key are made with Keccak-256 (FIPS 202 with the original padding), and a principal is the SHA-224 of the public key and a byte 02: on every input these functions return the one digest that the standards describe, and the constants of SHA-2 are the fractions of roots of primes.", "quantifier": "every byte string", "why_tests_cant": "Test vectors cover a few lengths; the statement is about all messages of all lengths.", "anchors": ["packages/ic_siwe/src/hash.rs", "packages/ic_siwe/src/eth.rs: eip191_hash, derive_eth_address", "packages/ic_siwe/src/delegation.rs: generate_seed", "Cargo.lock: sha2, tiny-keccak, ic_principal"]}
{"id": "C113", "title": "Exactly which delegations are still there", "statement": "The canister's delegations form a line in the order of their logins. A login that succeeds or has its session key refused first lets at most ten leave at the head, those of logins made a minute ago or earlier; a login that succeeds then joins at the end. siwe_get_delegation answers 'Signature not found' for a session none of whose logins is in the line. For a session that has logged in once, with the logins of that nanosecond all in the line, it hands out the delegation up to a minute after the login and answers 'Signature expired' later. So for one login at its own time every answer follows from the line. The exception is a collision of hashes with another session.", "quantifier": "every history of calls, every session and every later time", "why_tests_cant": "The answer depends on all logins and refused keys so far and on how many fall due at each of them.", "anchors": ["packages/ic_siwe/src/signature_map.rs: put, prune_expired, is_expired, witness", "packages/ic_siwe/src/login.rs: login", "packages/ic_siwe/src/delegation.rs: witness"]}
{"id": "C114", "title": "How the statuses and errors change", "statement": "Preparing, signing and logging in each have a status and an error in the store. Of everything that can happen only the following changes them: a call that learns its account starts its stage and takes old errors away, a call that gets its answer ends it with success, one that fails ends it with that error, clear() resets preparing and logging in but of signing only the error, and loading the page resets all. The prepared message is replaced only by the next prepareLogin that succeeds, and goes away only by a failing login, clear() or loading. So signing shows success only if the wallet signed since the page was loaded.", "quantifier": "every state of the tab and every step of every interleaving", "why_tests_cant": "All overlaps of calls, at every await.", "anchors": ["packages/ic_siwe_js/src/index.ts: prepareLogin, login, clear", "packages/ic_siwe_js/src/context.type.ts:22-59"]}
{"id": "C115", "title": "No call is left waiting, whatever the answer", "statement": "Exactly what a call of prepareLogin() or login() waits for (the wallet's accounts, the actor, the canister's answer, the wallet's signature, or an exception) lets it go on, and from every await it goes to the next one as index.ts says: no account and an empty signature fail it with their texts, an exception with its own, a trap of the canister with 'Call failed: ' and the reason, a refusal with the canister's text; a prepared message is used instead of asking for another; the details of a login lead to the request for the delegation, and the delegation to the identity made of it, the session key and the public key of the login. No other call is moved. Every request on its way can be executed, and then has an answer.", "quantifier": "every reachable state, call, answer and exception", "why_tests_cant": "All overlaps of calls with all answers, including those that a test setup does not produce.", "anchors": ["packages/ic_siwe_js/src/index.ts: prepareLogin, login", "packages/ic_siwe_js/src/siwe-provider.ts", "packages/ic_siwe_js/src/delegation.ts"]}
