#!/usr/bin/env python3
"""Writes /verif/properties.jsonl. Edit the table here, then run it."""
import json, os
P = []
def p(id, title, statement, quantifier, why, anchors):
    P.append(dict(id=id, title=title, statement=statement, quantifier=quantifier, why_tests_cant=why, anchors=anchors))
S = "packages/ic_siwe/src/"
V = "packages/ic_siwe_provider/src/"

# ---- Ethereum addresses and signatures
p("C01", "Address validation is exactly EIP-55",
  "EthAddress::new accepts a string if and only if it is '0x' followed by 40 hexadecimal digits whose letter case is the EIP-55 checksum case of that address; on every other string it returns an error, and it never panics.",
  "every string (any length, any bytes)", "The input space is infinite; the tests try five strings.",
  [S+"eth.rs: EthAddress::new, convert_to_eip55"])
p("C02", "Accepted address strings and 20-byte addresses correspond one to one",
  "Every 20-byte address has exactly one accepted string, every accepted string decodes (as_bytes, as_byte_array) to exactly 20 bytes without panicking, and two accepted strings with equal bytes are the same string.",
  "every accepted string and every 20-byte array", "2^160 addresses; a single aliasing pair would let one wallet own two identities.",
  [S+"eth.rs: EthAddress::new, EthAddress::as_bytes, EthAddress::as_byte_array, bytes_to_eth_address, convert_to_eip55"])
p("C03", "EIP-55 conversion is case-insensitive and idempotent",
  "On 40-digit hex addresses, with or without '0x' and in any letter case, convert_to_eip55 returns the unique EIP-55 string of the same bytes; applying it again changes nothing. It never panics on any string.",
  "every string; every letter-casing of every address", "All casings of all addresses cannot be enumerated; panics hide at lengths no test uses.",
  [S+"eth.rs: convert_to_eip55"])
p("C04", "Signature strings are validated exactly",
  "EthSignature::new accepts a string if and only if it is '0x' followed by 130 hexadecimal digits; an accepted signature always yields exactly the 65 bytes its digits denote, without panicking.",
  "every string", "Infinite input space, including multi-byte UTF-8 at slice boundaries.",
  [S+"eth.rs: EthSignature::new, EthSignature::as_bytes, EthSignature::as_byte_array"])
p("C05", "EIP-191 framing is unambiguous",
  "The byte string that is hashed for a message is the EIP-191 personal-message framing of it, and two different messages never produce the same framed bytes.",
  "every pair of messages", "Ambiguity of a decimal length followed by free text can only be excluded for all pairs.",
  [S+"eth.rs: eip191_bytes, eip191_hash"])
p("C06", "Recovery is total and only depends on v modulo 27",
  "For every accepted signature and message, address recovery returns (never panics); it rejects every v byte whose residue modulo 27 exceeds 3, and two signatures that differ only in v bytes of equal residue behave identically; when it succeeds the result is an address string that EthAddress::new accepts.",
  "every message, every accepted signature, every recovered public key", "The panic paths (indexing, unwrap) depend on all inputs.",
  [S+"eth.rs: recover_eth_address, derive_eth_address_from_public_key"])

# ---- Hashing and encodings
p("C07", "Integers are hashed by their LEB128 encoding, within the fixed buffer",
  "For every u64 the 10-byte buffer used to encode it is never overrun, the encoded bytes are the minimal unsigned LEB128 encoding, and decoding them gives the integer back (so distinct integers have distinct encodings).",
  "every u64", "2^64 values; an out-of-bounds index would only show at the largest ones.",
  [S+"hash.rs: hash_u64"])
p("C08", "The delegation hash does not depend on map iteration order",
  "The hash of a map of fields is the same for every order in which a HashMap may iterate over its entries.",
  "every list of fields and every permutation of it", "HashMap order is randomised; tests see a few orders.",
  [S+"hash.rs: hash_of_map", S+"delegation.rs: create_delegation_hash"])
p("C09", "The delegation hash is the IC's representation-independent hash and binds every field",
  "create_delegation_hash equals the IC interface specification's message digest for a delegation (domain separator, then hash of the sorted field hashes), and two delegations with the same hash have the same public key, expiration and targets, unless two specific, explicitly named inputs collide under SHA-256.",
  "every pair of delegations, including absent/empty/any-length target lists", "Binding is a statement about all pairs.",
  [S+"delegation.rs: create_delegation_hash", S+"hash.rs: hash_of_map, hash_with_domain, hash_key_value, hash_value, hash_array"])
p("C10", "User seeds separate addresses and applications",
  "The identity seed of a user determines the salt, the address and (when enabled) the URI it was derived from: two seeds agree only if all of these agree, unless two specific inputs collide under SHA-256.",
  "every pair of (salt, address, optional URI) that settings accept", "Length-prefix ambiguity needs all lengths, including lengths over 255.",
  [S+"delegation.rs: generate_seed", S+"settings.rs: validate_salt"])
p("C11", "Pending sign-in messages are keyed injectively",
  "The key under which a sign-in message is stored determines the address and the nonce: two pairs share a key only if they are equal, unless two specific inputs collide under SHA-256. This holds for attacker-chosen nonces of every length.",
  "every pair of (address, nonce), nonce of any length", "The nonce argument of login is attacker-controlled and unbounded.",
  [S+"siwe.rs: siwe_message_map_hash"])
p("C12", "User public keys are well-formed and bind canister and seed",
  "The public key returned at login is a DER SubjectPublicKeyInfo with the canister-signature OID whose content an independent decoder reads back as exactly (canister id, seed); so distinct (canister id, seed) pairs give distinct keys.",
  "every canister id of up to 29 bytes and every 32-byte seed", "Encoders fail at particular lengths; tests use one.",
  [S+"delegation.rs: create_user_canister_pubkey"])
p("C13", "The delegation signature is decodable CBOR",
  "An independent CBOR decoder reads the signature bytes back as exactly the certificate and the hash tree that went in.",
  "every certificate (any length) and every hash tree (any depth)", "CBOR heads change form with lengths; trees are unbounded.",
  [S+"delegation.rs: create_certified_signature, cbor_serialize"])

# ---- Signature map
p("C14", "The signature map behaves as a set of (seed, delegation) pairs",
  "After any sequence of put, delete and prune operations the map can produce a witness for a pair exactly when a simple abstract set of pairs contains it.",
  "every sequence of operations with any keys and times", "Balanced-tree bugs need particular histories.",
  [S+"signature_map.rs: SignatureMap::put, delete, prune_expired, witness"])
p("C15", "Every witness reconstructs to the map's root hash",
  "For every signature map reachable by any history and every pair in it, the produced witness hashes to the map's root hash and proves the path seed-hash, delegation-hash with an empty leaf; the internal-error result (witness hash mismatch) is unreachable.",
  "every history of operations, every pair in the map", "Hash caching errors depend on the rotation history of the tree.",
  [S+"signature_map.rs: root_hash, witness", S+"delegation.rs: witness"])
p("C16", "Tree operations never fault",
  "put, delete and prune never dereference a missing node in the underlying tree, whatever the history: the tree's ordering and colour invariants are maintained by every operation.",
  "every history of operations", "Left-leaning red-black deletion relies on invariants at every depth.",
  [S+"signature_map.rs: SignatureMap::put, delete"])
p("C17", "Pruning removes exactly the oldest expired entries, at most the requested number",
  "prune_expired(now, max) removes min(max, number of entries expired at now) queue entries, removes none that is unexpired, never leaves an entry that expired strictly earlier than one it removed while budget remained, and returns the number removed.",
  "every reachable signature map, every time, every budget", "Depends on heap order after arbitrary interleavings of push and pop.",
  [S+"signature_map.rs: prune_expired, SigExpiration::cmp"])
p("C18", "A stored delegation is available for one minute",
  "A pair put into the map at time t is not reported expired and stays in the map at every time before t + 60 seconds, whatever other operations happen, as long as it is not deleted explicitly.",
  "every history of puts and prunes at non-decreasing times", "Interference from other entries and duplicate puts needs all histories.",
  [S+"signature_map.rs: put, prune_expired, is_expired"])
p("C19", "An expired delegation is never handed out",
  "A pair whose most recent put was more than 60 seconds ago never yields a witness through delegation::witness, even if it has not been pruned yet.",
  "every history of puts and prunes at non-decreasing times", "The prune budget of ten leaves stale entries in some histories only.",
  [S+"signature_map.rs: is_expired", S+"delegation.rs: witness"])

# ---- Messages and time
p("C20", "Timestamps never panic and denote the exact instant",
  "For every u64 nanosecond timestamp the RFC 3339 rendering succeeds, is a valid calendar date-time in UTC, an independent parser reads back exactly the same nanosecond, and no shorter text does.",
  "every u64", "Calendar arithmetic fails on particular days (leap centuries, year ends).",
  [S+"siwe.rs: impl From<SiweMessage> for String"])
p("C21", "The sign-in text is a faithful ERC-4361 message",
  "The text shown to the user parses, with an independent ERC-4361 parser, back to the domain, address, statement, URI, version, chain id, nonce, issued-at and expiration of the message; so two different messages never have the same text.",
  "every message whose text fields contain no line break", "Field injection is a statement about all field contents.",
  [S+"siwe.rs: impl From<SiweMessage> for String", S+"settings.rs: validate_statement"])
p("C22", "Sign-in messages carry the configured fields and lifetime",
  "A prepared message has the configured scheme, domain, statement, URI, chain id, version 1, the caller's address, the issued-at time now and expiration time now + sign_in_expires_in, capped at the largest u64 (never wrapped).",
  "every settings, address, nonce and time", "Overflow only at extreme values.",
  [S+"siwe.rs: SiweMessage::new"])
p("C23", "is_expired reports validity correctly",
  "SiweMessage::is_expired returns false exactly when the current time lies between issued_at and expiration_time.",
  "every message and time", "The comparison is wrong for almost all times but right at the one instant a test would use.",
  [S+"siwe.rs: SiweMessage::is_expired"])

# ---- Settings
p("C24", "Only valid settings are accepted",
  "SettingsBuilder::build returns Ok if and only if every documented constraint holds (domain and URI parse as URLs with a host, salt non-empty printable ASCII, chain id and both lifetimes non-zero, scheme http or https, statement without newline, targets absent or between 1 and 1000 distinct principals), the built settings are exactly those given, and it never panics.",
  "every combination of builder calls", "Validators compose; only all inputs show a gap.",
  [S+"settings.rs: SettingsBuilder, validate_*"])
p("C25", "Builder calls override defaults and each other in order",
  "After any sequence of builder calls each field holds the value of the last call that set it, or the documented default; calls on different fields do not interfere.",
  "every sequence of builder calls", "Sequences are unbounded.",
  [S+"settings.rs: SettingsBuilder"])
p("C26", "Initialisation installs exactly the requested configuration",
  "init and post_upgrade either trap or install settings that were validated, whose target list (if any) contains the canister itself, and whose feature flags are exactly those in the argument - in particular flags from before an upgrade do not survive it.",
  "every settings argument and every prior state", "Flag combinations and prior histories.",
  [V+"service/init_upgrade.rs: siwe_init, init, upgrade"])

# ---- Login protocol on the provider canister
p("C27", "Login is authenticated",
  "If siwe_login succeeds for an address, then earlier, since the last upgrade, siwe_prepare_login was called for that address and returned the same nonce together with a message, the supplied signature recovers to exactly that address over exactly that message text, and the message had not expired (unless two explicitly named inputs collide under SHA-256).",
  "every history of canister calls by any callers at non-decreasing times", "Histories are unbounded and adversarial.",
  [S+"login.rs: login, prepare_login", V+"service/siwe_login.rs: siwe_login"])
p("C28", "Sign-in messages are single-use",
  "Between a siwe_prepare_login and the siwe_login that succeeds with its message no other siwe_login for the same address and nonce got past argument validation; in particular one prepared message yields at most one successful login.",
  "every history of canister calls", "Replay requires considering every interleaving.",
  [S+"login.rs: login", S+"siwe.rs: SiweMessageMap::remove"])
p("C29", "A failed signature check burns the message and has no other effect",
  "When siwe_login is called with well-formed arguments and a signature that does not recover to the address, it returns an error, the message can no longer be used, and signatures, certified data and address mappings are unchanged; when the arguments are malformed nothing at all changes.",
  "every reachable state, every arguments", "The frame condition ranges over the whole state.",
  [S+"login.rs: login"])
p("C30", "Concurrent sign-ins do not interfere",
  "A siwe_prepare_login or siwe_login for one (address, nonce) leaves every other pending, unexpired sign-in message usable and unchanged (unless two explicitly named inputs collide under SHA-256).",
  "every reachable state, every pair of sign-ins", "Interference depends on interleavings.",
  [S+"siwe.rs: SiweMessageMap", S+"login.rs: login"])
p("C31", "A correct login succeeds",
  "After siwe_prepare_login for an address returned a message and nonce, siwe_login with that nonce, a DER session key and a signature that recovers to the address over that text succeeds at every time before the message expires, provided no upgrade and no other login attempt with that address and nonce came in between.",
  "every history and every time before expiry", "Liveness over all interleavings.",
  [S+"login.rs: login", V+"service/siwe_login.rs: siwe_login"])
p("C32", "Session lifetime is fixed at message issue",
  "The expiration returned by a successful siwe_login is the issue time of the prepared message plus session_expires_in, capped at the largest u64, and never depends on when login is called.",
  "every history with a successful login", "Overflow and timing extremes.",
  [S+"login.rs: login"])
p("C33", "A wallet always gets the same principal, and different wallets different ones",
  "Within one configuration two successful logins with the same address return the same user public key, whatever the session keys, nonces and times; two successful logins with different addresses return different public keys (unless two explicitly named inputs collide under SHA-256).",
  "every pair of successful logins in every history", "Pairs of logins in unbounded histories.",
  [S+"login.rs: login", S+"delegation.rs: generate_seed, create_user_canister_pubkey"])
p("C34", "Login results are completely determined",
  "The reply of siwe_login is given by a fixed decision table: address error, signature error, message not found, signature failure, address mismatch, session-key error, success - checked in this order - and the call never traps once the canister is initialised.",
  "every reachable state and every arguments", "Priority among errors and totality range over all inputs.",
  [S+"login.rs: login", V+"service/siwe_login.rs: siwe_login"])

# ---- Delegations
p("C35", "Delegations are only issued to logged-in sessions",
  "If siwe_get_delegation succeeds for (address, session key, expiration) then, since the last upgrade and at most 60 seconds ago, a siwe_login succeeded with the same address and session key and returned that expiration (unless two explicitly named inputs collide under SHA-256); the returned delegation carries exactly that key and expiration and the configured targets.",
  "every history of canister calls", "Forgery must be excluded for all histories.",
  [V+"service/siwe_get_delegation.rs: siwe_get_delegation", S+"delegation.rs: create_delegation, witness"])
p("C36", "A successful login's delegation can be fetched for a minute",
  "After a successful siwe_login, siwe_get_delegation with the same address, session key and the returned expiration succeeds at every time before login time + 60 seconds, whatever other calls happen in between (no upgrade).",
  "every history", "Interference by duplicate logins and pruning needs all histories.",
  [V+"service/siwe_get_delegation.rs", S+"signature_map.rs"])
p("C37", "The certified data always matches the signature map",
  "In every reachable state the hash tree returned by a successful siwe_get_delegation reconstructs to the canister's certified data, so that the signature verifies.",
  "every history of canister calls", "The stale window only appears after particular failing calls.",
  [V+"lib.rs: update_root_hash", V+"service/siwe_login.rs: siwe_login", S+"login.rs: login"])
p("C38", "A fetched delegation verifies as an IC canister signature",
  "If the certified data is in sync, the signed delegation returned by siwe_get_delegation verifies under the IC interface specification's canister-signature rules for the public key returned by siwe_login.",
  "every history", "Verification composes hash tree, CBOR, DER and domain separation for all values.",
  [V+"service/siwe_get_delegation.rs", V+"service/siwe_login.rs"])

# ---- Mappings
p("C39", "Login records the address-principal mapping in both directions",
  "After a successful siwe_login with both mappings enabled, get_address of the user's principal (and get_caller_address called by it) returns exactly the address string used to log in, and get_principal of that address returns exactly that principal.",
  "every reachable state", "Round trip through bytes and EIP-55 for every address.",
  [V+"service/siwe_login.rs: manage_principal_address_mappings", V+"service/get_address.rs", V+"service/get_caller_address.rs", V+"service/get_principal.rs"])
p("C40", "The mappings stay mutually inverse",
  "In every reachable state with both mappings enabled, get_principal(address) = p if and only if get_address(p) = address.",
  "every history, including upgrades", "Upgrades and collisions across histories.",
  [V+"service/siwe_login.rs: manage_principal_address_mappings", V+"lib.rs: PRINCIPAL_ADDRESS, ADDRESS_PRINCIPAL"])
p("C41", "Mappings only contain wallets that logged in",
  "If get_address(p) returns an address or get_principal(address) returns p, then earlier in the canister's life (possibly before upgrades) a siwe_login with that address succeeded whose public key has principal p.",
  "every history, including upgrades", "Provenance over unbounded histories.",
  [V+"service/get_address.rs", V+"service/get_principal.rs"])
p("C42", "Disabled mappings are neither served nor stored",
  "While a mapping is disabled its endpoints always return the 'disabled' error and no call writes to that mapping.",
  "every reachable state, every call", "Ranges over all calls.",
  [V+"service/siwe_login.rs: manage_principal_address_mappings", V+"service/get_address.rs", V+"service/get_principal.rs", V+"service/get_caller_address.rs"])

# ---- Upgrades, traps, growth
p("C43", "Upgrades keep mappings and drop everything transient",
  "A successful upgrade keeps both address mappings, forgets all pending sign-in messages and prepared delegations and the random generator, and replaces the settings; a trapping upgrade changes nothing.",
  "every reachable state, every upgrade argument", "Crash points and prior states.",
  [V+"service/init_upgrade.rs: upgrade", V+"lib.rs: thread_local"])
p("C44", "Trapping and query calls leave no trace",
  "Whenever a call traps, and for every query, the state is exactly as before; in particular siwe_prepare_login before the random seed has arrived traps without side effects.",
  "every state, every call", "Crash atomicity over every call.",
  [S+"rand.rs: generate_nonce", S+"init.rs: init_rng", V+"service/*.rs"])
p("C45", "Nonces come from disjoint parts of the random stream",
  "Every successful siwe_prepare_login consumes a fresh position of the generator's stream: no two prepared messages of one seeding use the same position, and every nonce is 20 lower-case hex digits.",
  "every history", "Reuse could come from trap rollback in some histories.",
  [S+"rand.rs: generate_nonce", S+"login.rs: prepare_login"])
p("C46", "Expired sign-in messages are removed at every login",
  "After any siwe_login with a well-formed address and signature no stored sign-in message is expired.",
  "every reachable state", "Ranges over all stored messages.",
  [S+"siwe.rs: SiweMessageMap::prune_expired", S+"login.rs: login"])
p("C47", "The number of stored sign-in messages stays bounded",
  "The pending-message store is pruned periodically, so its size is bounded independently of how many siwe_prepare_login calls were made.",
  "every history", "Boundedness is a statement about unbounded histories.",
  [S+"siwe.rs: SiweMessageMap", S+"login.rs: prepare_login"])
p("C48", "Delegations never outlive their configuration",
  "After an upgrade no delegation prepared before the upgrade, and no sign-in message issued before it, can be used.",
  "every history containing an upgrade", "Histories across upgrades.",
  [V+"service/init_upgrade.rs: upgrade", V+"service/siwe_get_delegation.rs", V+"service/siwe_login.rs"])

J = "packages/ic_siwe_js/src/"
p("C49", "The identity a tab shows was issued by the canister to the address it shows",
  "Whenever the client's store shows an identity, the canister answered a siwe_login for the shown address with the identity's own session key and later a siwe_get_delegation for the same address, key and expiration, and the identity is made of exactly these replies; as long as no other script writes the tab's localStorage entry.",
  "every interleaving of calls, wallet answers, canister calls, reloads and overlapping logins", "Interleavings of overlapping asynchronous calls are unbounded.",
  [J+"index.ts: login", J+"delegation.ts", J+"local-storage.ts"])
p("C50", "At most one login runs at a time",
  "While one call of login is in progress every other call is refused, so no two calls of login are ever past the point of asking for accounts.",
  "every interleaving", "Needs two calls overlapping at every possible point.",
  [J+"index.ts: login"])
p("C51", "A tab submits a sign-in message once",
  "When calls do not overlap, a tab never sends the nonce of a message it has already submitted, unless the canister hands that nonce out again.",
  "every run of non-overlapping calls", "Ranges over sequences of logins with all outcomes.",
  [J+"index.ts: login, prepareLogin"])
p("C52", "clear() signs out for good",
  "After clear() the store shows no identity and localStorage holds none, until login is called again.",
  "every interleaving", "Calls still in progress at the time of clear() can finish in any order.",
  [J+"index.ts: clear, login", J+"local-storage.ts: clearIdentity"])
p("C53", "The store and localStorage agree",
  "Once initialised, a tab either shows no identity and stores none, or stores exactly the identity, address and delegation chain it shows.",
  "every interleaving without foreign writes to localStorage", "Interleavings.",
  [J+"index.ts", J+"local-storage.ts: saveIdentity, clearIdentity"])
p("C54", "Reloading the page restores the same identity",
  "Loading the page anew and constructing the manager shows exactly the identity, address and chain shown before, including after none.",
  "every reachable state of a tab without foreign writes", "Round trip of every key pair, expiration, target list and signature through JSON.",
  [J+"index.ts: constructor", J+"local-storage.ts: loadIdentity, saveIdentity"])
p("C55", "Session secrets stay in the browser",
  "No request sent to the canister and no reply depends on the secret part of a session key: the same actions with any other secrets give the same history.",
  "every run and every replacement of the secrets", "Non-interference relates pairs of executions.",
  [J+"index.ts: login", J+"siwe-provider.ts"])
p("C56", "A login with a willing wallet and canister signs in",
  "From every state in which all calls have settled and no message is left over, one call of login, with a wallet that signs, a seeded canister and timely answers, ends with the store showing the wallet's address and an identity with the new session key, or an explicit hash collision exists.",
  "every reachable state, wallet, session key and schedule within the windows", "End-to-end liveness over all reachable states.",
  [J+"index.ts: login, prepareLogin", S+"login.rs", V+"service/siwe_login.rs", V+"service/siwe_get_delegation.rs"])
p("C57", "Statuses tell the truth",
  "loginStatus, prepareLoginStatus and signMessageStatus are busy only while a call is at that point, so a settled client never refuses a login; loginStatus is success only when an identity is shown.",
  "every interleaving", "A status could get stuck under some interleaving.",
  [J+"index.ts"])
p("C58", "The wallet is asked to sign a message made for its account",
  "Whenever login asks the wallet for a signature with an account, the text was made by the canister for that account.",
  "every interleaving", "Accounts can change between any two steps.",
  [J+"index.ts: login, prepareLogin"])
p("C59", "Once seeded, siwe_prepare_login succeeds",
  "After the first reply to raw_rand has brought a seed every siwe_prepare_login with a valid address succeeds until the next install or upgrade; after it has failed none does.",
  "every history", "The seed can arrive at any point of any history.",
  [S+"init.rs", S+"rand.rs: generate_nonce", S+"login.rs: prepare_login"])
p("C60", "An expired identity is not restored",
  "An identity whose delegation has expired is not shown again when the page is reloaded.",
  "every run", "Depends on the time between login and reload.",
  [J+"index.ts: constructor", J+"local-storage.ts: loadIdentity"])

p("C61", "No delegation is accepted without a login",
  "A delegation chain that verifies against the canister's certified data, as a replica checks it, was created by a successful login: with that session key, expiration and targets, for the address behind the public key, whose wallet had signed a text prepared by the canister; otherwise two different hash inputs with equal digests can be named.",
  "every history, every byte string offered as public key, delegation, signature and certificate", "Soundness against arbitrary forged certificates and witnesses cannot be sampled.",
  [S+"signature_map.rs", S+"delegation.rs: create_delegation_hash, create_user_canister_pubkey", S+"hash.rs", S+"login.rs: login", V+"service/siwe_login.rs"])
p("C62", "A fetched delegation is accepted until it expires",
  "What siwe_get_delegation returns after a login is accepted by the replica's checks up to its expiration at every target the settings name, as long as the certified data is in step with the signature map.",
  "every history, certificate below 2^64 bytes, time up to the expiration, and target", "Relates encoding, hashing and tree witnesses of every map.",
  [V+"service/siwe_get_delegation.rs", S+"delegation.rs", S+"signature_map.rs"])
p("C63", "The caller hears its own address",
  "A caller that is let in with a delegation and calls get_caller_address hears the address whose wallet approved its session key, even when the canister was upgraded or logins happened in between, unless a hash collision can be named.",
  "every history, accepted request and later state", "Combines all histories, configurations and forged requests.",
  [V+"service/get_caller_address.rs", V+"service/siwe_login.rs", S+"delegation.rs: generate_seed"])

p("C64", "A target text stands for at most one principal",
  "Principal::from_text, as used for the targets, accepts exactly the texts of the IC interface specification in either case: base 32 of checksum and at most 29 bytes, in groups of five; every principal has one text, and reading the text back gives the principal.",
  "every byte string and every principal", "All texts and all principals up to 29 bytes.",
  [V+"service/init_upgrade.rs: siwe_init (targets)", "packages/test_canister/src/lib.rs: init, whoami"])
p("C65", "A mistyped target does not go unnoticed",
  "If one character of a target, two neighbouring ones, or the order of two neighbouring ones is wrong, installing or upgrading fails or gives the canister the configuration that was meant.",
  "every argument, position, pair of characters and state", "All pairs of texts up to 63 characters.",
  [V+"service/init_upgrade.rs: siwe_init (targets)"])
p("C66", "The application canister tells callers who they are",
  "The pair that whoami gives to a caller let in with a delegation consists of the text of the caller's principal and the address of the wallet that approved the session key, or a hash collision can be named; after a login whoami gives that pair. The application can be installed with exactly the texts of principals, asks only the provider it was installed with, passes its errors on, and answers nobody after an upgrade, which forgets the provider.",
  "every history, accepted request and later state", "Combines all histories, configurations and forged requests.",
  ["packages/test_canister/src/lib.rs: init, whoami", V+"service/get_address.rs"])

p("C67", "Nonces are pieces of the ChaCha20 keystream",
  "The k-th nonce made after an upgrade is the lower-case hexadecimal text of bytes 12k to 12k+9 of the RFC 8439 keystream whose key is the first raw_rand reply, also where a read runs over the end of the generator's buffer; so no keystream byte serves two nonces.",
  "every 32-byte seed, every k below 2^64, every history", "A generator that repeats or shifts after refilling its buffer passes tests that make a few nonces; the buffer of 64 words is refilled after the 21st.",
  [S+"rand.rs: generate_nonce", S+"init.rs: init_rng"])

p("C68", "Components show the state of the store",
  "What the React and Vue bindings give to components agrees with the store at every moment: statuses, errors, identity, and the four flags of each status, of which exactly the one for the current status is set.",
  "every execution of the client, every time of setup and mounting", "Depends on when a component is created and mounted relative to logins in progress.",
  [J+"react/index.tsx: SiweIdentityProvider", J+"vue/index.ts: createSiweIdentityProvider", J+"context.type.ts"])

p("C69", "The React binding asks the connected wallet",
  "prepareLogin and login ask the wallet that wagmi reports as connected, whatever wallets were connected before and however often the manager was replaced; when none is connected they ask none.",
  "every sequence of renderings and calls", "Needs every order of connecting, disconnecting, re-rendering and calling.",
  [J+"react/index.tsx: useEffect", J+"index.ts: setupWalletClient, setWalletClient"])

p("C70", "Which session keys are accepted",
  "A session key is accepted exactly if it is a non-empty sequence of BER elements with definite lengths; every SubjectPublicKeyInfo is, so the browser client's keys, P-256 and secp256k1 keys and canister-signature keys are always accepted; and only public keys get a delegation.",
  "every byte string below 2^32 bytes, every history", "All nestings, lengths and tag forms; tests use one key and one non-key.",
  [S+"delegation.rs: create_delegation", J+"index.ts: login"])

p("C71", "Recovery is exact",
  "recover_eth_address returns an address for a text and a signature exactly if the signature is one that the owner of a secp256k1 private key with that address makes for the EIP-191 digest of the text; equivalently, if it passes the verification of SEC 1 under the public key, with low s and the right recovery id. No signature belongs to two keys.",
  "every text, every 65 bytes, every private key and nonce", "All keys, digests and nonces; the group law has exceptional cases that random tests do not reach.",
  [S+"eth.rs: recover_eth_address, derive_eth_address_from_public_key"])
p("C72", "Logging in takes the private key of the address, and nothing else",
  "Behind every successful login is a signature of the prepared message by a private key whose public key has the address; and for every private key the owner's address is accepted, a signature of the message exists, and with any such signature the login succeeds.",
  "every history, private key, nonce and time", "All histories, keys and nonces.",
  [S+"login.rs: login", S+"eth.rs: recover_eth_address", V+"service/siwe_login.rs"])
p("C73", "Accepted signatures cannot be altered",
  "Of the signatures (r, s) and (r, n - s) at most one is accepted, whatever the recovery id; two accepted signatures of one key for one message that share r are the same 65 bytes.",
  "every key, message and signature", "Ranges over all 2^520 signatures.",
  [S+"eth.rs: recover_eth_address"])

p("C74", "Which domains are accepted",
  "With scheme http or https the builder accepts a domain exactly if it is, by the WHATWG URL rules, the address of one site: optional user, a host name of permitted characters, an IPv4 or an IPv6 address, an optional port up to 65535, and whatever follows a slash, '?' or '#'. Others are refused with \"Invalid domain\", never with a panic. Ordinary host names are always accepted.",
  "every settings record, every domain, every installation", "All byte strings; the number, bracket and escape forms of hosts are endless.",
  [S+"settings.rs: validate_domain, build", V+"service/init_upgrade.rs: siwe_init"])
p("C75", "The domain shown to the user is the site",
  "The text that a sign-in message shows before \"wants you to sign in\" is the host name of the site the configuration is for, followed by its port if any.",
  "every accepted domain", "Needs every spelling that the URL parser reads in an unexpected way.",
  [S+"settings.rs: validate_domain", S+"siwe.rs: SiweMessage::new, From<SiweMessage> for String"])
p("C76", "The URI is an address on the site of the domain",
  "An http or https URI is accepted exactly if it names a site by the WHATWG rules; every accepted URI has a scheme; it is http or https and names the host that the domain names.",
  "every URI and every settings record", "All pairs of domain and URI.",
  [S+"settings.rs: validate_uri, build"])

p("C77", "The configuration given through the published interface is the one used",
  "A configuration written as a value of the SettingsInput type that ic_siwe_provider.did declares is, in every field, the configuration with which the canister is installed or upgraded.",
  "every configuration and every encoding of it", "Needs every type table and value; the tests call the Rust functions or use the types of the Rust code.",
  ["packages/ic_siwe_provider/ic_siwe_provider.did: SettingsInput", V+"service/init_upgrade.rs: SettingsInput, init, upgrade"])
p("C78", "Requests arrive as they were sent",
  "A message that carries arguments of the types the interface declares is decoded by the canister to exactly those arguments; the messages of the client's prepareLogin, login and getDelegation are of this kind; one message is never two requests.",
  "every method, argument and encoding", "All texts, keys and encodings, not only those of one encoder.",
  ["packages/ic_siwe_provider/ic_siwe_provider.did", J+"siwe-provider.ts", V+"service/siwe_login.rs"])
p("C79", "Replies arrive as they were given",
  "The bytes of a reply carry a value of the type the interface declares for the method, the client reads from them exactly the reply the canister gave, and different replies have different bytes.",
  "every reply of every method, every state", "All replies, including targets and errors.",
  ["packages/ic_siwe_provider/ic_siwe_provider.did", "packages/ic_siwe_js/src/ic_siwe_provider.did.js", V+"service/siwe_get_delegation.rs"])
p("C80", "Whatever bytes are sent",
  "Any bytes sent to any method are either a call with arguments in range and UTF-8 texts, or the canister traps and its state is unchanged; so nobody logs in by sending bytes without a signature over a message that the canister made, and every history of calls is a history of messages.",
  "every byte string, method, caller, state and history", "Ranges over all byte strings and all histories of them.",
  [V+"service/siwe_login.rs", V+"service/siwe_prepare_login.rs", V+"service/init_upgrade.rs"])
p("C81", "Which configuration a message gives",
  "A configuration record without a text for domain, uri and salt is refused without effect; an optional field that is left out, null or of another type counts as not given; fields with other names do not matter; one runtime feature that the canister does not know switches off all listed ones.",
  "every record type and value", "All records, with any further fields, types and nesting.",
  [V+"service/init_upgrade.rs: SettingsInput, RuntimeFeature"])

p("C82", "The printed form of a message",
  "The Display form of a message is one line of JSON text that means one value, an object with the ten fields of the message and nothing else; two different messages are never printed alike.",
  "every message, whatever characters its fields contain", "All texts in all fields, including quotation marks, backslashes and control characters.",
  [S+"siwe.rs: impl fmt::Display for SiweMessage"])
p("C83", "Which texts in localStorage sign a tab in",
  "After a reload a tab is signed in as exactly the address, session key and delegation chain that the text in localStorage states by the JSON grammar, and signed out if the text states none; the address may be any value but null, false, zero and the empty text; the text that a sign-in leaves there states exactly that sign-in.",
  "every text, every execution of the client", "All texts: blanks, escapes, order, repeated and further members, broken text.",
  [J+"local-storage.ts: loadIdentity, saveIdentity", J+"index.ts: constructor, login"])

p("C84", "Behind every request a replica accepts is the private key of the wallet",
  "If a replica accepts a request made with a session key for a user, then the owner of the private key whose address the user's principal belongs to signed a text that the canister had made, which states the configured domain, URI and chain, the address and the nonce; the session key, expiration and targets are those of the login with that signature; the login was within the sign-in window of the text, the request within the session window; unless two inputs of SHA-256 with one digest are at hand.",
  "every history of messages of any bytes, every request, delegation and certificate", "All histories of byte strings and all forged delegations at once, down to the arithmetic of the curve.",
  [S+"login.rs", S+"eth.rs", S+"delegation.rs", S+"signature_map.rs", V+"service/siwe_login.rs", V+"service/siwe_get_delegation.rs"])
p("C85", "The private key of a wallet is enough to act as its user",
  "In every history of messages in which the canister is configured and seeded, the owner of any private key gets a text from the canister, and with any signature of the key over it and a fresh session key the client's three messages give, whatever certificate the subnet issues for the certified data that the login leaves, a delegation that a replica accepts for the user of that address until the session ends, at every allowed target.",
  "every history of messages, private key, session key, signature and times within the windows", "All states that other users' messages can leave behind and all keys.",
  [S+"login.rs", S+"delegation.rs", V+"service/siwe_prepare_login.rs", V+"service/siwe_login.rs", V+"service/siwe_get_delegation.rs", J+"siwe-provider.ts"])

p("C86", "Messages conform to the ERC-4361 grammar exactly when the configured texts do",
  "A message that siwe_prepare_login returns is in the language of the ABNF of ERC-4361 (with RFC 3986 and RFC 3339) exactly when the configured domain is an authority with an optional scheme, the configured or default statement has at least one character and only reserved and unreserved characters and spaces, and the configured URI is an RFC 3986 URI; all else in it always conforms. Configurations for which it does not are accepted.",
  "every history, configuration, address, nonce and time", "All configured texts and all splits of the message into the parts of the grammar.",
  [S+"siwe.rs: From<SiweMessage> for String", S+"settings.rs: validate_domain, validate_uri, validate_statement", V+"service/siwe_prepare_login.rs"])

p("C87", "With a wallet that checks domains, only pages of the configured domain sign users in",
  "If a wallet signs ERC-4361 messages only for pages whose authority is the domain of the message, and the configured texts conform to ERC-4361, then behind every request that a replica accepts for a user is a signature that the user's wallet made for a page of the configured domain. If the configured texts do not conform, the wallet's rule does not apply and a page of another site can sign the user in.",
  "every history of messages of any bytes, every accepted request, every set of texts and pages for which the wallet signed", "All histories, all other texts for which a signature may be valid, all ways to read a text by the grammar.",
  [S+"siwe.rs: From<SiweMessage> for String", S+"settings.rs: validate_domain, validate_statement", S+"login.rs", V+"service/siwe_prepare_login.rs", V+"service/siwe_login.rs"])

p("C88", "The canister keeps no more delegations than logins fell into one minute",
  "At every moment the delegations kept in the signature map, and the entries of its expiration queue, are no more than the successful logins that fell into some one minute since the last install or upgrade; right after a siwe_login with well-formed arguments the sign-in messages kept are no more than those made within the last sign-in window.",
  "every history of calls", "All histories: how old entries, the limit of ten removals per login and new entries add up.",
  [S+"signature_map.rs: put, prune_expired", S+"login.rs: MAX_SIGS_TO_PRUNE, login", S+"siwe.rs: prune_expired"])

p("C89", "Every tab shows an identity that was issued to the address it shows",
  "With any number of tabs of one browser open on the page, sharing localStorage and nobody else writing it, the identity in any tab's store was issued by the canister, for its session key, after a login of the address shown beside it; and each tab goes through states that a tab on its own goes through by the same actions.",
  "every execution of any number of tabs and the canister", "All interleavings of several tabs, their calls, reloads and sign-outs.",
  [J+"index.ts: siweStateStore, constructor, login, clear", J+"local-storage.ts"])
p("C90", "A page that is loaded shows the last sign-in of any tab",
  "A page that is opened or reloaded and makes its manager is signed in with exactly the address and identity of the last login() that returned in any tab, if no tab has called clear() since, and shows nobody otherwise.",
  "every execution of any number of tabs and the canister", "All interleavings of several tabs, including logins that overlap in different tabs.",
  [J+"index.ts: constructor, login, clear", J+"local-storage.ts"])
p("C91", "All tabs show the same",
  "When the last thing done in any tab was to sign in, every tab with a manager shows that sign-in; when it was to sign out, no tab shows an identity.",
  "every execution of any number of tabs and the canister", "All interleavings of several tabs.",
  [J+"index.ts: constructor, clear", J+"local-storage.ts: clearIdentity"])

p("C92", "Exactly which calls trap, and outsiders cannot change it",
  "A call with well-formed arguments traps if and only if no canister is installed (and the call is not an install), or it installs or upgrades with a configuration that is refused, or it gives siwe_prepare_login a valid address before the random seed has arrived, or it is siwe_get_delegation outside a query; a message traps if and only if it does not decode or its call traps. Two histories with the same installs, upgrades and seeds agree on which calls trap, whatever else was called.",
  "every history, every call and every message", "All states that outsiders can bring about, all argument bytes.",
  ["packages/ic_siwe_provider/src/service/siwe_prepare_login.rs", "packages/ic_siwe_provider/src/service/siwe_get_delegation.rs", "packages/ic_siwe_provider/src/service/init_upgrade.rs", S+"login.rs", S+"signature_map.rs", S+"settings.rs"])

p("C93", "A login goes through whatever others do meanwhile",
  "From the call of login() on, let the wallet show one account and sign the message made for it, let nothing else be begun in the tab, let requests arrive before the message expires and within a minute after siwe_login, and let nobody else submit this tab's nonce or session key; all else - calls of the canister by anybody, logins for the same address, writes to localStorage - may happen at any point in between. Then login() never fails, its next step is always possible, and after exactly twelve steps it has returned and the tab is signed in with the account and the session key (unless the canister gives the same nonce to the same address twice, or explicitly named inputs collide under SHA-256).",
  "every interleaving of the login with actions of others", "All interleavings with any number of foreign calls.",
  [J+"index.ts: login, prepareLogin", J+"siwe-provider.ts", S+"login.rs", S+"signature_map.rs"])
p("C94", "A login in one tab goes through whatever the other tabs do",
  "The same for a login() in one of several tabs of a browser, with the other tabs signing in and out, reloading and opening at any point in between. Nothing is asked of the other tabs except that the browser makes no session key twice, and of the canister that it gives no nonce twice: tabs submit only nonces that they were given and keys that they made. Callers outside of the browser must not submit this tab's nonce or session key.",
  "every interleaving of any number of tabs and other callers", "All interleavings of several tabs.",
  [J+"index.ts: login, prepareLogin", J+"local-storage.ts"])
p("C95", "A login with a message prepared before goes through whatever others do",
  "The same for a login() that finds in the store a message which prepareLogin fetched earlier: it asks the canister for no new message, and signs in with the stored one after seven steps instead of twelve, provided that message was made for the account the wallet shows and its nonce was not submitted meanwhile.",
  "every state of the page that holds a prepared message; every interleaving of the login with actions of others", "All interleavings, any delay between prepareLogin and login within the lifetime of the message.",
  [J+"index.ts: login, prepareLogin", J+"siwe-provider.ts", S+"login.rs", S+"siwe.rs"])
p("C96", "The identity a tab shows works",
  "Whatever happened before, in however many tabs: replicas accept requests signed with the identity that a tab shows, from any canister among its targets, until it expires (if the canister was not upgraded between the login and the fetching of the delegation, and its certified data was in step, see C37); and when the identity asks the canister for its own address it is told the address that the tab shows, from the login on until the canister is installed anew, also after upgrades and whoever signs in meanwhile (if that mapping was on at the login and is on, salts are under 256 bytes, and up to named hash collisions).",
  "every run of a browser with any number of tabs; every later time and target", "All histories of logins, upgrades and other callers behind one shown identity.",
  [J+"index.ts", J+"local-storage.ts", "packages/ic_siwe_provider/src/service/siwe_login.rs", "packages/ic_siwe_provider/src/service/get_caller_address.rs", "packages/ic_siwe_provider/src/service/siwe_get_delegation.rs"])

p("C97", "A replica that lies in a query cannot change who a tab is signed in as",
  "siwe_get_delegation is a query, which a single replica answers and the client does not check. Even if such answers are anything whatever, in any number of tabs: an identity that a tab shows has the session key and the public key, hence the principal, of a successful login of the address that the tab shows; requests signed with it are accepted only if its delegation has the key, expiration and targets of a login that the canister answered with this public key (up to named hash collisions); and a page that is loaded shows what was stored, unchanged, or nothing.",
  "every run of a browser with any number of tabs in which any query of a login is answered arbitrarily", "A test answers with a few made-up delegations; the claim is for all answers and all interleavings.",
  [J+"index.ts", J+"delegation.ts", J+"siwe-provider.ts", J+"local-storage.ts", "packages/ic_siwe_provider/ic_siwe_provider.did"])

p("C98", "A wallet's signature is good for one session key only",
  "Whichever history a signature by a wallet is submitted in, siwe_login succeeds with it for one session key only: getting hold of the signature is not enough to sign in with a key of one's own.",
  "every history of calls, every signature and session key", "Two histories of one canister have to be compared, for every key.",
  [S+"login.rs", S+"siwe.rs", "packages/ic_siwe_provider/src/service/siwe_login.rs", J+"index.ts"])

p("C99", "A principal stands for one wallet, one salt and one URI at one canister",
  "Two successful logins, at one canister before and after upgrades or at two canisters, get the same principal exactly if canister, address and salt are the same and so is the URI where it is part of the seed (salts shorter than 256 bytes, no hash collision). Changing the domain, the statement, the session length or an unused URI keeps everybody's principal; changing the salt or a used URI keeps nobody's.",
  "every two histories of any two canisters, every two logins in them", "Two histories under any two configurations have to be compared.",
  [S+"delegation.rs", S+"login.rs", S+"settings.rs", "packages/ic_siwe_provider/src/service/init_upgrade.rs"])
p("C100", "A sign in leaves exactly one known text in localStorage",
  "If nobody else writes the tab's entry, it is absent or it is the JSON text with the address, the session key and its secret in clear, and the one delegation of a login and a fetch that took place: names, order, case of the digits and the expiration without leading zeros included.",
  "every run of a tab together with the canister", "The text is claimed for every key, address, expiration and list of targets.",
  [J+"local-storage.ts", J+"index.ts", J+"delegation.ts"])

p("C101", "What siwe_get_delegation answers",
  "After any history the query answers by this table: the error of an address that is not EIP-55, of an unusable session key, of expiration 0; 'Signature not found' if the session (address, key, expiration) has not logged in since the last install or upgrade; the delegation if all its logins are less than a minute old; 'Signature not found' or 'Signature expired' if all are more than a minute old (only if it logged in several times, or in the nanosecond exactly a minute after, both are possible). The internal hash mismatch error never occurs. Named hash collisions are the only exception.",
  "every history of calls, every time and arguments of the query", "All histories of logins, prunings and failed calls have to be considered.",
  ["packages/ic_siwe_provider/src/service/siwe_get_delegation.rs", S+"delegation.rs", S+"signature_map.rs"])
p("C102", "The history determines every answer",
  "After any history, every call is answered by a table over the calls made before: it traps exactly for the named reasons; siwe_prepare_login answers the error of the address or one message, written out in full with the configured fields, the shortest RFC 3339 texts of the two instants and the n-th nonce of the seed as its nonce; siwe_login and siwe_get_delegation answer by C34 and C101; get_address, get_caller_address and get_principal answer that the mapping is off, that the argument is unusable, the last login recorded for the argument, or that there is none. For all calls but siwe_get_delegation the table leaves exactly one answer (up to the wording of a trap).",
  "every history of calls, every further call at every time", "It is a statement about all histories and all arguments of all methods.",
  ["packages/ic_siwe_provider/src/service", S+"login.rs", S+"siwe.rs", S+"rand.rs"])
p("C103", "Exactly which URIs and which configurations are accepted",
  "A URI is accepted exactly if, after blanks in front, it has a scheme in any casing and then: for http, https, ws, wss and ftp the text of a web address; for file two slashes and a host other than localhost; for every other scheme two slashes, an optional user, a non-empty host without forbidden characters and a port. Everything else is refused with 'Invalid URI'. The canister can be installed and upgraded exactly with arguments whose scheme is http or https, whose domain is a web host, whose URI is such a text, whose salt is printable and not empty, whose statement is one line, whose numbers are not 0 and whose targets, if given, are at most 1000 different principals in text form including the canister; with any other argument the call traps and nothing changes.",
  "every text as URI, every argument of init and post_upgrade, every state of the canister", "The set of accepted texts is infinite and its complement too.",
  [S+"settings.rs: validate_uri, build", V+"service/init_upgrade.rs"])

p("C104", "When a delegation is forgotten",
  "For a session that has logged in once since the last install or upgrade: as long as no login that succeeds or has its session key refused has happened a minute or more after it, siwe_get_delegation hands out the delegation up to and including the nanosecond one minute after the login, and answers 'Signature expired' from then on. After k successful logins made a minute or more after it, it answers 'Signature not found' as soon as at most 10 k logins were made up to the time of the session's login. The exception is a collision of hashes with another session.",
  "every history of calls, session with one login, later time and number of later logins", "Depends on every login before and after; a test sees one pattern of times.",
  [S+"signature_map.rs: prune_expired, is_expired", S+"delegation.rs: witness", V+"service/siwe_login.rs", V+"service/siwe_get_delegation.rs"])

p("C105", "The documented login button",
  "If login() is only called by the button of the documentation (enabled while no login is under way and a message is prepared), no press is turned away for coming at a wrong time, and at most one login is under way at a time.",
  "every run of a tab in which login() is called only while the button is enabled", "The claim is for every interleaving of presses with the steps of earlier calls.",
  ["packages/ic_siwe_js/README.md:124-136", J+"index.ts: login, prepareLogin, clear"])

p("C106", "The signature of a delegation is short",
  "After any history, a signature that siwe_get_delegation returns is at most 77 + 448 log2(n+1) bytes longer than the replica's certificate, where n successful logins fell into some one minute since the last install or upgrade: other users' logins make it grow with their logarithm only, and old logins do not count.",
  "every history of calls; every answer of siwe_get_delegation", "The bound depends on the tree staying balanced through all insertions and deletions.",
  [S+"signature_map.rs", S+"delegation.rs", "packages/ic_siwe_provider/src/service/siwe_get_delegation.rs", "Cargo.lock: ic-certified-map"])

p("C107", "A replica that knows only the root key accepts a delegation only with a login behind it",
  "If a canister signature passes the checks of the interface specification from the root key down (the certificate, its subnet delegation and canister ranges, the certified data, the tree, the delegation), and the subnets sign only their own states, then behind it are a login in the canister's history and the private key of the wallet, however old the certificate is; unless two inputs of SHA-256 with one digest are at hand. Conversely a fetched delegation whose certificate is good passes these checks until it expires, whatever happens to the canister later.",
  "every history of messages, every request, delegation and certificate, every network of subnets and signature scheme", "All forged certificates and trees at once, and certificates from any time in the past.",
  [S+"delegation.rs: create_certified_signature", S+"signature_map.rs", V+"service/siwe_get_delegation.rs", V+"lib.rs: update_root_hash"])
p("C108", "Building the settings panics exactly on addresses without a host",
  "SettingsBuilder::build panics if and only if the configured scheme and domain, joined by '://', are by the WHATWG URL rules an address with an authority but no host: a file address without a host or with the host localhost, or one of a non-special scheme whose '//' is at once followed by the path, the query, the fragment or the end (a user written as nothing or as ':' apart); the other settings do not matter.",
  "every scheme, domain and other setting", "The texts that reach the unwrap are scattered over all schemes, users and paths.",
  [S+"settings.rs: validate_domain, SettingsBuilder::build", "Cargo.lock: url"])
p("C109", "Which messages are calls",
  "A message without a well-formed Candid header (magic bytes, a type table whose references are inside it, with field numbers and method names in rising order and methods of function type, and a list of argument types) is refused. With one that lists data types, the call runs exactly if the remaining bytes are values of these types that give the method its arguments; else the canister traps and its state is unchanged. Numbers may be written longer than necessary, further types and arguments are ignored, and no message can be read in two ways.",
  "every byte string, method, caller and state, every type table and all values nested no deeper than the decoder's limit", "All byte strings, valid and invalid, against all type tables.",
  [V+"service/siwe_login.rs", V+"service/siwe_prepare_login.rs", V+"service/siwe_get_delegation.rs", V+"service/init_upgrade.rs", "Cargo.lock: candid"])
p("C110", "Every error has its reason",
  "Whatever error prepareLogin() or login() throws or the store shows, it is the text with which the canister refused one of the tab's own requests or trapped on it, the text that the wallet or the agent threw, or one of the four texts of the client with its occasion (no account, no signature, login called during prepareLogin, login called during login). A login that fails puts its error and the status \"error\" into the store in the same step, drops the prepared message, and changes neither who is signed in nor localStorage.",
  "every interleaving of calls, answers and faults", "An error could be lost or taken from another call under some interleaving.",
  [J+"index.ts: prepareLogin, login", J+"siwe-provider.ts"])
p("C111", "A status is \"error\" exactly when there is an error to show",
  "loginError, prepareLoginError and signMessageError are set exactly when loginStatus, prepareLoginStatus and signMessageStatus are \"error\".",
  "every interleaving", "Ranges over all overlaps of calls.",
  [J+"index.ts: prepareLogin, login, clear", J+"context.type.ts:22-59"])

p("C112", "The digests are those of the standards",
  "With the hash functions of the concrete dependencies the seed of a user is the SHA-256 of FIPS 180-4 of salt, address and URI with their lengths, the hash a wallet signs and the address of a key are made with Keccak-256 (FIPS 202 with the original padding), and a principal is the SHA-224 of the public key and a byte 02: on every input these functions return the one digest that the standards describe, and the constants of SHA-2 are the fractions of roots of primes.",
  "every byte string", "Test vectors cover a few lengths; the statement is about all messages of all lengths.",
  [S+"hash.rs", S+"eth.rs: eip191_hash, derive_eth_address", S+"delegation.rs: generate_seed", "Cargo.lock: sha2, tiny-keccak, ic_principal"])

p("C113", "Exactly which delegations are still there",
  "The canister's delegations form a line in the order of their logins. A login that succeeds or has its session key refused first lets at most ten leave at the head, those of logins made a minute ago or earlier; a login that succeeds then joins at the end. siwe_get_delegation answers 'Signature not found' for a session none of whose logins is in the line. For a session that has logged in once, with the logins of that nanosecond all in the line, it hands out the delegation up to a minute after the login and answers 'Signature expired' later. So for one login at its own time every answer follows from the line. The exception is a collision of hashes with another session.",
  "every history of calls, every session and every later time", "The answer depends on all logins and refused keys so far and on how many fall due at each of them.",
  [S+"signature_map.rs: put, prune_expired, is_expired, witness", S+"login.rs: login", S+"delegation.rs: witness"])

p("C114", "How the statuses and errors change",
  "Preparing, signing and logging in each have a status and an error in the store. Of everything that can happen only the following changes them: a call that learns its account starts its stage and takes old errors away, a call that gets its answer ends it with success, one that fails ends it with that error, clear() resets preparing and logging in but of signing only the error, and loading the page resets all. The prepared message is replaced only by the next prepareLogin that succeeds, and goes away only by a failing login, clear() or loading. So signing shows success only if the wallet signed since the page was loaded.",
  "every state of the tab and every step of every interleaving", "All overlaps of calls, at every await.",
  [J+"index.ts: prepareLogin, login, clear", J+"context.type.ts:22-59"])

p("C115", "No call is left waiting, whatever the answer",
  "Exactly what a call of prepareLogin() or login() waits for (the wallet's accounts, the actor, the canister's answer, the wallet's signature, or an exception) lets it go on, and from every await it goes to the next one as index.ts says: no account and an empty signature fail it with their texts, an exception with its own, a trap of the canister with 'Call failed: ' and the reason, a refusal with the canister's text; a prepared message is used instead of asking for another; the details of a login lead to the request for the delegation, and the delegation to the identity made of it, the session key and the public key of the login. No other call is moved. Every request on its way can be executed, and then has an answer.",
  "every reachable state, call, answer and exception", "All overlaps of calls with all answers, including those that a test setup does not produce.",
  [J+"index.ts: prepareLogin, login", J+"siwe-provider.ts", J+"delegation.ts"])

here = os.path.dirname(os.path.abspath(__file__))
with open(os.path.join(here, "..", "properties.jsonl"), "w") as f:
    for x in P:
        f.write(json.dumps(x, ensure_ascii=True) + "\n")
print(len(P))
