# Formal model of ic-siwe in Rocq (Coq 8.16.1)

The subject is the Rust code of `/repo/packages/ic_siwe` (library) and
`/repo/packages/ic_siwe_provider` (canister), the example application
`/repo/packages/test_canister`, and the TypeScript code of
`/repo/packages/ic_siwe_js` (browser client).  The model is a set of total,
computable Gallina functions that follow the Rust functions one by one; the
properties of `properties.jsonl` are theorems about those functions.

## 1. Modelling decisions

* **Bytes and strings.**  A byte is `Byte.byte`; `Vec<u8>`, `&[u8]`, `ByteBuf`
  and `String`/`&str` are all `list byte` (a Rust string is its UTF-8 bytes).
  Theorems quantify over all byte lists, a superset of the valid UTF-8 ones.
* **Integers.**  `u64`/`u32`/`usize` are `N`; `saturating_add` is written as an
  explicit minimum with 2^64-1; `x as u8` is written as an explicit `mod 256`.
* **Errors and panics.**  `Result` is the data type `result`.  A panic, trap or
  undefined behaviour is the explicit value `Trap` of type `outcome`.
* **Environment.**  `ic_cdk::api::time()`, the canister id, the caller and the
  replicated/non-replicated mode of a call are arguments of the step function.
* **Dependencies without source in /repo** are one of
  - *parameters* (record `Deps`): SHA-256, SHA-224, Keccak-256, ECDSA signature
    parsing and public-key recovery (k256), the DER check of a session key
    (simple_asn1 `from_der`), `Url::parse`, and the random stream.  Theorems hold for
    **every** `Deps` subject only to explicit length facts (`deps_ok`: the hashes return 32, 28 and 32 bytes, and so on).
    `Concrete.v` instantiates the hashes with SHA-256/SHA-224/Keccak-256 (C112: those of the standards), the
    stream and the DER check with the models of rand_chacha and simple_asn1 below, `with_k256` (Secp.v)
    puts the model of k256 into any `Deps`, `with_url` (Url.v) that of the url crate, and `Concrete.v` shows the length facts, so `deps_ok` is satisfiable by the real thing.
  - *models written from the published source of the locked version*: the
    left-leaning red-black `RbTree` and `HashTree` of ic-certified-map 0.4.0,
    std's `BinaryHeap` (sift-up / sift-down-to-bottom), the DER encoder and
    the parser of simple_asn1 0.6.2 (as far as it decides whether bytes parse), serde_cbor for the one structure used, `hex`, the RFC 3339
    formatter of `time`, `StableBTreeMap` as a finite map, `Blob<29>`,
    the text form of principals (ic_principal, crc32fast, data-encoding), and the
    generator of rand_chacha with the buffer of rand_core, and the secp256k1
    arithmetic and public-key recovery of k256 0.13.3 and ecdsa 0.16.9, and the parser
    of url 2.5.0 as far as it decides whether a text parses and which host it has, and
    the decoder and encoder of candid 0.10.9 for the types of this interface.
* **Hash collisions.**  No hash function is assumed injective.  Where a claim
  needs it, the theorem's conclusion is "the claim, or one of *these* pairs of
  byte strings is a collision", where the pairs are explicit functions of the
  inputs.
* **The canister** is a step function `step D cid now op s = (s', reply)`.
  Message execution is atomic; `Trap` restores the previous state; an `Err`
  reply commits.  `exec` is the set of traces of timed calls at non-decreasing
  times, starting before installation.  An upgrade replaces the Wasm heap
  (messages, signature map, RNG, settings, flags) and keeps stable memory and
  certified data.  The random seed arrives as a separate event that may fail.
* **The browser client** is a second step function, over a *world*: the store of one
  tab, its localStorage entry, the calls of `prepareLogin` and `login` in progress,
  and the canister.  A call is a state machine with one state per `await`; the code
  between two awaits is one atomic step, as in JavaScript.  The wallet, the agent and
  the network answer as they like, in any order, or throw.  The canister executes the
  tab's requests with the step function above, at any time, mixed with any other
  calls.  The page can be reloaded at any point, and other scripts may write the
  localStorage entry.  `runs` is the set of all such executions.

## 2. Files (rocq/theories)

Model (no proofs):

| file | content |
|---|---|
| Base | bytes, results, outcomes, string helpers |
| Deps | the record of external functions and `deps_ok` |
| Hex, Eth | hex crate, `eth.rs` |
| Hash | `hash.rs` |
| HashTree, RbTree | ic-certified-map |
| Heap | std `BinaryHeap` |
| SigMap | `signature_map.rs` |
| Time3339, Siwe | RFC 3339, `time.rs`, `siwe.rs` |
| Settings | `settings.rs` |
| Encode, Delegation | DER, CBOR, `delegation.rs` |
| PrincipalText | `Principal::to_text` and `from_text`, CRC-32, base 32 |
| Login | `login.rs`, `rand.rs`, `init.rs` |
| Provider | all of `ic_siwe_provider`, and the histories of calls `exec` |
| TestCanister | `test_canister/src/lib.rs` |
| ChaCha | `ChaCha20Rng`: rand_chacha, ppv-lite86 and the block buffer of rand_core |
| Asn1 | `simple_asn1::from_der`, the check of session keys |
| Secp | field, curve and scalar arithmetic of k256, `Signature::from_slice`, `recover_from_prehash`; `with_k256` |
| Url | `Url::parse`, `has_authority`, `host_str` of the url crate; `with_url` |
| Candid | decoding and encoding of Candid messages: the candid crate |
| Interface | the methods of the canister with their messages, the client's encoders and decoders (`ic_siwe_provider.did.js`), and the histories of messages `calls` |
| Nib, Sha2, Keccak, HashVectors, Concrete | executable hashes on words of four-bit digits (`Nib.v` is written by `tools/gen_nib.py`; tables because `coqchk` is slow on binary numbers), their test vectors; the instance `CD` used in examples |
| Client | `ic_siwe_js/src`: `index.ts`, `delegation.ts`, `local-storage.ts`, `siwe-provider.ts`, and the executions `runs` |
| Json | JSON text: `JSON.parse`, `JSON.stringify`, `serde_json::to_string` |
| SiweDisplay | `fmt::Display` of messages (`siwe.rs`) |
| Tabs | several tabs of `ic_siwe_js` in one browser: each its own store and calls, one localStorage, one canister; executions `bruns` |
| Lies | the same tabs when a replica answers `siwe_get_delegation` with anything; executions `lruns` |
| View | `ic_siwe_js/src/react/index.tsx`, `vue/index.ts`: what components are given, and the wallet of the React binding |
| Scripts, Demo | running a list of calls on the model; one 13-call history used by the examples |
| ClientDemo | running a list of client actions on the model (with the lemmas that make such a run an element of `runs`) |

Specifications, written without the model's helpers: SpecEth, SpecHash, SpecWire,
SpecTree, SpecSiwe, SpecInit, SpecTrace (the vocabulary for statements about
histories), SpecClient (the same for the client), SpecTabs (for several tabs), SpecLive (a login and what others do meanwhile), SpecAuth (what a replica checks), SpecDigest (SHA-2 and Keccak by the standards), SpecStorage (the text in localStorage), SpecFetch (the answers of siwe_get_delegation), SpecQueue (the line of kept delegations), SpecAnswers (the answers of all methods), SpecUri (URIs of any scheme, accepted configurations), SpecPanic (addresses without a host), SpecCertificate (certificates, from the root key down), SpecButton (the login button of the documentation), SpecErrors (reasons of errors), SpecStages (how statuses and errors change), SpecAnswered (what calls wait for and make of answers),
SpecPrincipal (the text of principals after the IC interface specification, ISO 3309
and RFC 4648), SpecChaCha (the keystream after RFC 8439), SpecAsn1 (BER elements after X.690),
SpecView (what components should show), SpecEcdsa (secp256k1 and ECDSA after SEC 1 and
SEC 2, Ethereum signatures after the yellow paper), SpecUrl (addresses of web sites after
the WHATWG URL standard and RFC 4291), SpecCandid (types, values, encoding and coercion after
the Candid specification, UTF-8 after RFC 3629), SpecInterface (the declarations of
`ic_siwe_provider.did`), SpecJson (JSON text after RFC 8259), SpecStored (which texts state a sign-in),
SpecGrammar (the ABNF of sign-in messages: ERC-4361, RFC 3986, RFC 3339; wallets that bind messages to pages),
SpecWhole (successful calls read off their bytes, addresses of private keys, the client's three calls).

Lemmas: BaseLemmas, *Proofs, Calendar, MapRuns, *Theory, ClientJson, ClientSeq,
ClientStatus, ClientErrors, DigestWords, DigestSha, DigestKeccak (the hash functions on digits are those of the standards on numbers), ClientLive, TabsLive, TabsOwn, ReadyProofs, PrincipalTypo, TimeShort (the RFC 3339 text of an instant is the shortest and the only one of its length); for secp256k1 Pocklington and PrimeCerts (both moduli are
prime, by certificates; PrimeCerts, CurveCert, PointCerts and TestCerts are written by tools/gen_certs.py
and hold only numbers that the proofs check), Fp (the field), CurveTower, CurveFormulas, CurveGroup (the group
law), CurveMul, CurveOrder (order and cofactor), EcdsaRecover, EcdsaBytes, EcdsaVector; for URLs
UrlNumbers, UrlHosts, UrlV6, UrlOther; for Candid CandidBase, CandidHeader, CandidMessages, CandidSound, CandidUnique, InterfaceReplies, RepliesFine; for JSON JsonStrings;
for the grammar of messages GrammarProofs.

Theorems, their concrete cases and `Print Assumptions`: PropertiesEth (C01-C06),
PropertiesHash (C07-C13), PropertiesMap (C14-C19), PropertiesSiwe (C20-C26),
PropertiesLogin (C27-C34), PropertiesDelegation (C35-C38, C48), PropertiesMappings
(C39-C43), PropertiesCalls (C44-C47, C59), PropertiesClient (C49-C58, C60),
PropertiesAuth (C61-C63), PropertiesText (C64-C66),
PropertiesRand (C67), PropertiesView (C68, C69), PropertiesKeys (C70), PropertiesEcdsa (C71-C73),
PropertiesUrl (C74-C76, and the refutations of C10, C21 and C24 without assumptions on the URL parser),
PropertiesCandid (C77-C81), PropertiesReplies (C79 for histories), PropertiesJson (C82, C83),
PropertiesWhole (C84, C85), PropertiesGrammar (C86), PropertiesPhishing (C87),
PropertiesSize (C88), PropertiesTabs (C89-C91), PropertiesTraps (C92), PropertiesLive (C93, C94), PropertiesReady (C95), PropertiesWorks (C96), PropertiesLies (C97), PropertiesOvertake (C98), PropertiesPrincipals (C99), PropertiesStored (C100), PropertiesFetch (C101), PropertiesAnswers (C102), PropertiesUri (C103), PropertiesForget (C104), PropertiesButton (C105), PropertiesShort (C106), PropertiesCertificate (C107), PropertiesPanic (C108), PropertiesReading (C109), PropertiesErrors (C110, C111), PropertiesDigest (C112), PropertiesQueue (C113), PropertiesStages (C114), PropertiesAnswered (C115), PropertiesConvert (the errors of C03).

The tests of the repository, run on the model: RepoUnitTests (the unit tests of
`packages/ic_siwe/src`, on the modelled secp256k1; TestCerts holds one more certificate for it) and
RepoIntegrationTests (`packages/ic_siwe_provider/tests/integration_tests.rs`, on the bytes of calls, with
the stand-in wallets of Scripts.v since the curve is slow to compute inside the kernel).  Each
Example bears the name of the test and states what it asserts.  The model agrees with
every test; since the code was written to pass them, they are evidence that the model was
read off correctly.  Left out: `test_cbor_serialize` of `delegation.rs` (it checks serde_cbor on a
`Vec<u8>`, which the code does not use) and the three commented-out tests.

## 3. Approach per property

| id | what is modelled, how it is proved |
|---|---|
| C01-C03 | `eth.rs` address code against an EIP-55 spec on 20-byte arrays; induction over the digits. C03's "never panics" is false for strings longer than 64 digits (index past the 32-byte hash): refuted by a witness, the rest proved. C03_complains gives the text of every error. |
| C04, C06 | `EthSignature`, `recover_eth_address`; case analysis, hex round trip. |
| C05 | framing; length of decimal + message is strictly monotone, hence injective. |
| C07 | LEB128 loop with explicit buffer index; strong induction; independent decoder. |
| C08, C09 | sorting is permutation-invariant; IC spec digest; explicit collision pairs. |
| C10 | preimage parsing. False for salts of 256 or more bytes with the URI feature: refuted by a witness; proved for salts under 256 bytes or without the feature, and for all addresses under one configuration. |
| C11, C12, C13 | injectivity via independent decoders (total length, DER, CBOR). |
| C14-C16 | LLRB tree: ordering, colour/black-height and cached-hash invariants, by induction over operations; refinement to a finite map. |
| C17 | heap order and permutation invariants of `BinaryHeap`; induction over the loop. |
| C18 | false with duplicate puts of one pair (an old queue entry prunes/expires the fresh one): refuted; proved for pairs put once. |
| C19 | invariant: every pair in the tree has a queue entry; every queue entry stems from a put. |
| C20 | calendar algorithm checked against a day-count spec for the whole finite u64 range (exhaustive kernel computation over days lifted to all timestamps) + digit lemmas. |
| C21, C22 | line parser round trip. Also: newline in a domain or URI that `Url::parse` strips breaks it (witness). |
| C23 | false (comparison inverted): refuted, with the exact characterisation. |
| C24-C26 | builder and validators against a declarative predicate. "never panics" is false (`host_str().unwrap()` runs before the scheme check): refuted relative to a `Url::parse` that behaves as documented for `file:` URLs. |
| C27-C34 | invariants over `exec` traces relating stored messages to earlier prepare events. |
| C35, C36, C38 | invariants relating tree and queue to earlier login events. C36 false with duplicates: refuted; proved when the pair is unique. |
| C37 | false: a login that fails on the session key prunes signatures without refreshing certified data. Refuted by a trace; proved for histories without such a failure, and after every successful login. |
| C39-C42 | invariants on the stable maps. C40 across upgrades that toggle flags or change the salt is false: refuted; proved for constant configuration, and from an address to its principal and back for all salts under 256 bytes: the last login of the address wrote both entries, and another address with the same principal is a collision. |
| C43, C44, C48 | step-level frame theorems, trace theorems. |
| C45, C46 | step-level and trace theorems. |
| C47 | false (prepare never prunes): refuted for every bound; C46 gives what does hold. |
| C49, C53, C54 | invariant over `runs`: facts about every call in progress, storage and store; JSON round trip of key pair and chain. |
| C50 | false (the guard looks at a status that is set later, and a refusal resets it): two refutations. |
| C51 | false after a successful login; proved for refused ones: invariant on the nonces of settled and running calls. |
| C52 | false with a login in progress: refuted; proved otherwise. |
| C55 | simulation between two runs that differ in the secrets. |
| C56 | explicit 13-step run; uses C59, C31 and C36. |
| C57, C58, C60 | invariants over `runs`; C58 false when the account changes, C60 false: refuted. |
| C59 | invariant on the seed flag. |
| C61-C63 | the replica's checks written after the IC interface specification; a hash tree with the certified root hash is a pruning of the canister's tree or a collision is at hand (Merkle soundness, by induction over both trees); the rest from C09, C12, C27, C38, C41. |
| C64 | bit lists on both sides; the byte-wise CRC equals division by the generator polynomial in a shift register, bit by bit. |
| C65 | two neighbouring characters touch at most three bytes; four bytes fit into the CRC register, so a difference inside the data changes it; a difference across the border of checksum and data is settled by computation over the 255 differences and 29 lengths. |
| C66 | from C63 and C39. |
| C67 | rows of vectors against columns of a matrix; 64-bit counter against RFC 8439 words; invariant of the buffer over the reads, including those that run over its end. |
| C68 | executions of the client together with one Vue component; invariant that names when the component was set up and mounted. False for a component set up while a status is not idle: refuted. |
| C69 | the effect of the React component as a step function over renderings and calls; invariant. False while no wallet is connected: refuted. |
| C70 | the parser against a grammar of elements, both directions by induction on the length; public keys derived in the grammar. "Only public keys" is false: refuted. |
| C71 | both moduli proved prime (Pocklington certificates); the complete addition formulas proved to compute SEC 1's chord and tangent sums, to be associative (with slopes that cover chord and tangent alike) and never to degenerate (identities between polynomials in two points, checked by computation); the base point has order n (a checked chain of additions) and, by counting points, every point is a multiple of it; so a recovered key has a private key. Then algebra modulo n. |
| C72 | C71 with C27 and C31; existence of a signature with nonce 1 or 2. |
| C73 | low s is checked; two nonces with one x-coordinate are opposite. "The same 65 bytes" is false, the last byte counts modulo 27: refuted. |
| C74 | the parser against a grammar of addresses, both directions, stage by stage (slashes, user, host, port, tail); numbers in three bases, IPv4 and IPv6 texts by induction. |
| C75 | from C74. False for user names, paths, escapes, blanks and line breaks: refuted; proved for domains without those characters. |
| C76 | from the same grammar. "On the site of the domain" is false: refuted. |
| C77 | the declared type against the type the canister reads; from C81. False for the chain id (`opt nat` against `opt nat32`): refuted. |
| C78, C81 | every message that carries values of some types (a relation between bytes, type tables and values) decodes to their coercion at the expected types; induction over types and values. |
| C79 | the encoders produce messages in that relation; then as C78, at the client's types. That the texts of replies are UTF-8 is an invariant over message histories (RepliesFine). |
| C80 | whatever decodes has the expected type (induction over the decoder); histories of messages refine histories of calls. |
| C82 | printing and reading of JSON text are inverse (induction over values); the reader accepts exactly the RFC 8259 grammar. |
| C83 | the reader of stored identities against a reading of the grammar, both directions; what `saveIdentity` writes from C53's invariant. |
| C84 | C61 (delegation to login), the login invariant (login to text), C71 (signature to private key), C80 (bytes to calls), composed. |
| C85 | C59, C72, C36 and C62 in a row on the client's own messages (C78). The certificate is chosen after the login, as it depends on the certified data. |
| C86 | the ABNF as combinators on languages. A conforming text is cut into lines by the grammar, the code's text by its own definition; comparing the lines from the end gives the equality of the fields. Dates: what the RFC 3339 reader of C20 reads is in the grammar. That every accepted configuration conforms is false: refuted by three witnesses. |
| C87 | the wallet is the relation between pages and the texts signed for them; it is asked about every text for which the signature is valid, so nothing is assumed about forgery. The first line of a text has one reading as a domain (C86). Conforming configurations are needed: refuted without by a history made with C85. |
| C88 | by induction over the operations on the signature map that a history makes: a login either removes an expired entry before it adds one, or finds none, and then every entry belongs to a login less than a minute ago. |
| C89 | each tab among several is simulated by one tab among others who write localStorage; invariant on all stores and the entry together. |
| C90 | executions annotated with the last sign-in or sign-out of any tab, which is unique; the entry states it. |
| C91 | false (no tab learns of another's sign-in or sign-out): refuted both ways; proved for a tab that was loaded after the last one elsewhere. |
| C92 | by cases on the call in a reachable state: the invariants behind C31, C36, C39 and C59 leave no other way to trap; then the reasons are read off the installs, upgrades and seeds alone. |
| C93 | induction on the actions after login(): the number of the call's own actions determines what it waits for and what the history contains of it (`at_stage`); foreign calls only lengthen the history; C59, C31 and C36 serve the three requests. |
| C94 | one tab of several sees the others as callers of the canister and writers of localStorage (`tab_sim_from`); then C93. What tabs submit was given to them or made by them (`tab_submits`), and calls of two tabs are two calls (`two_owners`). |
| C95 | as C93, by induction over the steps (`ready`), starting from the history that has the prepared message and no attempt with its nonce since. |
| C96 | from C89 the login and the fetched delegation behind what is shown; then C62, and the last login noted for the principal (`latest_exists`), whose address is the same by injectivity of seeds. |
| C97 | invariant of `lruns`: behind every call that waits for a delegation, every identity shown and the entry in localStorage is a login with this key, address and public key; what was saved is loaded unchanged or not at all (`load_saved`); then C61. |
| C98 | false: the row of the decision table of C34 depends on the session key only through `key_error`; then C29 (the owner's login), C36 and C62 (the other's delegation). In one history C28. |
| C99 | the public key of a login is the DER form of canister and seed (C33, C40), both can be read off it; `seed_input` is injective for salts below 256 bytes; collisions of SHA-224 and SHA-256 are named. |
| C100 | the invariant of C53; the text is written out in SpecStorage.v and compared with `json_text` of what is saved: no character in it needs an escape. |
| C101 | the rows of SpecFetch.v; C35 (behind every entry is a login), C36 for the first login of the session, C15 excludes the mismatch error. |
| C102 | C92 for the traps, C34 and C101 for their rows, the invariant of the generator (C67) and `init_spec` for the message, C41 for the lookups; uniqueness by TimeShort, the table of C34 being a function, and the last login being unique. |
| C103 | as C74 and C76, with the authority rules of non-special schemes (UrlOther.v: where '@', ':' and the end of the authority are found) and of `file`; `init_spec` for the configuration. IDNA and the drive letter test stay parameters. |
| C104 | the vocabulary of SpecFetch.v; the operations of each event on the map (`event_ops`); an entry leaves the queue only by a prune at its time or later, and a prune by a later login takes ten of the entries due until then, or all. |
| C105 | runs in which login() is only called in worlds where the documented button is enabled; invariant: at most one login runs, and one that knows its account shows in loginStatus. False without the two extra conditions, by a double press and by clear(). |
| C106 | the CBOR length of a witness by induction over the tree (112 bytes a level), the depth bound of balanced trees (C16), the number of entries of C88. |
| C107 | the subnets are a set of state trees for each key; the signature scheme is a parameter. Each tree in the certificate agrees with a signed state or collides with it (as in C61), so the certified data is some earlier one of the canister, and C84 applies to the history up to then. The converse is C62. |
| C108 | the parser of C103 read for the other outcome: an authority and no host. |
| C109 | the grammar of type tables and headers as relations, shown to be what the reader takes (both directions, no encoder involved); what the decoder takes or skips is a value of the type that the table gives; encodings are prefix codes, so one reading. |
| C110 | the reasons of errors as an inductive relation over the actions and the tab's own part of the history, with the texts of index.ts; an invariant over all runs that every error in a call or in the store has a reason; a step in which a call fails is looked at separately. |
| C111 | the claim as an equivalence; runs that refute it; an invariant over non-overlapping calls that a call under way has an empty error. |
| C112 | the functions of FIPS 180-4 and FIPS 202 written again on natural numbers, with padding, blocks and digest as relations and the rotation offsets and round constants from their defining rules; the words of digits are read as lists of bits, on which each operation is compared; a digest by the specification is unique, so the statement is an equivalence. |
| C113 | the line is defined on the history alone (`waiting`), without the map, the heap or hashes; the multiset of expiry times in the queue is that of the line, since a prune takes a smallest part of it and the line is sorted; entries in the queue and entries gone together are all puts, so a session with one login is in the map exactly if its entry has not gone. Logins of one nanosecond leave in an order that depends on the heap, hence the condition on them; so does the answer for a session with several logins while some of them are in the line (C101 gives the possible answers). |
| C114 | a table of what each move of a call from one await to the next does to each stage, by cases over calls and answers; the last sentence by induction over the execution. |
| C115 | the canister's replies have the form their request asks for, by induction over its history, so with C53's facts about calls every answer on its way can be read; then cases over awaits and answers. |

### What the documentation promises

| Promise (README.md of the repository and of its packages) | Properties |
|---|---|
| Ethereum wallet sign-in | C27, C31, C56, C72, C84, C85; it goes through whatever others do: C93-C95 |
| Session identities are specific to an application | C10, C12, C99 (false for salts of 256 bytes and more: C10) |
| The same wallet gets the same principal, whichever client | C33, C34, C99 |
| One-to-one mapping of addresses and principals | C39-C41, C63 (false after an upgrade that changes the salt: C40) |
| Timebound sessions | C19, C32, C48, C60, C62 |
| Sign-in messages are pruned after their lifetime | C23, C46, C47 |
| Private keys of wallets are never exposed | the canister is given addresses and signatures only; C72, C73, C98 |
| IncludeUriInSeed, DisableEthToPrincipalMapping, DisablePrincipalToEthMapping | C42, C99 |
| get_address, get_caller_address, get_principal | C39-C42, C63, C102 |
| siwe_prepare_login, siwe_login, siwe_get_delegation | C21, C22, C34, C59, C101, C102, C104, C113 |
| init sets the configuration, upgrade keeps the state | C24-C26, C43, C77, C81, C103 |
| The identity is cached and restored | C53, C54, C60, C83, C100 |
| Login progress is shown | C57, C68 (false of a Vue component set up late: C68); the login button: C105 |
| identityAddress need not be the connected wallet | C49, C58, C69 |
| clear() logs the user out | C52 (false during a login) |

## 4. Trusted base

* **Coq 8.16.1's kernel**, including its `vm_compute` reduction, and `coqchk`.
* **Axioms: none.**  `Print Assumptions` is run on every theorem listed in
  MANIFEST.json at the end of its Properties file and answers "Closed under the
  global context" each time.  `coqchk`, which lists the axioms of all *loaded*
  libraries, also names those of `Coq.ssr.ssrunder` (pulled in by a library import);
  no theorem depends on them.
* **That the Gallina functions say what the Rust code does.**  Nothing was
  extracted or run against the Rust code.  Each definition cites the lines it
  transcribes.
* **`deps_ok`**, assumed of the parameters in most theorems: SHA-256 and Keccak-256
  return 32 bytes, SHA-224 returns 28 bytes, a nonce takes 10 bytes of the random
  stream.  Proved for the executable instance in `Concrete.v`.
* Theorems that need more of a parameter say so in their statement, for instance
  `accepts_https` (the URL parser accepts `https://...` and reports its host).

### Modelled

* `packages/ic_siwe/src`: `delegation.rs`, `eth.rs`, `hash.rs`, `init.rs`,
  `login.rs`, `rand.rs`, `settings.rs`, `signature_map.rs`, `siwe.rs`, `time.rs`,
  `macros.rs` and the thread-locals of `lib.rs`.
* `packages/ic_siwe_provider/src`: `lib.rs` and all of `service/`.
* `packages/test_canister/src/lib.rs`.
* `packages/ic_siwe_js/src`: `index.ts`, `delegation.ts`, `local-storage.ts`,
  `siwe-provider.ts`, `context.type.ts`, `react/index.tsx`, `vue/index.ts`; the part of @dfinity/identity it uses
  (`toJSON`/`fromJSON` of Ed25519 key pairs and delegation chains, written from the
  published source of 2.2.0).
* From the dependencies: what section 1 lists.

### Not modelled

* Examples and build scripts.
* Of Candid: the limits on the cost of decoding and on skipped values (one limit on nesting
  stands for them), the texts of decoding errors, and the decoder of @dfinity/candid, which is
  taken to follow the same rules as the Rust one.
* Of URL parsing: names outside ASCII or with a label that starts with "xn--" (the idna
  crate, a parameter; theorems assume that a '[' in the name stays), the Windows
  drive letters of file URLs (a parameter), path, query and fragment as such.  Of the ASN.1
  parser the contents of string and time types (a parameter), the texts of its errors,
  and running out of stack on deeply nested keys.
* Of `packages/ic_siwe_js`: the creation of the agent and its verification of
  certificates.  Of React, Vue, wagmi and the xstate store only the rules that
  `View.v` states: when renderings, effects, mounting and subscriptions happen.
* In `packages/test_canister` the platform's delivery of the call: the reply is that of
  the provider, or the call fails (the Internet Computer refuses calls between canisters
  in a non-replicated query; that is a failing call here).
* Cycles, instruction limits, memory exhaustion, stable-memory layout.
* The asynchronous raw_rand call is one event at an arbitrary later time; its
  failure is an event too.  No other call of the canister is asynchronous.
* Inspection of calls before execution, and how the subnet makes its certificate: to the
  canister it is an opaque byte string.  C38 states the canister-signature conditions that
  depend on the canister; C107 adds the check of the certificate, with the BLS signature
  scheme as a parameter.

### Simplifications

Stated at each definition.  The main ones: strings are byte lists, so panics from
slicing inside a UTF-8 character are modelled only where a slice is taken at a fixed
index; `usize` arithmetic is unbounded; `StableBTreeMap` is a finite map.

In `Secp.v`: field elements and scalars are reduced integers (the crate reduces lazily),
inverses and square roots are powers by repeated squaring (the crate uses fixed addition
chains), and multiples of points are computed by doubling and adding (the crate splits
scalars by an endomorphism and uses tables).  The values are the same.

In `Candid.v`: the lengths in a message are not limited to the 32 bits of a `usize`.

In `Url.v`: the host text of an IPv6 address is left as written (the crate prints it in
canonical form; only whether there is a host is used), and the limit of 4 GiB on a URL is ignored.

In `Json.v`: a number stays as it is written, and strings are UTF-8 bytes (a lone surrogate is
its three bytes).

In the client: the expiration in localStorage is hexadecimal digits (`BigInt('0x' + x)` would also take
blanks after them, and numbers or lists that print as such digits), and a target likewise (`Principal.fromHex` skips what it does not know);
consecutive awaits of the wallet client and of its account list are one; a Candid
blob is a fresh array; a JavaScript string is its UTF-8 bytes; a number in
localStorage too small for a double is not zero; an error thrown by the agent is any byte string; an account in upper- or lower-case
spelling is passed on unchanged, as the code does.
