# Formal model of fluencelabs/trust-graph in Rocq

## 1. What is modelled

Layers, bottom up (all under `rocq/theories/`, logical name `Verif`):

| file | models |
|---|---|
| `Base.v` | results with explicit panics, machine integers (u8/u32/u64/i64 casts), little-endian, `std::time::Duration` |
| `Text.v` | base58 (crate bs58), decimal printing and parsing of u64, `str::lines` |
| `Keys.v` | keypair crate: key formats, public keys, signatures, key pairs, verification dispatch, peer ids |
| `Trust.v` | trust-graph/src/trust.rs |
| `Certificate.v` | trust-graph/src/certificate.rs (+ certificate_serde.rs) |
| `Relation.v` | trust-graph/src/{revoke,trust_relation,chain}.rs |
| `Storage.v` | service/src/storage_impl.rs: SQLite tables as lists of rows with text keys and i64 integers, statement by statement |
| `Graph.v` | trust-graph/src/trust_graph.rs |
| `Service.v` | service/src/{service_api,dto,misc,results}.rs |
| `Aqua.v` | aqua/{trust-graph-api,misc,labelling}.aqua: the scripts, over the stores of all nodes |
| `Instance.v` | service/src/main.rs, `create_tables`, the cell holding the graph (misc.rs): starts, stops, crashes, traps |
| `Boot.v` | builtin-package/on_start.air and on_start.json: the start script and the certificates it is shipped with |
| `Tools.v` | example/index.ts, example/aqua/computation.aqua, admin/index.ts, admin/aqua/export.aqua: the example program and the tool that makes the start data |
| `Sched.v` | the same scripts as trees of requests, any number of them running at once on all nodes under any schedule |
| `Convert.v` | the rest of the keypair crate (generation, loading, libp2p conversions, peer id serializer) and the serde forms of both crates |
| `X509.v` | reading RSA keys from X.509 SubjectPublicKeyInfo |
| `PeerId.v` | the peer ids of libp2p: multihashes, the protobuf message in them, conversions to and from keys |
| `ErrorString.v` | the conversions of errors into `String` |
| `Scan.v` | the library and the service over a database that returns rows in any order |
| `AnyStore.v` | the library over any implementation of the trait `Storage` |
| `Bincode.v` | the derived serde forms in a format without names: bincode |
| `Distro.v`, `DistroData.v` | distro/src/lib.rs: the packed start data, its serde forms, serde_json's reader and writer as far as they need it; the file admin/index.ts writes; the two data files byte for byte |
| `ErrorText.v` | the texts of the errors of all crates, `Debug` of `Duration`, the `error` field of the service's answers |
| `Spec.v`, `ServiceSpec.v`, `AquaSpec.v`, `TextSpec.v`, `InstanceSpec.v`, `BootSpec.v`, `ToolsSpec.v`, `SchedSpec.v`, `ConvertSpec.v`, `DistroSpec.v`, `ReadmeSpec.v`, `InfluenceSpec.v`, `MachineSpec.v`, `ServiceMachine.v`, `VisitorSpec.v`, `GuestsSpec.v`, `BlowupSpec.v`, `ErrorTextSpec.v`, `DisguiseSpec.v`, `TestsSpec.v`, `DamageSpec.v`, `CopySpec.v`, `CopyServiceSpec.v`, `GossipServiceSpec.v`, `ScanSpec.v`, `AnyStoreSpec.v`, `BincodeSpec.v`, `FillSpec.v`, `ClockSpec.v`, `CountSpec.v`, `MoreTrustSpec.v`, `RenewSpec.v`, `SigTextSpec.v`, `CutSpec.v`, `ServedSpec.v`, `LifeSpec.v`, `JumpSpec.v`, `BackSpec.v`, `RotateSpec.v`, `FactorSpec.v`, `ServedBackSpec.v`, `SignedSpec.v`, `ExtendSpec.v`, `JumpServedSpec.v`, `LapseSpec.v`, `SeverSpec.v`, `AnewSpec.v`, `CrownSpec.v`, `JoinSpec.v`, `RootOrderSpec.v`, `EarlySpec.v`, `PeerIdSpec.v`, `GossipSpec.v` | independent specifications used in theorem statements |
| `Toy.v`, `Witness.v`, `ServiceWitness.v`, `AquaWitness.v` | a toy signature scheme and concrete histories, for examples and refutations |
| `*Facts.v`, `*Thms.v`, `AquaTrace.v`, `AquaEx.v`, `AquaMore.v`, `TextEx.v`, `BootEx.v`, `ToolsEx.v`, `SchedSim.v`, `SchedEx.v`, `GuestsEx.v`, `ConvertEx.v`, `ExactThms.v` | proofs |
| `Props*.v` | the property theorems, each closed by `exact`, with `Print Assumptions` and examples |

Conventions.

* Bytes are `Coq.Init.Byte.byte`; strings are byte lists (UTF-8 bytes).
* `result E A := Ok | Err | Panic | OutOfFuel`. A Rust panic is the value `Panic`. `OutOfFuel` is only produced by the
  fuel-driven `while` loop of the search, where it is proved unreachable (C23), by the JSON reader, where it is unreachable
  too (C139), by the loop drawing random blocks (C126 says when it ends), and by a conversion that never returns (C184).
* Integers are `N`/`Z` with explicit wrap at every cast. Overflowing u32 `+`/`-` wraps (release semantics).
* A world is `{ db; fuse }`. Each SQL statement first consumes one unit of `fuse : option nat`; `Some 0` makes that
  statement fail with a storage error and no effect. So a history is a list of (call, fuse) pairs; every possible
  statement failure, and every crash point (a crash at a statement = a failing statement whose error nobody reads),
  is an execution of the model.
* `reachable C d` : some history of typed calls, each possibly failing at any statement, leads from the empty database to
  `d`. "Typed" only says what the Rust types say (a `PublicKey` is a valid key of the build, a `u64` is below 2^64, ...).

## 2. Oracles (external code, as a parameter of the theorems)

`crypto` (Keys.v) is a record of functions: SHA-256, point and scalar validity, signing and verification of the three
schemes, DER parsing of secp256k1 signatures, peer-id parsing, and the build target flag (RSA exists only outside wasm32).
Theorems quantify over every such record. Where a law is needed it is the explicit hypothesis `crypto_laws C`:
SHA-256 gives 32 bytes; public keys of secrets are valid; a signature made with a secret verifies under its public key
(and parses, for secp256k1); the peer id of a non-RSA key parses and gives the key back; a key found in a peer id is
valid. A toy instance is proved to satisfy all of them (`toy_laws`), so no theorem is vacuous. The two
laws about peer ids are not needed if the oracles for peer ids are the code written out in PeerId.v (C181_laws). Nothing is assumed about
unforgeability or collision resistance: C11 and C12 speak about the bytes that are hashed.

`libs` (Convert.v) is what the conversions and loaders call: the DER reader of asn1_der, ring's PKCS#8 loader, libp2p's own
parsers. `libs_laws` (ConvertSpec.v), a hypothesis of C124, C129 and C130: libp2p and the keypair crate accept the same curve
points and scalars (both use ed25519-dalek and libsecp256k1), and the DER readers read standard DER. A small reader is
proved to satisfy it (`toy_libs_laws`). The random source of key generation is an argument: any sequence of blocks. A data
format of serde is described by what it gives back for bytes (`format`).

`network` (Aqua.v) is the world of the Aqua scripts: who runs the script, the relay, who created the service of each node,
the answers of every Sig service and the database failures of every node. The theorems quantify over all of them. Clock
readings are arguments. In Aqua.v a function of the interface is run without other scripts in between. In Sched.v any number of
scripts run at once: each is a tree of requests (to a clock, a Sig service or the service of a node), and an event of a
schedule lets one script make its next request, starts a script or moves a clock. C113 relates the two.

## 3. Properties: what is modelled and how it is proved

See `properties.jsonl` for the statements and `MANIFEST.json` for the theorem names. R = the property as stated is false
of the code: the model gets a `_refuted` theorem with a concrete witness, plus theorems for the strongest part that holds;
the corrected property (C67-C85, C89, C90) restates what holds.

| id | approach |
|---|---|
| C01-C04 | algebraic round trips over all valid keys / byte lists; base58 via positional-number lemmas |
| C05 | R for long RSA keys; exact iff otherwise (C78) |
| C06 | R (zero length bytes, trailing bytes); exact characterisation of panicking inputs (C85) |
| C07 | canonicity: decode b = Ok t -> encode t = b |
| C08 | decimal + base58 round trip |
| C09, C10, C61 | characterisation of verify; create/verify from the signing law |
| C11, C12 | injectivity of the hashed message; C12 R for RSA keys, proved for ed25519/secp256k1 (C79) |
| C13 | R for secp256k1 (result of verification is dropped); exact condition for all kinds (C84) |
| C14-C16 | induction over the chain against an independent specification |
| C17, C18 | induction + signing law |
| C19 | R for issue_with_trust, exact condition (C80); proved for new_from_root_trust |
| C20 | R for 0, 1, 256.. trusts; exact iff (C78) |
| C21 | round trip of the printed text |
| C22 | R with exact characterisation (C85) |
| C23 | ranking function on chains; the fuel of the loop is always enough |
| C24 | loop invariant; independent path specification (both directions) |
| C25 | R (revocation of the direct issuer of the target is ignored); proved for all other positions (C67) |
| C26 | from C24, C27, C29; at the service (`ExtendSpec.v`) with C14, C21 and C66 |
| C27 | proved below 2^63 (C68); R above |
| C28 | proved for expiries below 2^63 (C69); R above (issue_root) |
| C29, C30, C32, C63, C64 | invariants by induction over histories with failures |
| C31 | R within one second; permutation induction otherwise (C62, with equality of all later answers from C86) |
| C33, C34 | R with witnesses; conditional versions proved (C70, C71) |
| C35, C36 | from the loop of certificates_weight_factor |
| C37 | R; conditional version (C72) |
| C38 | characterisation of add_trust |
| C39 | R; conditional version (C76) by extending or cutting the issuer's best path |
| C40 | R (no primary key); first setting wins proved (C73) |
| C41 | induction over service histories |
| C42 | R; stepwise semantics proved (C74) |
| C43 | R for issue_root; conditional version proved (C75) by induction along the chain |
| C44, C45 | from C24 and the garbage collection lemma |
| C46 | filter characterisation (C77); README reading R when the issuer is the subject |
| C47 | breadth-first level invariant |
| C48 | induction over statements |
| C49 | per call (C81); R for get_weight_from, insert_cert, insert_cert_raw |
| C50, C51 | R via insert_cert; exact bounds for all calls (C82, C83) |
| C52-C55 | algebraic / per call |
| C56, C57 | round trips; R for RSA `to_vec` and for empty inputs, as exact iffs |
| C58-C60 | case analysis; positional arithmetic for base58 |
| C65 | R for insert_cert_raw; all other calls proved total |
| C66 | every service call is split into checks and one graph call |
| C86 | a congruence: same relations and roots give the same searches up to order |
| C87 | idempotence from the import lemma; R for `add` |
| C88-C91 | symbolic execution of the scripts down to the graph calls of C38, C40 and C30 |
| C92 | the scripts are one admitted service call (C66) |
| C93 | from C24: the counted certificates are exactly the three-trust chains of the specification, and there is at most one |
| C94, C95 | every function is a short list of service calls on one node with that node's clock; then C41, C63, C64 |
| C96-C98 | R; what holds is C89, C90 and the conditional theorem of C98 |
| C99 | acceptance of texts as an iff with an independent grammar (lines, decimal, base58), by induction on texts and digit lists |
| C100 | R; the header is ignored, for all headers |
| C101 | reading as an iff with an independent layout |
| C102 | R; the exact condition is C103 |
| C103, C104 | invariants by induction over the lives of a node |
| C105 | an invariant over the certificates added so far: the trusts of all of them are stored or still newer than what is stored |
| C106 | symbolic execution of the script down to the graph calls, then C40 and C105 |
| C107 | C106 and C93 |
| C108 | the shipped data is a good family (by computation on the data), then C107; expiry of the first trust stops every `add` |
| C109 | C92 for the certificates of the relay, then the meaning of a chain |
| C110 | an invariant over the client's steps: chain intact, and for every node the last thing the client said about it |
| C111 | every helper call runs by C88's facts on messages and signatures; its output is a good family (C105), then C106, C107, C110 |
| C112 | false: counterexample; the conditional part from C91 and C109 |
| C113 | simulation: at most one request of a script (two for `add_root_trust`) touches a store, and what it does equals the whole function run alone at that moment with the clock readings and signatures the script has seen |
| C114 | induction over the tree of a script; no call of a script makes the service panic |
| C115 | the requests before the last change no store; induction over schedules |
| C116 | R; the part from the simulation of C113 |
| C117-C119 | C113 and the theorems C41, C89, C91, C94, C95 about uses one after the other |
| C120 | case analysis of the one call each function makes, `answers_as` states the effect through `graph_step` on the named node |
| C121 | serde's data model as a tree of values; structural round trip; typing and totality of the readers |
| C122 | R: case analysis over what a format gives back; the first byte of an encoded key is no base58 character |
| C123 | base58 is a bijection on its image (C99's facts), `decode` inverts `encode` |
| C124 | DER lengths are minimal by the digits of a number; buffer size equals written size; then case analysis |
| C125, C126 | R for RSA; induction over the blocks drawn |
| C127-C130 | case analysis; C128, C130 R with concrete buffers |
| C131 | base58 round trip and uniqueness |
| C132 | case analysis of one call; R for mixed key kinds, with the exact condition |
| C133 | C56 without RSA, and totality |
| C134 | state equality up to order (`alike`), induction over the chain |
| C135 | the steps of C90 with the failing branches |
| C136 | both halves of C98 as one case distinction |
| C137 | C109 and the definition of a chain |
| C138 | the writer's texts are in the grammar of RFC 8259 (DistroSpec.v), then C139 |
| C139 | soundness by induction on the reader's fuel, completeness by mutual induction on the grammar, the fuel is always enough; fields by a functional description of the slots |
| C140 | the files equal what the writer gives for the data of Boot.v (by computation), then C138, C108 |
| C141 | C138's facts with any order of members, then C111 |
| C142 | R for every output; the completed file from C138's facts |
| C143 | R; a path with a repeated key can be cut to a chain (induction on its length), then C24, C35 |
| C144 | R; a path and one more trust, cut as in C143; half the weight from the best certificate of the issuer |
| C145 | C24, C35: with one length for all roots the first certificate is the best |
| C146 | from C145; R with two lengths |
| C147 | invariant along the calls: the store holds just the trusts put in; then every chain has two trusts |
| C148 | the writes of a history keep the factor of a root |
| C149 | effects of every step (C48) keep the live relations of linked keys; chains in either store have only linked keys |
| C150 | the same for relations of other keys; a chain with the key twice can be cut |
| C151 | the same for relations about keys that lead to the key; induction from the end of the chain |
| C152 | C30, C38: a chain maps to one of the same keys; witness for the far expiry |
| C153 | the best chain without its last trust counts for the key before; witness with a revoked issuer |
| C154 | the best chain up to its first key in the set |
| C155 | simulation: each call's writes on the tables match the machine's steps, for every prefix of writes a failure leaves; induction over the history; determinism by inversion |
| C156 | C155's step lemma and C66, induction over the history |
| C157 | every write of a genuine relation keeps the relations of keys with a path; then as C149 |
| C158 | the same with the relations the key has not signed; then as C150 |
| C159 | run the calls on the machine of C155: every offer is stored, as its giver weighs at least 2; then every subset of the new keys, in order, is a certificate |
| C160 | ErrorText.v: the `#[error]` texts, with an arbitrary function for the parts made by other crates; no text of a service error is empty |
| C161 | by the first or last byte in which the texts differ; what comes before the check in each call is in the plan of ServiceFacts.v |
| C162 | as C161, by prefix. False as stated: a caller's `sig_type` begins the text about an unknown kind. `_partial`: if no kind given in the call begins so |
| C163 | `Debug` of `Duration` is modelled with its units and fractions and proved injective, also within a longer text; every function of the graph but the trust check gives other errors |
| C164 | C15 and the injectivity of decimal numbers |
| C165 | False as stated; induction over the lines gives the exact number |
| C166 | two machines of C155 in step: every operation of the machine uses keys only by equality and times only by order |
| C167 | the scenario is a list of acts and expected answers (TestsSpec.v); two casts make calls that stand for each other in the sense of C166. The first cast must be one in which a trust tells its signer |
| C168 | the tests of service/src/tests.rs are transcribed as scenarios and computed with toy keys; C167 carries them over to all keys and times |
| C169 | the database is arbitrary: any rows, any roots (their columns have the types the code writes). Every function of the model gives `Ok` or `Err` on it; false if a row lacks its issuer or signature or a root its key |
| C170 | the library runs in step on the database and on the one without the rows that do not count: a read sees the same relations, a filter commutes with the deletion of expired rows and with `INSERT OR REPLACE` |
| C171 | false as stated; what happens instead is computed |
| C172 | false as stated; the search for certificates reads the keys of all roots first |
| C173 | false as stated; the paths the search finds are those of the rows |
| C174 | runs of the abstract machine (C155): the certificates of a chain are taken on one by one because every prefix of a chain within its root's length weighs enough; afterwards the chains of both machines are the same |
| C175 | on the abstract machine: weights grow with trusts, so whatever one node takes on a settled one has, or newer; two settled nodes are each behind the other. Every round that changes something supersedes a trust that was not superseded |
| C176 | false as stated; with the revocations first by C62, C86 and C175 |
| C177 | by cases on what the DER reader returns; with its law for what is written |
| C178 | the calls of the service are those of C174 in records (C52, C66) |
| C179 | the calls are offers at various times; while nothing runs out the time of an offer does not matter; then C175, C86 |
| C180 | every query over one table in given orders is the query over a table arranged so (C62); both run the same statements in number and place |
| C181 | reading a message follows its inductive description; writing is one such message; the 42-byte bound decides by the size of the DER |
| C182 | false as stated: the two fields of the message in the other order; calls use the text only through the key read from it |
| C183 | an inlined message is read back as the key; others are digests |
| C184 | false as stated: by induction on the size of the stack no conversion returns |
| C185 | by C113 a schedule does what a sequence of whole scripts does; each is a history of calls of the service that brings only such relations; then C157 |
| C186 | as C185, then C158 |
| C187 | AnyStore.v: the graph of Graph.v over a record of the methods of the trait. AnyStoreSpec.v: the contract. A simulation: a read of the storage is a read of a database that holds the same, a failing method is a failing statement at the same place, so the traces of C180 give the fuse of every call. SQLite's storage and one in memory are proved to keep the contract, and Graph.v is proved to be the instance for SQLite |
| C188 | Bincode.v: bincode's encodings of the derived serde forms, byte by byte, and readers that take bytes from the front. Round trips compose; a reader that looks only at what it takes cannot read a proper prefix of what it reads |
| C189 | The same, with the reader of the other build: the list of variants differs, so indices do. Refuted by a key and a signature; exact answers for keys, signatures and relations; Convert.v for formats that name variants |
| C190 | Reached keys are those with a path of stored trusts from a root, expired or not. Weight of other keys is 0, so writes of `add` and `add_trust` of their trusts are only clean-ups (induction over the chain and the history). Refuted by three revocations of a stranger; any number of revocations is stored, by induction, counting rows; they stay by C64 |
| C191 | Two runs of each method, at times between which no row expires, are compared statement by statement: every method keeps a predicate of rows true (induction over the search), clean-ups at both times are the same, verification differs only in the time told. Service: the calls planned for both timestamps are the same but for the time. |
| C192 | Over ErrorText.v: a call in which a statement fails is the call without the failure or ends in the database's error (`graph_step_sem`); beginnings of all error texts compared. That callers can forge the words through the kind of a signature is C192_forged (see finding on C162). |
| C193 | A bound on statements is composed along the code: a run whose failing statement lies beyond the bound equals the run without failure. C193_least shows the bounds are least. |
| C194 | A relation between the two stores (every trust has one that is no older and lasts no less, every revocation one that is no older) is kept by each step of `trusts_more`; weights and chains are monotone along it. C194_sooner_renewal_lowers shows that the condition on renewals is needed. |
| C195 | `RenewSpec.v` says what renewing in time is, over histories with database failures. The invariant says that every step of the chain has a stored trust which lasts at least as long as the one last given; a call of add_trust meets it because its issuer has weight at that moment. C195_gap shows that a late renewal is lost. |
| C196 | The texts of `ErrorText.v`; `SigTextSpec.v` says which records are unsigned and what the message is. The message names no key or signature that the model's errors carry: these are holes filled by an arbitrary function. |
| C197 | `CutSpec.v`. After the revocations, for every pair at the border a revocation is stored that is newer than every trust of the pair which can be offered; this and that no trust crosses the border are kept by every write (`cut` in `CutThms.v`), so no path of unexpired trusts leads from a root into the set (C149). C197_root_alone shows why the revocations have to come from those who gave the trusts (finding on C25). |
| C198 | `ServedSpec.v`. The graph calls that a history of service calls asks for (`asked_all`) are a history of the graph that leaves the same store (C66); the conditions on the service calls give those of C195 on it, split by split. |
| C199 | `ServedSpec.v`. Lifted from C197 in the same way; an answer that is a list of records is read back by C66. |
| C200 | `LifeSpec.v`. Induction over the life: by C104 every event leaves the store alone or is one step of the service on it; the steps so chosen are a service history, which C156 turns into a run of the machine. |
| C201 | `JumpSpec.v`. Questions keep roots and revocations and bring nothing. A chain none of whose keys is revoked by an earlier one is taken on again trust by trust, since each prefix of it is a chain of the reduced store; every store on the way is a part of the first one, so in the end both have the same chains for the keys. At the service (`JumpServedSpec.v`) the calls ask for these graph calls, as in C178. |
| C202 | `BackSpec.v`. What a key says of another does not change its own weight (C150), so the answer is the same; a relation newer than all others of its pair replaces whatever the pair had, so the contents agree, and C86 carries this to all later answers. `ServedBackSpec.v` for the service, whose response is made from the answer of the graph to the call it asks. |
| C203 | `RotateSpec.v`. The trusts given are new pairs or newer ones and all are stored; a chain with the old key becomes a chain with the new one for it, step by step, and the revocations, which name the old key only, hide none of these; lengths agree, so weights do not fall. `ServedBackSpec.v` for the service. |
| C204 | `FactorSpec.v`. Induction over the list: each certificate costs one read of the roots table; the wrapping u32 sum is exact for certificates that fit in memory. |
| C205 | `FactorSpec.v`. Refuted on the certificates told before a revocation, and on trusts nobody signed; two lists of the same outlines run in step over stores with the same roots. |
| C206 | `ServedBackSpec.v`. A call that the service admits is one call of the graph, decided without the store (C66); its answers depend on the contents alone (C86), and so does the response made from them. |
| C207 | `Spec.v`. The first trusts of a counting chain (C24) make a chain to the key they end at; its revocations are those of the whole chain, and the one that is overlooked there, that of the direct issuer, counts when the part ends at it. Refuted on the history of C25. Lifted to the records of the service as in C198. |
| C208 | `SignedSpec.v`. By induction on the schedule the rest of every script is reached from its beginning by answers that clocks said, Sig services gave and services computed; the requests that can stand on such a way are read off the scripts, and the calls before them only compute. |
| C209 | `Spec.v`, `InfluenceSpec.v`. A counting chain (C24) with one more trust is a chain; the revocations that newly count are those of the last key and of the key before it, which was the direct issuer and is no longer overlooked. The weight of the issuer bounds the length of its shortest certificate, so the told weight is that of the longer one. `ExtendSpec.v` for the records of the service. |
| C210 | `Spec.v`. By cases on the result of signing and of the checks, none of which panics; the converse of C10, C17 and C18. |
| C211 | `LapseSpec.v`. Questions delete only what has expired at their own time (invariant over the writes of a history), so the store asked later holds exactly the trusts of the first that have not expired; with C24 at both times and C35 for the weight. Through an issuer by C46. At the service the records are those of the certificates of the graph (C66). |
| C212 | `SeverSpec.v`. The store after the call holds the relations of other pairs of keys and the revocation (C30), so a chain counts there exactly if it counted before, has no step from the author to the key, and the new revocation does not strike it; by cases on the positions. Through an issuer by C46, at the service by C66. |
| C213 | `AnewSpec.v`. The store after the call holds the relations of other pairs of keys that had not expired and the trust (C30, C38). Exchanging the trusts of that pair in a chain keeps all keys, so it keeps what counts, in both directions. Through an issuer by C46, at the service by C66. |
| C214 | `CrownSpec.v`. The table of relations stays and one root comes in, unless it was one (C40); so a chain counts after the call exactly if it counted before or begins with the key; weights by C35. Through an issuer by C46, at the service by C66. |
| C215 | `JoinSpec.v`. Whether a chain counts depends on the relations and on whether its first key is a root (C24); weights by C35, through an issuer by C46. At the service by C66. |
| C216 | `RootOrderSpec.v`. By induction on the list: the relations stay, and the roots are those of before and, for keys that were none, those of the list (C40). So permuted lists give the same contents, and C86 the same answers; at the service by C206. |
| C217 | `EarlySpec.v`. A root never lowers a weight (C214), so a trust that is taken on is taken on with the root as well; the writes of such a call do not depend on the roots and leave them alone, so they commute with the write of the root. By induction over the calls; at the service by the graph call each service call makes. |

## 4. Trusted base

* Coq 8.16.1's kernel (`coqc` and, through `vcheck`, `coqchk`), the standard library, and nothing else: no plugin, no
  other library is imported.
* `Print Assumptions` stands below every property theorem in `Props*.v` and prints "Closed under the global context" for
  each of them. `coqchk` lists, for the compiled library as a whole, only the standard library's own
  `Coq.ssr.ssrunder.Under_rel.*` module parameters, which come in through `lia`'s files and which no theorem here uses.
* The reading of the Rust code: every definition of the model cites the file and lines it models.
* The oracles of section 2 and these readings of external code: SQLite executes a statement completely or fails without
  effect; `INSERT OR REPLACE` replaces by primary key; a table without primary key keeps all rows and `SELECT` gives them
  in insertion order; integers are stored as i64 (`as i64` casts); bs58, `str::lines`, `u64::to_string`/`from_str`,
  `Duration` comparison, serde_json, bincode and serde's derived readers behave as documented; a panic in wasm traps without running destructors; libp2p-identity, multihash, unsigned-varint
  and quick-protobuf work as written in PeerId.v (their sources are not in /repo; used by C181-C183 only). Whether the host keeps
  or replaces an instance that trapped is the parameter `renews` of Instance.v (C102 is about a host that keeps it).

Not modelled: `encode_uncompressed` (private and unused), the dead module `certificate_serde::single`;
structs given to serde as sequences in formats other than bincode (Bincode.v); Debug of errors, and of their Display
the parts that other crates make (arbitrary texts in ErrorText.v); logging; the marine host functions themselves (only the call parameters they fill in);
of the TypeScript programs, connecting, reading files, and printing; the packed wasm modules and `modules()`; the Aqua compiler and the AquaVM (a script is read as a sequential program
in which `on node:` runs the enclosed calls on that node and arguments carry the tetraplets the VM gives them;
in Sched.v a request is answered at the moment it is made, and the service of a node serves one call at a time).

Simplifications, each also stated at its definition: HashSet/HashMap of keys are lists compared by key equality (C04
justifies it); errors carry their constructor and payload, their texts are a function of these (ErrorText.v); times in the service are whole seconds as
its interface has them; the order in which a search level is visited is that of the rows, which SQLite does not promise
(C180 shows that histories do not depend on it except for the order of lists; of the roots table, which has no index,
rows are read in insertion order).

## 5. Findings about the code

1. `keypair/src/secp256k1.rs`: `verify_hashed` drops the boolean result of `libsecp256k1::verify`; any DER-parsable
   signature is accepted for any message (C13).
2. `insert_cert`/`insert_cert_raw` take an unchecked time. A stranger's self-signed certificate with a time far in the
   future removes all trusts (C50) and future-dated trusts get in (C51).
3. `get_weight_from` checks the tetraplet of its issuer argument, not that of the timestamp (C49).
4. Expiries from 2^63 seconds on are stored as negative numbers and collected at once; `issue_root` makes such trusts, so
   its certificates never count (C28, C43), and renewing a trust with such an expiry takes it away (C152). Times from 2^63 on let expired trusts survive (C27).
5. A revocation of the direct issuer of the asked key is ignored (C25): such an issuer weighs nothing itself, and its trust still gives a weight (C207). A key with such a weight gives a trust: `add_trust` tells half of the weight, but the trusted key weighs nothing (C209).
6. A second `set_root` is silently ignored (C40). `revoke` with a time not newer than the stored trust reports success and
   does nothing (C33). A revoked trust can be replayed after a newer trust has come and expired (C34).
7. Weights stop at 1 instead of 0 beyond the maximum chain length (C37); `add_trust` may report a weight the key does not
   get (C39); `add` is neither atomic (C42) nor idempotent (C87).
8. Parsers panic on empty keys and signatures, trailing bytes and short texts (C06, C22, C57), which
   `insert_cert_raw` lets remote callers reach (C65). Encodings of long keys, of 1 and of more than 255 trusts do not
   decode (C05, C20). `to_vec` of an RSA key pair panics (C56).
9. Trust and revocation messages can coincide for RSA keys (C12). `issue_with_trust` does not check the trust (C19).
10. `issue_trust` takes the kind of the issuer's signature from the subject's key (C132).
11. Relations made within the same second depend on the order of import (C31).
12. `add_trust` of the Aqua interface takes the issue time from the relay's clock and the check from the node's: a relay
    ahead of the node makes it fail, and `add_root_trust` then leaves a new root behind its error (C96, C97).
13. `get_weight_from` of the Aqua interface is always refused, because of finding 3 (C98).
14. The format and version of a certificate are never checked, in text and in bytes (C100).
15. A caller who is not the owner can stop the service for all: a panicking text given to `insert_cert_raw` leaves the
    graph's cell borrowed, and every later use of the graph traps until a restart (C102).
16. The start script returns `true` last whatever failed before (C106), and the certificates it is shipped with expired on 25
    January 2025: since then it adds nothing and labels no node (C108).
17. A client whom a root has revoked still computes on the nodes the client trusts, because of finding 5 (C112). The admin
    tool does not look at the `success` of the answers it puts into certificates.
18. An `add_root_trust` that stops between its two writes leaves a root without a trust (C116).
19. The serde forms of `PublicKeyHashable` do not match: it is written as bytes and read as text, so JSON and bincode cannot
    read what they wrote (C122); an empty text panics (C123).
20. `KeyPair::generate` panics for RSA (C125). `secp256k1_from_der` erases a buffer it then refuses (C128) and accepts sequences
    that are no ECPrivateKey (C130). The conversions from libp2p hit `unreachable!` for ECDSA keys, should another crate of a
    build enable that feature.
21. The file of the admin tool cannot be packed as it is: it lacks the root and the chain length, and `KRAS_CERTS` would panic at
    its first use (C142).
22. The README and the code disagree: the weights of its example are half of the real ones (C145); trust is not transitive and
    a key without a path can have a weight, both because of finding 5 (C143, C144); nearer keys can weigh less if roots have
    different lengths (C146); the authority of a subnetwork is not in it by `get_weight_from` (C147); roots cannot be removed
    (C148).
23. `From<SQLiteStorageError> for String` calls itself and never returns (C184). Nothing in the repository uses it.
24. The search returns every chain, so n keys that trust each other in order have 2^n certificates (C159): a key that a root trusts can make `get_all_certs` and `weight` of its keys take exponential time and space with about n²/2 calls.
25. The message about an unreadable trust in a certificate text gives the number of the trust's first line, counted from 0, as "trust number" (C165): 2 for the first trust, 6 for the second.
26. The text of an error can begin with words of the caller: an unknown `sig_type` is put first, so it can be made to look like another error of the service (C162).
27. A damaged database is not contained. One row without signature or issuer makes every question whose search meets it panic, one root without key every question about certificates and weights (C169). A row whose keys or signature cannot be read is skipped by the search but blocks its pair: neither a newer trust nor a revocation can replace it before it expires (C171). One root that cannot be read makes all questions about certificates and weights, and `add_trust`, fail for all keys (C172). Signatures are not checked again when certificates are read (C173).
28. Copying a node through its API can lose certificates without an error: a certificate longer than its root allows is accepted piece by piece while another root vouches for a key on it, but `add` ignores its end later (it returns success); and with the revocations copied before the certificates, what a revoked key gave is ignored although the first store still counts it (C174).
29. Nodes that hear the same trusts and revocations can disagree for good: a trust given by a key that was revoked higher up counts for its direct receiver where it arrived before the revocation, and is never accepted where it arrived after (C176). It follows from finding 5.
30. `decode_x509` skips the first byte of the bit string without looking at it: forms that claim unused bits, and an empty bit string, are read as keys (C177). Nothing but the tests calls it.
31. When a node's records are handed on to a node whose clock is behind, that node refuses the newest revocations and gives weight to keys that have none on the first (C178).
32. Whether a node remembers a trust depends on whether it heard of it before or after a trust that it rests on ran out. When that one is renewed the nodes disagree about weights, though they were told the same records (C179).
33. A key has many accepted peer ids: the protobuf inside may have its fields in another order, and fields that are unknown or repeated (C182). Answers do not depend on it, except that `get_weight` repeats the text; but who compares peer ids as texts, as the tetraplet check does, takes them for different peers.
34. `PublicKey` and `Signature` have the variant `Rsa` only outside wasm32, in the middle. In a format that counts variants, such as bincode, which the service lists among its dependencies, a native build silently reads a secp256k1 key or signature written by a wasm32 build as RSA, a wasm32 build reads an RSA signature as secp256k1, and refuses secp256k1 ones (C189).
35. `revoke` stores every well-signed revocation, whoever signed it and whether or not either key is known, and nothing removes revocations. Anyone who can call the service can fill its table with revocations by keys made for the purpose; each adds a row that only its own signer can replace (C190). Trusts of such keys are not stored.
36. One question with a clock that runs ahead deletes every trust that expires before this time, for good. Adding again the certificates the node told before repairs this only in part: a certificate that ends with a trust given by a revoked key counted for its receiver before, but is not taken on again, because the revocation is still stored; the call is answered with success (C201).
37. `certificates_weight_factor` is public and documented to return none if some trust is revoked. It takes the certificates as they are given: revoked, expired and unsigned trusts count, and only an empty list gives none (C205). A program that calls it with certificates it did not just get from `get_all_certs` gets a weight for anything that starts with the key of a root.
38. `Certificate::issue` and `Certificate::issue_with_trust` index the first trust of the certificate they are given before checking it, so an empty one panics, although `verify` has an error for it (C210). `Trust::create` and `Revocation::create` unwrap the result of signing, so an RSA pair that cannot sign panics too.

## 6. Agreement of the model with real data

/repo/distro/init_certs.json holds twelve certificates made by the real code. With an independent ed25519 and SHA-256
(outside /verif) all their signatures verify under the message layout of `trust_signature_bytes`: SHA-256 of 0x00, key,
expiry and issue time as eight little-endian bytes each. The peer ids in labelling.aqua are, by computation in Coq, the
texts the model prints for their keys (`literal_text` in AquaThms.v).
