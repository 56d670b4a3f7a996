{"id": "C01", "title": "Public key binary round trip", "statement": "For every public key of every supported kind, PublicKey::decode(PublicKey::encode(k)) returns exactly k, and every byte string that decodes successfully re-encodes to the same bytes (one key has one encoding).", "quantifier": "all public keys of all three kinds, all byte strings, both build targets (native and wasm32)", "why_tests_cant": "Unit tests sample a few freshly generated keys; canonicity must hold for every byte string an attacker may send.", "anchors": ["keypair/src/public_key.rs: PublicKey::encode, PublicKey::decode", "keypair/src/key_pair.rs: KeyFormat::try_from"]}
{"id": "C02", "title": "Signature binary round trip", "statement": "Signature::decode(Signature::encode(s)) returns s for every signature of every kind and length, and any bytes that decode successfully re-encode to the same bytes.", "quantifier": "all signatures, all byte strings", "why_tests_cant": "The existing test uses one ten-byte signature per kind.", "anchors": ["keypair/src/signature.rs: Signature::encode, Signature::decode"]}
{"id": "C03", "title": "Textual identity of keys", "statement": "The base58 text of a public key (Display of PublicKeyHashable, and the text used as database key) parses back to exactly that key; two different keys never have the same text.", "quantifier": "all pairs of valid public keys", "why_tests_cant": "Injectivity quantifies over all pairs of keys; a collision would merge two peers in the store.", "anchors": ["trust-graph/src/public_key_hashable.rs: Display, FromStr", "keypair/src/public_key.rs: PublicKey::from_base58"]}
{"id": "C04", "title": "Hash/Eq consistency of PublicKeyHashable", "statement": "Two PublicKeyHashable values feed the same bytes to a hasher if and only if they are equal, so HashSet/HashMap membership coincides with key equality.", "quantifier": "all pairs of valid public keys", "why_tests_cant": "Quantifies over all pairs of keys.", "anchors": ["trust-graph/src/public_key_hashable.rs: Hash"]}
{"id": "C05", "title": "Trust binary round trip", "statement": "Trust::decode(Trust::encode(t)) returns t for every trust (with whole-second times) about any key the library accepts.", "quantifier": "all trusts, all key kinds, all signature lengths, all u64 timestamps", "why_tests_cant": "The only test round-trips one ed25519 trust; length bytes are truncated to u8 so the property depends on sizes tests never reach.", "anchors": ["trust-graph/src/trust.rs: Trust::encode, Trust::decode"]}
{"id": "C06", "title": "Trust::decode is total", "statement": "Trust::decode returns Ok or Err on every byte string and never panics.", "quantifier": "all byte strings", "why_tests_cant": "Malformed inputs are unbounded in number; no test feeds malformed bytes.", "anchors": ["trust-graph/src/trust.rs: Trust::decode", "keypair/src/public_key.rs: PublicKey::decode", "keypair/src/signature.rs: Signature::decode"]}
{"id": "C07", "title": "Trust::decode accepts only what encode produces", "statement": "If Trust::decode(b) succeeds with t, then Trust::encode(t) is b: no two byte strings decode to the same trust.", "quantifier": "all byte strings", "why_tests_cant": "Needs all byte strings.", "anchors": ["trust-graph/src/trust.rs: Trust::encode, Trust::decode"]}
{"id": "C08", "title": "Trust text round trip", "statement": "The four lines printed by Trust::to_string, passed to Trust::convert_from_strings, give back the same trust (whole-second times).", "quantifier": "all trusts about any accepted key, all u64 timestamps", "why_tests_cant": "Base58 and decimal printing/parsing must agree for every number and byte string.", "anchors": ["trust-graph/src/trust.rs: to_string, convert_from_strings"]}
{"id": "C09", "title": "Exact acceptance condition of Trust::verify", "statement": "Trust::verify(t, issuer, now) succeeds exactly when t.expires_at is not before now and the issuer's key accepts t's signature over the key, expiry and creation time of t; an expired trust is reported as Expired whatever its signature.", "quantifier": "all trusts, issuers, times including sub-second ones and the boundary expires_at = now", "why_tests_cant": "Boundary and error-priority behaviour must hold for all times; tests check two instants.", "anchors": ["trust-graph/src/trust.rs: Trust::verify"]}
{"id": "C10", "title": "A trust verifies under its creator until it expires", "statement": "Trust::create(kp, k, exp, iat) followed by Trust::verify with kp's public key succeeds at every time not later than exp and fails with Expired at every later time.", "quantifier": "all key pairs of all kinds, all keys, all times", "why_tests_cant": "Quantifies over all times and key pairs.", "anchors": ["trust-graph/src/trust.rs: Trust::create, Trust::verify"]}
{"id": "C100", "title": "Certificates of other versions are rejected", "statement": "A text or byte string that announces a format or version other than the current one is not read as a certificate.", "quantifier": "all headers", "why_tests_cant": "All headers.", "anchors": ["trust-graph/src/certificate.rs: from_str, decode, FORMAT, VERSION"]}
{"id": "C101", "title": "The byte layout of keys, signatures, trusts and certificates", "statement": "A key and a signature are a format byte (0, 1, 2) and the raw bytes. The peer id of an ed25519 or secp256k1 key is the identity multihash of its two-field message. A trust is the length of the key, the key, the length of the signature, the signature, and expiry and time of issue in seconds as eight bytes each, least significant first; it is read exactly if so written. A certificate is six zero bytes, the number of trusts, and each trust after its length; it is read exactly if so written with at least two trusts, whatever the first six bytes are and whatever follows. A trust signs the SHA-256 of key, expiry and time of issue; a revocation that of the length of the key, the key and its time.", "quantifier": "all keys, signatures, trusts and certificates of both builds, all byte strings", "why_tests_cant": "All values and all byte strings; other implementations rely on the layout.", "anchors": ["keypair/src/public_key.rs: encode, decode", "keypair/src/signature.rs: encode, decode", "trust-graph/src/trust.rs: encode, decode, signature_bytes", "trust-graph/src/certificate.rs: encode, decode", "trust-graph/src/revoke.rs: signature_bytes"]}
{"id": "C102", "title": "One call by anyone does not stop the service for others", "statement": "After any call by any caller, whatever its arguments, the running service goes on answering later calls.", "quantifier": "all calls, all later sequences of calls, all reachable stores", "why_tests_cant": "All later histories.", "anchors": ["service/src/misc.rs: INSTANCE, with_tg", "service/src/service_api.rs: insert_cert_raw"]}
{"id": "C103", "title": "When the running service answers", "statement": "While the database can be opened, a running service answers every call with a response, except a use of the graph in or after an insert_cert_raw whose text makes the certificate parser panic; starting it again ends this. If the node replaces an instance that trapped, only the call with such a text goes unanswered. Calls that only compute always answer. If the database cannot be opened, a use of the graph goes unanswered and changes nothing, until the first use with a database that can be opened; later failures to open do not matter until the next start.", "quantifier": "all lives of the node: starts failing at any step, stops, crashes and calls by anyone, each failing at any statement", "why_tests_cant": "All histories and schedules of failures.", "anchors": ["service/src/main.rs: main", "service/src/misc.rs: INSTANCE, with_tg, wrapped_try", "service/src/service_api.rs: all functions"]}
{"id": "C104", "title": "Restarts and crashes lose and invent nothing", "statement": "Over any life of the node, with starts failing at any step, stops, crashes in the middle of calls and calls that trap, the stored relations and roots are what some history of service calls leaves; starting, stopping and trapping change no row; a service that runs has both tables; and every answer is the answer of the service on the store.", "quantifier": "all lives of the node, all crash points", "why_tests_cant": "All crash points and histories.", "anchors": ["service/src/main.rs: main", "service/src/storage_impl.rs: create_tables", "service/src/misc.rs: INSTANCE, with_tg"]}
{"id": "C105", "title": "Certificates added together all count", "statement": "Take certificates of one root, each within the root's length, without repeated keys, well signed and not expired at any of the times used, in which two trusts of one key for another are the same, and which the store neither outdates nor revokes. Added one after the other without database failures every add succeeds, afterwards each certificate is returned for its last key until it expires, exactly their trusts were added, and the same certificates may be added again later.", "quantifier": "all reachable stores, all such lists of certificates of any length and times, all later times", "why_tests_cant": "Sharing of trusts between certificates makes each add depend on all earlier ones.", "anchors": ["trust-graph/src/trust_graph.rs: add, add_trust, get_all_certs"]}
{"id": "C106", "title": "What the start script of a node does", "statement": "The start script always ends and returns [true] last, preceded by one error for each failed call, whatever the database does and whoever runs it. Run by the owner, without failures, with certificates good for the store and the root unset or set with length 5, it returns only [true]; then the Fluence root is a root with length 5, exactly the offered trusts were added and every certificate counts until it expires; running it again with the same certificates before they expire returns [true] and adds nothing. Run by anyone else it reports that first and adds no root.", "quantifier": "all reachable stores, callers, lists of certificates, clock readings, database failures", "why_tests_cant": "All stores, failures and certificates.", "anchors": ["builtin-package/on_start.air", "service/src/service_api.rs: set_root, insert_cert"]}
{"id": "C107", "title": "Which nodes the start script labels", "statement": "After the owner's good start a node to which one of the certificates leads over the label key is told by isFluencePeer that it is a Fluence peer, until the certificate expires; after a start from an empty store exactly the nodes other than the root are to which the label key gives a trust in some certificate, provided the root gives the label key one.", "quantifier": "all lists of certificates, nodes, clock readings, reachable stores", "why_tests_cant": "All certificates and stores.", "anchors": ["builtin-package/on_start.air", "aqua/labelling.aqua: isFluencePeer"]}
{"id": "C108", "title": "What the shipped start data does", "statement": "With the certificates shipped in on_start.json, if their keys are valid and their signatures verify, a new node started before 25 January 2025 (1737828468) is told before then that it is a Fluence peer exactly if it is one of their eleven nodes. Started later, on any store, all twelve certificates are refused with an error, nothing is stored, and the script still ends with [true].", "quantifier": "all clock readings, callers, stores and failures of the database, all nodes", "why_tests_cant": "All clock readings and stores.", "anchors": ["builtin-package/on_start.air", "builtin-package/on_start.json", "distro/init_certs.json"]}
{"id": "C109", "title": "When the example computation runs", "statement": "trusted_computation runs exactly if, in the relay's store at the relay's clock, some certificate for the node has the caller's key in it, and otherwise says that there is none; it fails only if the database fails and changes only expired trusts of the relay. A node the caller has revoked is refused; a node the caller trusts, whose trust and chain have not expired and are not revoked, is not.", "quantifier": "all callers, nodes, clock readings, reachable stores, database failures", "why_tests_cant": "All stores and clock readings.", "anchors": ["example/aqua/computation.aqua: trusted_computation"]}
{"id": "C11", "title": "Signed message determines the trust", "statement": "The bytes that are hashed and signed for a trust determine the key, the expiry second and the creation second; so (barring hash collisions) a signature for one trust is not a signature for a trust with a different key, expiry or creation second.", "quantifier": "all pairs of trusts", "why_tests_cant": "Injectivity over all pairs of inputs.", "anchors": ["trust-graph/src/trust.rs: Trust::signature_bytes"]}
{"id": "C110", "title": "Grants and revocations of a client take effect", "statement": "A client with a chain from a root, shorter than the root allows and in which no key has revoked another, who adds a trust for a node on the relay can from then on compute there until the trust or the chain expires, and who revokes a node is refused for it from then on, without effect on other nodes. So the example program gives, with a clock that does not go back, three refusals, then refused, allowed, allowed, then refused, refused, allowed.", "quantifier": "all clients, nodes, chains, reachable stores, clock readings in order", "why_tests_cant": "All stores and clock readings; the steps depend on each other's stored times.", "anchors": ["example/index.ts: main, add_new_trust_checked, revoke_checked, revoke_all", "example/aqua/computation.aqua: trusted_computation", "aqua/trust-graph-api.aqua: add_trust, revoke"]}
{"id": "C111", "title": "What the certificates of the admin tool do", "statement": "The admin tool always ends, changes no store and writes one certificate for the client of the example and one per node, each trust signed by the key above it and valid for two years. A new node started with them comes up without an error; until they expire exactly the nodes the tool was given are told that they are Fluence peers, and the example program run by the client gives what it should.", "quantifier": "all key pairs, lists of distinct nodes, clock readings, later starts", "why_tests_cant": "All lists of nodes and clock readings.", "anchors": ["admin/index.ts: main, issue_trust_helper", "admin/aqua/export.aqua", "builtin-package/on_start.air"]}
{"id": "C112", "title": "Revoking a client ends its grants", "statement": "After a key of the client's chain has revoked a client, the client can compute on no node.", "quantifier": "all clients, revokers, nodes, reachable stores", "why_tests_cant": "All stores.", "anchors": ["example/aqua/computation.aqua: trusted_computation", "aqua/trust-graph-api.aqua: revoke", "trust-graph/src/trust_graph.rs: get_all_certs"]}
{"id": "C113", "title": "Scripts that run at once act one after the other", "statement": "However the requests of any number of scripts of the Aqua interface are mixed, with clocks moving in between, the stores of all nodes and the answers of the scripts that have returned are at every moment those of a sequence of uses made alone, one after the other, each with clock readings that were really given. The sequence only grows, by one use at a step of the script the use is of. Only add_root_trust counts as two uses, set_root and then add_trust.", "quantifier": "all schedules of any number of scripts by any users on any nodes, all clock readings, Sig services and database failures", "why_tests_cant": "All interleavings.", "anchors": ["aqua/trust-graph-api.aqua: all functions", "aqua/labelling.aqua: isFluencePeer"]}
{"id": "C114", "title": "Every script ends", "statement": "Whatever other scripts do in between, no script of the Aqua interface gets stuck, and each returns after at most the number of requests its text makes (one to seven).", "quantifier": "all schedules, scripts, stores and failures", "why_tests_cant": "All interleavings.", "anchors": ["aqua/trust-graph-api.aqua: all functions"]}
{"id": "C115", "title": "A script that stops half way leaves nothing", "statement": "A script other than add_root_trust that has not returned, because its user went away, has changed no store, and no other script's answer depends on it: without its steps all stores and all other scripts would be the same.", "quantifier": "all schedules, all points at which a script stops", "why_tests_cant": "Every crash point of every interleaving.", "anchors": ["aqua/trust-graph-api.aqua: all functions but add_root_trust"]}
{"id": "C116", "title": "add_root_trust that stops half way leaves nothing", "statement": "The same for add_root_trust: if it has not returned, it has changed no store.", "quantifier": "all schedules, all points at which the script stops", "why_tests_cant": "Every crash point of every interleaving.", "anchors": ["aqua/trust-graph-api.aqua: add_root_trust"]}
{"id": "C117", "title": "Roots under concurrent use", "statement": "Whatever scripts run at once, every root of a node was set by a script of the owner of that node's service, with the length that script asked for, and a root once set stays with its length in every later state.", "quantifier": "all schedules from empty stores (for who sets roots) or from any reachable stores (for staying)", "why_tests_cant": "All interleavings and later histories.", "anchors": ["aqua/trust-graph-api.aqua: set_root, add_root_trust"]}
{"id": "C118", "title": "What leaves and what arrives under concurrent use", "statement": "Whatever scripts run at once, a relation leaves a node only if the clock of that node said a time at which it is expired or a script brought a newer signed relation of the same keys; and a relation that is in a store and was not there at the start was brought by a script for that node, signed, and, unless it came with insert_cert, not made after a time that node's clock said.", "quantifier": "all schedules, stores and failures", "why_tests_cant": "All interleavings.", "anchors": ["aqua/trust-graph-api.aqua: all functions"]}
{"id": "C119", "title": "What add_trust and revoke report lasts under concurrent use", "statement": "If add_trust returned no error, then either its issuer had too little weight on the node at some moment before, or in every later state the trust asked for is stored, or the clock of the node said a time at which it is expired, or another relation of the same keys, not older, was there or was brought. If revoke returned no error, then in every later state the revocation is stored or another relation of the same keys, not older, was there or was brought.", "quantifier": "all schedules before, during and after the script, all continuations", "why_tests_cant": "All interleavings and later histories.", "anchors": ["aqua/trust-graph-api.aqua: add_trust, revoke"]}
{"id": "C12", "title": "Revocations and trusts are domain separated", "statement": "The bytes hashed for a trust are never the bytes hashed for a revocation, so a signature given for one cannot be replayed as the other; and the bytes hashed for a revocation determine the revoked key and the second.", "quantifier": "all pairs of a trust and a revocation, all key kinds", "why_tests_cant": "Quantifies over all pairs of messages; no test looks at cross use.", "anchors": ["trust-graph/src/trust.rs: Trust::signature_bytes", "trust-graph/src/revoke.rs: Revocation::signature_bytes"]}
{"id": "C120", "title": "What the one-step writing functions of the Aqua interface do", "statement": "set_root run by the owner for a peer with a key, and insert_cert with a certificate, do on the named node exactly what the trust graph does with that key and length, or that chain at the time of the node's clock, and touch no other node. import_trust and import_revocation do the same with the given relation if it was not made after that time. A set_root by anyone else, records that are none, and relations from the future are answered with an error and change nothing.", "quantifier": "all callers, nodes, records, clock readings, reachable stores, database failures", "why_tests_cant": "All records, callers and stores.", "anchors": ["aqua/trust-graph-api.aqua: set_root, insert_cert, import_trust, import_revocation", "service/src/service_api.rs: set_root, insert_cert, add_trust, revoke"]}
{"id": "C121", "title": "Keys, signatures, trusts and relations survive serde", "statement": "Every public key, signature, trust, revocation and trust relation written with serde and read again is the same, in formats that keep bytes as bytes and in those that keep them as lists of numbers, such as JSON. The order of the fields of a trust or revocation does not matter. Whatever is read holds only keys that parse, kinds the build has and durations in range; reading never panics; a wasm32 build reads no RSA key or signature.", "quantifier": "all values, all formats of the two sorts, all stored values, both builds", "why_tests_cant": "All values; reading must be safe for all inputs.", "anchors": ["keypair/src/public_key.rs: PublicKey", "keypair/src/signature.rs: Signature", "keypair/src/secp256k1.rs: PublicKey::serialize, deserialize", "trust-graph/src/trust.rs: Trust", "trust-graph/src/revoke.rs: Revocation", "trust-graph/src/trust_relation.rs: TrustRelation"]}
{"id": "C122", "title": "A PublicKeyHashable written with serde can be read", "statement": "A PublicKeyHashable written with serde and read again in the same format is the same key.", "quantifier": "all keys, all formats", "why_tests_cant": "All keys and formats.", "anchors": ["trust-graph/src/public_key_hashable.rs: serialize, deserialize"]}
{"id": "C123", "title": "Which values are read as a PublicKeyHashable", "statement": "A PublicKeyHashable is read exactly from the bytes of a valid key and from the text such a key is displayed as. Reading panics exactly on an empty text and on no bytes.", "quantifier": "all stored values", "why_tests_cant": "All inputs.", "anchors": ["trust-graph/src/public_key_hashable.rs: deserialize, visit_str, visit_bytes"]}
{"id": "C124", "title": "Conversions from and to libp2p lose nothing", "statement": "Every public key and key pair becomes a libp2p key or pair of the same kind with the same bytes, and every libp2p key or pair of the kinds the crate enables becomes one of this crate; converting back gives the same; the public key of a converted pair is the converted public key; none of this panics. An RSA key is passed as a standard SubjectPublicKeyInfo (RFC 5280) in DER.", "quantifier": "all keys and pairs of all kinds", "why_tests_cant": "All keys, including RSA keys of any length.", "anchors": ["keypair/src/public_key.rs: From<PublicKey>, From<libp2p_identity::PublicKey>", "keypair/src/key_pair.rs: From<KeyPair>, From<libp2p_identity::Keypair>", "keypair/src/rsa.rs: encode_x509"]}
{"id": "C125", "title": "A pair of every kind can be generated", "statement": "KeyPair::generate returns a pair for every key format of the build.", "quantifier": "all formats, all behaviours of the random source", "why_tests_cant": "All random sources.", "anchors": ["keypair/src/key_pair.rs: KeyPair::generate"]}
{"id": "C126", "title": "Generated pairs work", "statement": "A generated pair has the format asked for, its public key is valid and accepts every signature the pair makes, and its bytes give the pair back. Its secret is the first block of the random source that is a secret of that kind; generation ends when there is such a block.", "quantifier": "all formats, all behaviours of the random source, all messages", "why_tests_cant": "All random sources and messages.", "anchors": ["keypair/src/key_pair.rs: KeyPair::generate", "keypair/src/ed25519.rs: SecretKey::generate", "keypair/src/secp256k1.rs: SecretKey::generate"]}
{"id": "C127", "title": "Loading a key erases the buffer", "statement": "When rsa_from_pkcs8 or secp256k1_from_der succeeds, the caller's buffer holds only zeroes.", "quantifier": "all buffers", "why_tests_cant": "All inputs.", "anchors": ["keypair/src/key_pair.rs: rsa_from_pkcs8, secp256k1_from_der", "keypair/src/rsa.rs: from_pkcs8", "keypair/src/secp256k1.rs: from_der"]}
{"id": "C128", "title": "A failed load leaves the buffer alone", "statement": "When rsa_from_pkcs8 or secp256k1_from_der fails, the caller's buffer is unchanged.", "quantifier": "all buffers", "why_tests_cant": "All inputs.", "anchors": ["keypair/src/key_pair.rs: rsa_from_pkcs8, secp256k1_from_der", "keypair/src/secp256k1.rs: from_der"]}
{"id": "C129", "title": "secp256k1_from_der loads ECPrivateKey structures", "statement": "The secret of a standard ECPrivateKey (RFC 5915) in DER, with or without its optional parts, is loaded exactly if it is a secp256k1 secret. Whatever is loaded is a working pair whose secret is the second object, an OCTET STRING, of the sequence given. Loading never panics.", "quantifier": "all buffers, all secrets, all optional parts", "why_tests_cant": "All inputs.", "anchors": ["keypair/src/key_pair.rs: secp256k1_from_der", "keypair/src/secp256k1.rs: from_der"]}
{"id": "C13", "title": "Verification rejects forged signatures for every key kind", "statement": "PublicKey::verify succeeds only if the underlying signature scheme accepts the signature for that key and message.", "quantifier": "all keys of all three kinds, all messages, all signature bytes", "why_tests_cant": "Tests check one corrupted ed25519 signature; secp256k1 rejection is never tested.", "anchors": ["keypair/src/public_key.rs: PublicKey::verify", "keypair/src/secp256k1.rs: PublicKey::verify_hashed"]}
{"id": "C130", "title": "secp256k1_from_der loads nothing else", "statement": "A buffer that is not a standard ECPrivateKey is refused.", "quantifier": "all buffers", "why_tests_cant": "All inputs.", "anchors": ["keypair/src/secp256k1.rs: from_der"]}
{"id": "C131", "title": "Peer ids survive peerid_serializer", "statement": "peerid_serializer writes a peer id as its base58 text and reads one exactly from the base58 text of a peer id, never panicking. The peer id of a key that is not RSA comes back and gives the key back.", "quantifier": "all peer ids, stored values, keys and formats", "why_tests_cant": "All inputs.", "anchors": ["keypair/src/lib.rs: peerid_serializer"]}
{"id": "C132", "title": "The recorded signature type tells the kind of the signature", "statement": "The trust record that issue_trust makes and the revocation record that issue_revocation makes name the kind of the signature they hold.", "quantifier": "all keys, all kinds of issuer, subject and revoker, all times", "why_tests_cant": "All pairs of key kinds.", "anchors": ["service/src/service_api.rs: issue_trust, issue_revocation", "service/src/dto.rs: Trust, Revocation"]}
{"id": "C133", "title": "Ed25519 and secp256k1 pairs come back from their bytes", "statement": "Every Ed25519 or secp256k1 key pair is given back by from_vec from the bytes of to_vec and by from_secret_key from its secret. Reading any bytes as any format gives a pair or an error and never panics.", "quantifier": "all key pairs that are not RSA; all bytes and formats", "why_tests_cant": "All inputs.", "anchors": ["keypair/src/key_pair.rs: to_vec, from_vec, secret, from_secret_key"]}
{"id": "C134", "title": "Adding a stored certificate again changes nothing", "statement": "If, after a certificate was added, each of its trusts is stored, or something as new from the same issuer about the same key, then adding it again at that time succeeds and changes nothing, for unexpired trusts that expire before 2^63 seconds.", "quantifier": "all reachable stores, all certificates", "why_tests_cant": "All stores and certificates.", "anchors": ["trust-graph/src/trust_graph.rs: add"]}
{"id": "C135", "title": "What a failed add_root_trust leaves", "statement": "If databases do not fail, an add_root_trust that reports an error has stored no relation; at most the key has become a root of the node, and only for the owner of the service. The owner, with a Sig service for the key, gets an error exactly if the node's clock says that the trust is made in the future or expired, and then the key is a root.", "quantifier": "all networks, users, nodes, keys, clocks, reachable stores", "why_tests_cant": "All clocks and stores.", "anchors": ["aqua/trust-graph-api.aqua: add_root_trust"]}
{"id": "C136", "title": "What get_weight_from of the Aqua interface does", "statement": "get_weight_from for two peers with keys answers as the graph of the node does if the given issuer is recorded as coming from the node's clock; with any other origin it is refused and nothing changes.", "quantifier": "all networks, nodes, origins, peers, reachable stores", "why_tests_cant": "All origins and stores.", "anchors": ["aqua/trust-graph-api.aqua: get_weight_from", "service/src/service_api.rs: get_weight_from"]}
{"id": "C137", "title": "What a revoked client can still do", "statement": "If a revocation of the client is stored on the relay and a computation of the client runs on a node, then the relay has a chain to the node over the client in which the client trusts the node directly or the revoker does not stand before the client. So a revoked client is refused on every node it does not trust itself, if all chains over it lead over the revoker first.", "quantifier": "all clients, revokers, nodes, reachable stores", "why_tests_cant": "All stores.", "anchors": ["example/aqua/computation.aqua: trusted_computation", "trust-graph/src/trust_graph.rs: get_all_certs"]}
{"id": "C138", "title": "Start data survives serde_json", "statement": "Every Certs value written with serde_json::to_string is a JSON text (RFC 8259) for it, from_str reads it back to the same value, and different values have different texts. This holds for all strings, with quotes, backslashes, control characters and any UTF-8, and for all numbers of the types.", "quantifier": "all Certs values", "why_tests_cant": "All strings, numbers and list lengths.", "anchors": ["distro/src/lib.rs: Certs, Cert, Trust"]}
{"id": "C139", "title": "Exactly which texts are start data", "statement": "from_str reads a text as Certs exactly if it is JSON for one: an object with each field exactly once, in any order and with other members besides, or a list of the fields, strings with any escapes, numbers written with digits only that fit the type. A text has at most one meaning. On every other text from_str is an error and the first use of KRAS_CERTS panics; it panics in no other case.", "quantifier": "all texts", "why_tests_cant": "All inputs.", "anchors": ["distro/src/lib.rs: Certs, Cert, Trust, KRAS_CERTS"]}
{"id": "C14", "title": "Exact acceptance condition of Certificate::verify", "statement": "Certificate::verify(c, roots, now) succeeds exactly when c is non-empty, its first trust is self-signed by one of the roots, every other trust is signed by the key of the trust before it, and none is expired at now.", "quantifier": "all certificates of any length, all root lists, all times", "why_tests_cant": "Chains of unbounded length and all tamperings.", "anchors": ["trust-graph/src/certificate.rs: Certificate::verify"]}
{"id": "C140", "title": "The packed start data can be used and is the data of the start script", "statement": "The packed init_certs.json is read without a panic: its root and chain length are those the start script sets, its certificates are exactly those of on_start.json. A new node started with them is labelled a Fluence peer exactly if it is one of the eleven nodes of the data.", "quantifier": "the two data files; all signature schemes, nodes, clocks before the expiry", "why_tests_cant": "The effect on every node and at every time.", "anchors": ["distro/src/lib.rs: KRAS_CERTS, KRAS_CERTS_JSON", "distro/init_certs.json", "builtin-package/on_start.json"]}
{"id": "C141", "title": "The file of the admin tool holds the certificates of the tool", "statement": "Whatever order the members of the trust objects have, the file that the admin tool writes is JSON with exactly the certificates the tool made, so a new node that is started with what the file says labels exactly the nodes the tool was given.", "quantifier": "all keys, nodes, clocks, member orders", "why_tests_cant": "All inputs of the tool.", "anchors": ["admin/index.ts: main"]}
{"id": "C142", "title": "The file of the admin tool can be packed", "statement": "The file that the admin tool writes can be packed as init_certs.json: KRAS_CERTS reads it.", "quantifier": "all outputs of the tool", "why_tests_cant": "All outputs.", "anchors": ["admin/index.ts: main", "distro/src/lib.rs: KRAS_CERTS"]}
{"id": "C143", "title": "A zero weight means there is no path from a root", "statement": "A key that is no root has weight zero exactly if there is no path from a root to it, where a path is a chain of stored, unexpired trusts in which no key has revoked a later one.", "quantifier": "all reachable stores, keys, times", "why_tests_cant": "All stores, of any size.", "anchors": ["README.md: What is it?, FAQ", "trust-graph/src/trust_graph.rs: weight, get_all_certs"]}
{"id": "C144", "title": "Trust is transitive", "statement": "If a key has a weight and trusts another key, and nobody has revoked either, the other key has a weight.", "quantifier": "all reachable stores, keys, times", "why_tests_cant": "All stores, of any size.", "anchors": ["README.md: What is it?", "trust-graph/src/trust_graph.rs: weight, get_all_certs"]}
{"id": "C145", "title": "Weights by distance", "statement": "If all roots have the maximum length m, a root has weight 2^m, and a key that is no root and whose shortest certificate has h trusts after the root trust has weight 2^(m-h), or 1 if h is above m. So in the README's example, a root with length 4 and the chain R, A, B, C, the weights are 16, 8, 4 and 2, twice what the README says.", "quantifier": "all reachable stores whose roots have one length, all keys and times", "why_tests_cant": "All stores, of any size.", "anchors": ["README.md: FAQ", "trust-graph/src/trust_graph.rs: weight, certificates_weight_factor, get_weight_from_factor, get_root_weight_factor"]}
{"id": "C146", "title": "The closer to the root, the bigger the weight", "statement": "If all roots have the same maximum length, a root weighs at least as much as every other key, and more unless that length is zero, and of two other keys the one with the shorter certificate weighs at least as much, and more as long as the maximum length is not used up. With roots of different lengths a key with shorter certificates can weigh less.", "quantifier": "all reachable stores, keys, times", "why_tests_cant": "All stores, of any size.", "anchors": ["README.md: What is it?, FAQ", "trust-graph/src/trust_graph.rs: weight"]}
{"id": "C147", "title": "A trusted subnetwork", "statement": "After the steps of the README (a root, its own trust and one trust per member, put in one after the other), get_weight_from(peer, root) is the same positive weight for all members and zero for every other key, until the first of the trusts expires. The root itself has zero there too, although the README counts it as a member.", "quantifier": "all roots, maximum lengths above zero, lists of members, keys, times", "why_tests_cant": "All lists of members and all keys.", "anchors": ["README.md: Create a trusted subnetwork", "trust-graph/src/trust_graph.rs: set_root, add_trust, get_weight_from"]}
{"id": "C148", "title": "Roots are trusted unconditionally", "statement": "A root stays a root with its maximum length m, and has at least weight 2^m at every time, whatever calls are made, whatever is revoked and whatever expires. There is no call that removes a root.", "quantifier": "all reachable stores, histories with any database failures, times", "why_tests_cant": "All histories.", "anchors": ["README.md: What is it?", "trust-graph/src/trust_graph.rs: set_root, weight, revoke"]}
{"id": "C149", "title": "Strangers have no influence", "statement": "Whatever trusts and revocations keys without a path of unexpired trusts from a root sign, and whatever calls bring them in, up to now no answer about the certificates or the weight of any key changes by it. Such a key has itself no certificates and weight zero.", "quantifier": "all reachable stores, all histories that offer only relations of such keys, with any database failures, all keys and times below 2^63 seconds", "why_tests_cant": "All histories of an adversary.", "anchors": ["trust-graph/src/trust_graph.rs: add_trust, add, revoke, weight, weight_from, get_all_certs, get_all_certs_from"]}
{"id": "C15", "title": "Certificate::verify reports the right culprit", "statement": "When verification fails, the error names a real defect: the root trust if it is bad, else the missing trusted root, else the largest index of a bad trust.", "quantifier": "all certificates, root lists and times", "why_tests_cant": "Unbounded chains and combinations of defects.", "anchors": ["trust-graph/src/certificate.rs: Certificate::verify"]}
{"id": "C150", "title": "A key cannot change its own standing", "statement": "Nothing a key signs, trusts or revocations, for itself or others, changes its own weight, nor its certificates, except that it can add longer ones that end in trusts it gave itself.", "quantifier": "all reachable stores, all histories that offer only relations the key signed, with any database failures, times below 2^63 seconds", "why_tests_cant": "All histories of an adversary.", "anchors": ["trust-graph/src/trust_graph.rs: add_trust, add, revoke, weight, get_all_certs"]}
{"id": "C151", "title": "What is said about other keys is without effect", "statement": "Trusts and revocations about keys from which no path of unexpired trusts leads to a key change no answer about that key, whoever signs them.", "quantifier": "all reachable stores, all histories that offer only relations about such keys, with any database failures, times below 2^63 seconds", "why_tests_cant": "All histories.", "anchors": ["trust-graph/src/trust_graph.rs: add_trust, add, revoke, weight, weight_from, get_all_certs, get_all_certs_from"]}
{"id": "C152", "title": "Trusts raise and revocations lower", "statement": "A successful revoke takes certificates away and adds none, for every key and at every time, and raises no weight. A successful add_trust lowers no key's weight at that time, if the trust expires later and before 2^63 seconds; a renewed trust with a later expiry than that can take its key's weight away.", "quantifier": "all reachable stores, relations, keys, times", "why_tests_cant": "All stores and relations.", "anchors": ["trust-graph/src/trust_graph.rs: add_trust, revoke, weight, get_all_certs"]}
{"id": "C153", "title": "A trust passes on at most half", "statement": "A key that is no root and weighs more than 1 is trusted by another key of at least twice its weight, unless a key that trusts it is revoked; then it can outweigh all who trust it.", "quantifier": "all reachable stores, keys, times", "why_tests_cant": "All stores, of any size.", "anchors": ["trust-graph/src/trust_graph.rs: weight, get_all_certs"]}
{"id": "C154", "title": "Made-up keys gain nothing", "statement": "Of any set of keys without roots none weighs more than the heaviest of those that a key outside the set trusts, however the keys of the set trust and revoke each other, if these entry keys are not revoked.", "quantifier": "all reachable stores, sets of keys, times", "why_tests_cant": "All stores and sets of keys.", "anchors": ["trust-graph/src/trust_graph.rs: weight, get_all_certs"]}
{"id": "C155", "title": "The library is a set of relations and a map of roots", "statement": "Every history of library calls, with the database failing in any of them, gives the answers of a machine whose whole state is the set of relations held and the roots with their lengths: setting a root adds it if it is new, a timed call first drops the expired trusts, an import replaces an older relation of the same keys, certificates and weights are those of the chains in the set. A failed call leaves one of the states the machine passes through. While nothing fails the machine has no choice, so its answers are the answers of the library.", "quantifier": "all reachable stores, all histories of calls with any database failures, while fewer than about four thousand million relations are offered", "why_tests_cant": "All histories, of any length.", "anchors": ["trust-graph/src/trust_graph.rs: set_root, add_trust, add, weight, weight_from, get_all_certs, get_all_certs_from, revoke, get_revocations", "service/src/storage_impl.rs: SQLiteStorage"]}
{"id": "C156", "title": "The service is the same machine behind its checks", "statement": "Every history of service calls by any callers is one of that machine: a call that is let through and whose texts and records describe keys, trusts and revocations is answered with the machine's answer told in records, or fails with an empty payload if the machine refuses or the database fails; every other call leaves the machine alone and fails, computes locally, or is an insert_cert_raw that panics on its text.", "quantifier": "all service histories with any callers, arguments and database failures, on a 32-bit WASM build", "why_tests_cant": "All histories, of any length.", "anchors": ["service/src/service_api.rs", "service/src/service_api.rs", "service/src/dto.rs"]}
{"id": "C157", "title": "Visitors without signatures change nothing", "statement": "Whatever calls are made by callers who do not own the service and who bring nothing validly signed by a key with a path of trusts from a root, except what the store has or has newer, every later response about certificates and weights is the same, up to the order of certificates. Forged records and replays are included. The times that the service does not check (insert_cert, insert_cert_raw, get_weight_from) must not lie ahead.", "quantifier": "all reachable stores, all service histories of such callers with any database failures, all keys, times below 2^63 seconds", "why_tests_cant": "All histories of an adversary.", "anchors": ["service/src/service_api.rs", "trust-graph/src/trust_graph.rs"]}
{"id": "C158", "title": "Nobody raises their own weight through the service", "statement": "Whatever calls are made by callers who do not own the service and who bring, besides forgeries and what the store has or has newer, only what a key has signed itself, the response to get_weight for that key stays the same.", "quantifier": "all reachable stores, all service histories of such callers with any database failures, times below 2^63 seconds", "why_tests_cant": "All histories of an adversary.", "anchors": ["service/src/service_api.rs: get_weight, add_trust, insert_cert, insert_cert_raw, revoke", "trust-graph/src/trust_graph.rs: weight"]}
{"id": "C159", "title": "A trusted key can make answers grow without a reasonable bound", "statement": "Whoever holds a key on a path from a root that leaves two more hops, and n+1 new keys, can give the last of these at least 2^n certificates with (n+1)(n+2)/2 accepted add_trust calls. get_all_certs then returns, and the weight functions go through, all of them.", "quantifier": "all reachable stores, keys on such paths, numbers n of new keys and times, while fewer than about four thousand million relations are offered", "why_tests_cant": "All n, all stores.", "anchors": ["trust-graph/src/trust_graph.rs: add_trust, get_all_certs, bf_search_paths, weight"]}
{"id": "C16", "title": "Certificate validity is monotone", "statement": "If a certificate verifies at a time it verifies at every earlier time, with every larger set of roots, and so does each of its non-empty prefixes.", "quantifier": "all certificates, all pairs of times, all root lists", "why_tests_cant": "Universally quantified over times and prefixes.", "anchors": ["trust-graph/src/certificate.rs: Certificate::verify"]}
{"id": "C160", "title": "An error text is given exactly on failure", "statement": "The error field of an answer is empty exactly if success is true, whatever the texts that other libraries put into errors.", "quantifier": "all calls, callers, stores and database failures; all texts of other libraries", "why_tests_cant": "All failures, including those inside other libraries.", "anchors": ["service/src/error.rs: ServiceError", "service/src/results.rs", "trust-graph/src/trust_graph.rs: TrustGraphError", "service/src/storage_impl.rs: SQLiteStorageError"]}
{"id": "C161", "title": "The texts of the refusals identify them", "statement": "An answer says that only the owner can add roots exactly if set_root was called for somebody else than the creator of the service; that a trust (revocation) cannot be issued later than now exactly if add_trust (revoke) with the host's time was given one from the future. No other failure has these texts, whatever strings the caller sends.", "quantifier": "all calls, callers, arguments, stores and database failures; all texts of other libraries", "why_tests_cant": "All strings a caller can send.", "anchors": ["service/src/error.rs: ServiceError", "service/src/service_api.rs: set_root, add_trust, revoke"]}
{"id": "C162", "title": "The text of the refusal of a time identifies it", "statement": "An error that begins with 'you should use host peer.timestamp_sec to pass timestamp:' means that the time argument did not come from the host's clock.", "quantifier": "all calls, callers, arguments, stores and database failures; all texts of other libraries", "why_tests_cant": "All strings a caller can send.", "anchors": ["service/src/error.rs: ServiceError", "service/src/misc.rs: check_timestamp_tetraplets", "keypair/src/error.rs: Error"]}
{"id": "C163", "title": "The message about an expired trust tells the exact times", "statement": "Verifying a trust, in the library or with verify_trust, gives the message about expiry exactly if the trust has expired, and the times in it can only be read as the trust's expiry and the time of the check, to the nanosecond. If add_trust, insert_cert or insert_cert_raw fail with that message, a trust that was offered has just that expiry, which is before the given time.", "quantifier": "all trusts, keys and times; all calls, stores and database failures", "why_tests_cant": "All times, stores and failures.", "anchors": ["trust-graph/src/trust.rs: TrustError, verify", "service/src/service_api.rs: verify_trust, add_trust, insert_cert, insert_cert_raw"]}
{"id": "C164", "title": "The message of a failed certificate check tells which trust", "statement": "If Certificate::verify fails with a message about trust i in the chain, then the trust at position i does not verify against the key before it for the reason given, and all later trusts do.", "quantifier": "all certificates, roots, times", "why_tests_cant": "All certificates.", "anchors": ["trust-graph/src/certificate.rs: CertificateError, verify"]}
{"id": "C165", "title": "The message about an unreadable certificate text tells which trust", "statement": "If a certificate text is refused with a message about trust number n, then n is the position of the unreadable trust.", "quantifier": "all texts", "why_tests_cant": "All inputs.", "anchors": ["trust-graph/src/certificate.rs: CertificateError, from_str"]}
{"id": "C166", "title": "Only who is who and what comes first matters", "statement": "Two stores and two histories of library calls that differ only in the names of the keys (one to one), in the readings of the clock (with the same order) and in the signatures (valid where the other is) get the same answers up to these names, times and signatures, and leave stores that differ only so. No answer depends on the bytes of keys or signatures, on kinds of keys or on how much time passes.", "quantifier": "all reachable stores, all histories of calls, all renamings of keys and changes of the clock below 2^63 seconds", "why_tests_cant": "All keys, times and histories; a test uses a few.", "anchors": ["trust-graph/src/trust_graph.rs", "service/src/storage_impl.rs: SQLiteStorage"]}
{"id": "C167", "title": "A scenario does not depend on who plays it and when", "statement": "If a scenario of people who trust and revoke one another and ask for weights and certificates gives the expected answers once, with one set of keys and one clock, it gives them with all keys of all kinds and at all times that keep the order, in the library and through the service.", "quantifier": "all scenarios, sets of key pairs and increasing clocks below 2^63 seconds", "why_tests_cant": "A test plays a scenario with one set of keys.", "anchors": ["trust-graph/src/trust_graph.rs", "service/src/service_api.rs", "service/src/tests.rs"]}
{"id": "C168", "title": "The tests of the service pass for all keys and times", "statement": "The sixteen scenarios that service/src/tests.rs plays with fresh keys at the present time give the asserted weights and certificates with all keys of all kinds and at all times that keep the order, in the library and through the service. The seventeenth, a root set by somebody who is not the creator, is refused for all keys, lengths and callers.", "quantifier": "all key pairs, increasing clocks below 2^63 seconds", "why_tests_cant": "The tests play them with one set of keys each.", "anchors": ["service/src/tests.rs"]}
{"id": "C169", "title": "A damaged database does not crash the library", "statement": "Whatever the two tables hold, and at whichever statement the database fails, every call of the library returns a value or an error and no call of the service panics, except insert_cert_raw on texts on which the parser of certificates panics.", "quantifier": "all contents of the tables, calls, callers and database failures", "why_tests_cant": "All contents of the tables, also such as the code never writes.", "anchors": ["service/src/storage_impl.rs: parse_relation, root_keys", "keypair/src/public_key.rs: decode", "keypair/src/signature.rs: decode"]}
{"id": "C17", "title": "Issued certificates verify", "statement": "Certificate::issue_root yields a certificate that verifies against its root up to its expiry; whenever Certificate::issue succeeds on a certificate valid for some roots, the result verifies for the same roots at any time up to the new expiry at which the extended certificate is valid.", "quantifier": "all key pairs, certificates, times", "why_tests_cant": "All chains and times; tests cover chains of length two to four.", "anchors": ["trust-graph/src/certificate.rs: Certificate::issue_root, Certificate::issue"]}
{"id": "C170", "title": "Rows that cannot be read do not count", "statement": "In a database with rows whose keys or signature cannot be read, or which are neither trusts nor revocations, every history of calls gets the answers it gets without these rows, and leaves what it leaves without them, if no call offers a relation of the two keys of such a row (and no row lacks its issuer or signature, no root its key).", "quantifier": "all contents of the tables, all histories of such calls", "why_tests_cant": "All contents of the tables and all histories.", "anchors": ["service/src/storage_impl.rs: get_relations, parse_relation, insert, remove_expired", "trust-graph/src/trust_graph.rs"]}
{"id": "C171", "title": "A damaged row can be replaced", "statement": "A newer signed trust from a weighty key, or a signed revocation, replaces the row of its two keys, whatever is in it.", "quantifier": "all contents of the tables, trusts, revocations, times", "why_tests_cant": "All contents of the tables.", "anchors": ["service/src/storage_impl.rs: update_relation, get_relation"]}
{"id": "C172", "title": "An unreadable root is lost alone", "statement": "If the key of one of the roots cannot be read, the certificates that come from the other roots are still returned.", "quantifier": "all contents of the tables, keys, times", "why_tests_cant": "All contents of the tables.", "anchors": ["service/src/storage_impl.rs: root_keys", "trust-graph/src/trust_graph.rs: get_all_certs, weight, add_trust"]}
{"id": "C173", "title": "Certificates verify whatever the database holds", "statement": "The certificates get_all_certs returns verify, also if somebody else has written to the database.", "quantifier": "all contents of the tables, keys, times", "why_tests_cant": "All contents of the tables.", "anchors": ["trust-graph/src/trust_graph.rs: get_all_certs, bf_search_paths", "service/src/storage_impl.rs: get_authorizations"]}
{"id": "C174", "title": "A node can be copied through certificates and revocations", "statement": "Set up the same roots in an empty store, add there the certificates of some keys as the first store gives them out, at a time when none of them has expired, then the revocations of all keys in them. Every call succeeds, and from then on both stores answer alike every question about these keys: certificates, weights, and both from one issuer. No certificate may be longer than its root allows (such a certificate is lost without an error), and the revocations must come after the certificates.", "quantifier": "all reachable stores, all lists of keys, all times of asking, adding and later questions below 2^63 seconds, while fewer than about four thousand million relations are offered", "why_tests_cant": "All stores, of any size and history.", "anchors": ["trust-graph/src/trust_graph.rs: get_all_certs, get_revocations, add, revoke, weight, weight_from, get_all_certs_from"]}
{"id": "C175", "title": "Nodes that hear the same trusts end alike", "statement": "Two nodes with the same contents hear signed trusts from one set, each in its own order and each trust as often as it may be. Whenever neither would learn anything from hearing one of them again, both have the same contents; and this is reached, in every order, after as many rounds as there are trusts. The trusts are in whole seconds, unexpired, and two of the same keys differ in their times.", "quantifier": "all reachable stores (with any revocations in them), all finite sets of such trusts, all orders, while fewer than about four thousand million relations are offered", "why_tests_cant": "All orders of arrival.", "anchors": ["trust-graph/src/trust_graph.rs: add_trust", "service/src/storage_impl.rs: update_relation, remove_expired"]}
{"id": "C176", "title": "Nodes that hear the same trusts and revocations end alike", "statement": "As C175, also if revocations are heard between the trusts: when neither node would learn anything more, both have the same contents and give the same answers.", "quantifier": "all reachable stores, all finite sets of trusts and revocations, all orders", "why_tests_cant": "All orders of arrival.", "anchors": ["trust-graph/src/trust_graph.rs: add_trust, revoke, weight"]}
{"id": "C177", "title": "RSA keys are read back from X.509", "statement": "An RSA key written as X.509 SubjectPublicKeyInfo is read back as the same key, and so is every standard SubjectPublicKeyInfo of an RSA key. What does not name the RSA algorithm is refused, and nothing panics. Whether the bit string claims unused bits is not checked.", "quantifier": "all keys, all byte strings", "why_tests_cant": "The quickcheck test tries ten times with three fixed keys.", "anchors": ["keypair/src/rsa.rs: encode_x509, decode_x509, Asn1SubjectPublicKeyInfo"]}
{"id": "C178", "title": "A node can be copied by handing its records on", "statement": "Ask the service of a node for the certificates of some peers and for the revocations of all peers in them, and pass the records as they are to insert_cert and revoke of a node with the same roots and an empty store. Every call succeeds, and from then on both nodes respond alike to get_weight, get_weight_from, get_all_certs, get_all_certs_from and get_host_certs about these peers. The conditions are those of C174, and that no revocation is ahead of the other node's clock.", "quantifier": "all service states, all lists of peers, all clocks of the two nodes below 2^63 seconds, on a 32-bit WASM build", "why_tests_cant": "All states and clocks.", "anchors": ["service/src/service_api.rs: get_all_certs, export_revocations, insert_cert, revoke, get_weight", "service/src/dto.rs"]}
{"id": "C179", "title": "Services that are sent the same records end alike", "statement": "Two nodes with the same contents are sent the same records of signed trusts, by any senders, in as many rounds as there are records, each in its own orders and with its own clock. If nothing either holds or is sent runs out meanwhile, they hold the same afterwards and respond alike to every question about certificates and weights.", "quantifier": "all service states, all finite lists of such records, all orders, senders and readings of the two clocks below 2^63 seconds, while fewer than about four thousand million relations are offered", "why_tests_cant": "All orders of arrival and clocks.", "anchors": ["service/src/service_api.rs: add_trust, get_weight, get_all_certs", "trust-graph/src/trust_graph.rs: add_trust, weight"]}
{"id": "C18", "title": "issue extends exactly below the issuer", "statement": "When Certificate::issue (or issue_with_trust) succeeds, the new chain is the prefix of the old chain ending at the last trust given to the issuer, followed by exactly the one new trust; if the issuer does not occur in the chain it fails with KeyInCertificateError.", "quantifier": "all certificates and issuers, including issuers occurring several times", "why_tests_cant": "Unbounded chains.", "anchors": ["trust-graph/src/certificate.rs: Certificate::issue, Certificate::issue_with_trust"]}
{"id": "C180", "title": "Answers do not depend on the order in which the database returns rows", "statement": "SQL promises no order of the rows of a SELECT without ORDER BY. Whatever order each query of a history of calls gets its rows in, at every call the database is left as it is with rows in table order, and the answers are the same, with lists of certificates and revocations up to their order, also if statements fail; and certificates still come shorter ones first. The same holds of calls of the service.", "quantifier": "all reachable stores, all histories with failures anywhere, all orders of the rows of each query, which may change from call to call", "why_tests_cant": "An order of the rows for each of unboundedly many queries; tests see the one that SQLite happens to choose.", "anchors": ["service/src/storage_impl.rs: get_relations, get_authorizations, get_revocations", "trust-graph/src/trust_graph.rs: bf_search_paths, get_all_certs, weight"]}
{"id": "C181", "title": "Peer ids name keys", "statement": "The peer id of an Ed25519 or secp256k1 key is accepted as text and gives the key back, and so does every identity multihash of at most 42 bytes that holds a protobuf message with the kind and the bytes of the key. A peer id stands only for a valid key, whose bytes it contains unless it is RSA. The peer id of an RSA key is accepted, but gives the key back only if it has at most 18 bytes. Nothing panics. Whatever else is proved here about peer ids needs no assumption on them.", "quantifier": "all keys, texts and messages, all signature schemes and DER readers with the stated laws", "why_tests_cant": "All inputs.", "anchors": ["keypair/src/public_key.rs: to_peer_id, TryFrom<PeerId>, as_public_key", "service/src/misc.rs: parse_peer_id, extract_public_key", "service/src/dto.rs"]}
{"id": "C182", "title": "One key, one peer id", "statement": "Only one text is accepted as the peer id of a key. In any case it makes no difference which of the accepted texts of a key calls and records use.", "quantifier": "all keys, all calls and histories of calls, all stores and failures", "why_tests_cant": "All texts.", "anchors": ["keypair/src/public_key.rs: as_public_key", "service/src/misc.rs: extract_public_key", "service/src/service_api.rs"]}
{"id": "C183", "title": "Different keys have different peer ids", "statement": "Two different keys have different peer ids, as bytes and as texts, unless a collision of SHA-256 is known.", "quantifier": "all valid keys of less than 2^31 bytes", "why_tests_cant": "All pairs of keys.", "anchors": ["keypair/src/public_key.rs: to_peer_id"]}
{"id": "C184", "title": "Every error converts into its text", "statement": "The conversions of errors into String give the text that the error is displayed as.", "quantifier": "all errors", "why_tests_cant": "All errors.", "anchors": ["trust-graph/src/trust_graph.rs: From<TrustGraphError> for String", "service/src/storage_impl.rs: From<SQLiteStorageError> for String"]}
{"id": "C185", "title": "Guests of a node change no answers, however their scripts are mixed", "statement": "While scripts run on a network, mixed in any way, let nobody who owns a node set a root there, and let the scripts bring to it only relations signed by keys that no root's chain of trusts reaches, or such that the node has or has newer. Then the node gives the same answers about certificates, weights and labels as before (certificates up to their order).", "quantifier": "all network states, schedules of steps of scripts, signers, clocks, faults; all questions at a later time; while fewer than about four thousand million relations are held, on a 32-bit WASM build", "why_tests_cant": "All interleavings of all scripts.", "anchors": ["aqua/", "aqua/trust-graph-api.aqua: ", "service/src/service_api.rs", "trust-graph/src/trust_graph.rs: weight, get_all_certs"]}
{"id": "C186", "title": "Nobody raises or lowers their own weight with scripts", "statement": "If the scripts that run on a network, mixed in any way, bring to a node only what one key has signed, or what the node has or has newer, and no owner of the node sets a root, then get_weight of the API gives the same answer for that key as before.", "quantifier": "all network states, schedules of steps of scripts, signers, clocks, faults, keys; while fewer than about four thousand million relations are held, on a 32-bit WASM build", "why_tests_cant": "All interleavings of all scripts.", "anchors": ["aqua/", "aqua/trust-graph-api.aqua: ", "service/src/service_api.rs", "trust-graph/src/trust_graph.rs: weight"]}
{"id": "C187", "title": "The library works alike over every storage that keeps a contract", "statement": "TrustGraph takes any storage. Let one give out, for a key, the trusts and revocations it holds, in any fixed order; take a new relation of a pair of keys unless it holds one that is not older; drop trusts from the second they expire; keep the length set for a root; and when a method fails, hold what it held. Then every history of calls from an empty storage gives the answers that it gives over SQLite, up to the order of lists, a failure of the storage being a failure of a statement, and in the end both hold the same. The storage of SQLite keeps this contract, and so does one in memory. The times must be in whole seconds below 2^63, and no root may be set with two lengths.", "quantifier": "all storages with any states and errors, all histories of calls, failures of any method at any time", "why_tests_cant": "All implementations of the trait: tests know one or two.", "anchors": ["trust-graph/src/trust_graph_storage.rs: Storage", "trust-graph/src/trust_graph.rs: TrustGraph<S>", "service/src/storage_impl.rs"]}
{"id": "C188", "title": "Keys, signatures and relations survive bincode", "statement": "What a build encodes with bincode it decodes as the same key, signature or relation, whatever bytes follow. Of the encoding of a relation that was cut short nothing is decoded, no two relations have the same encoding or one that begins with the other's, and a key or a signature has only one encoding. Bytes that are decoded as a relation begin with its kind and hold its fields in order. Whatever is decoded is a valid value; decoding any bytes never panics.", "quantifier": "all relations, keys, signatures, and byte strings; native and wasm32 builds", "why_tests_cant": "All values and all byte strings; every place at which a write may stop.", "anchors": ["keypair/src/public_key.rs: PublicKey", "keypair/src/signature.rs: Signature", "trust-graph/src/trust.rs: Trust", "trust-graph/src/revoke.rs: Revocation", "trust-graph/src/trust_relation.rs: TrustRelation"]}
{"id": "C189", "title": "Native and wasm32 builds understand each other's encodings", "statement": "What one build encodes with serde, the other decodes as the same key, signature or relation, or refuses.", "quantifier": "all keys, signatures and relations, both directions, formats that name variants and formats that count them", "why_tests_cant": "Tests run one build, and see single values.", "anchors": ["keypair/src/public_key.rs: PublicKey", "keypair/src/signature.rs: Signature", "trust-graph/src/trust_relation.rs: TrustRelation"]}
{"id": "C19", "title": "Certificates built from given trusts verify", "statement": "Whenever Certificate::new_from_root_trust or Certificate::issue_with_trust succeeds, the certificate returned verifies at the time given.", "quantifier": "all trusts, certificates and times", "why_tests_cant": "Needs all malformed trusts.", "anchors": ["trust-graph/src/certificate.rs: new_from_root_trust, issue_with_trust"]}
{"id": "C190", "title": "Who holds no trusted key cannot make a store grow", "statement": "Calls of the service that bring, with good signatures, only relations signed by keys to which no path of stored trusts leads from a root leave the store no larger than it was.", "quantifier": "all service states, all histories of calls by anyone, at any times, with failures anywhere", "why_tests_cant": "All histories and signers; how large the store gets after any number of calls.", "anchors": ["service/src/service_api.rs: revoke, add_trust, insert_cert", "trust-graph/src/trust_graph.rs: revoke, add_trust", "service/src/storage_impl.rs: update_relation, remove_expired"]}
{"id": "C191", "title": "Clocks that disagree matter only for trusts that expire in between", "statement": "Two nodes with the same contents get the same calls, each at the time of its own clock. If at no call a trust that is stored or brought by the call expires at either time or in between, both give the same answers and keep the same contents, whichever statements of the database fail; only the refusal of an expired trust tells the time of the clock. So answers change with time only when a trust expires. The same holds for the service with two timestamps, if what the call brings was made before both or after both.", "quantifier": "all stores, calls and histories of calls, pairs of clocks below 2^63 seconds, database failures", "why_tests_cant": "All pairs of clocks and histories.", "anchors": ["trust-graph/src/trust_graph.rs: add_trust, add, weight, weight_from, get_all_certs, get_all_certs_from", "trust-graph/src/trust.rs: verify", "service/src/storage_impl.rs: remove_expired", "service/src/service_api.rs: check_timestamp_tetraplets, add_trust, get_weight"]}
{"id": "C192", "title": "A failure of the database is told as such", "statement": "If the failure of a statement of the database makes any difference to a call of the service, the call's error is 'Internal storage error: ' and the text of the database's error. In a store written only by the service no other response has an error that begins so, unless the caller put these words into a kind of signature.", "quantifier": "all service states, calls, callers, statements that fail, texts of other libraries", "why_tests_cant": "Needs every statement of every call to fail once.", "anchors": ["service/src/storage_impl.rs: SQLiteStorageError", "trust-graph/src/trust_graph.rs: TrustGraphError", "service/src/results.rs", "service/src/error.rs: ServiceError"]}
{"id": "C193", "title": "Revocations and roots cost a fixed number of statements", "statement": "Whatever the store holds, revoke runs at most two statements of the database, set_root and the export of revocations one, a trust that does not verify and the functions that only compute none.", "quantifier": "all contents of the tables, calls, callers", "why_tests_cant": "All contents and sizes of the tables.", "anchors": ["trust-graph/src/trust_graph.rs: revoke, set_root, get_revocations, add_trust", "service/src/storage_impl.rs: update_relation, get_relation, insert, set_root_weight_factor"]}
{"id": "C194", "title": "Hearing of more trusts and fewer revocations never lowers a weight", "statement": "Two nodes start with the same contents. One hears what the other hears, except that it misses some revocations and hears of more trusts and certificates (at times when the other was asked something). If trusts that renew others never expire sooner than these, it gives every key at any later time at least the weight the other gives it, and for every certificate the other returns it returns one with the same keys.", "quantifier": "all stores, pairs of such histories of any length without database failures, keys, times", "why_tests_cant": "All pairs of histories: a trust heard earlier decides which later trusts are accepted.", "anchors": ["trust-graph/src/trust_graph.rs: add_trust, add, revoke, weight, get_all_certs", "service/src/storage_impl.rs: update_relation, remove_expired"]}
{"id": "C195", "title": "Renewing in time keeps a standing without a gap", "statement": "Take a chain of distinct keys under a root, no longer than the root allows. If for every step of the chain a new trust is added (by a call in which the database does not fail) before the last one expires, trusts made later expire no earlier, and no key of the chain revokes another, then at every moment the last key has a certificate with exactly these keys and at least the weight this length gives. Whatever else is called or fails meanwhile makes no difference. A renewal that comes while the trust of its own issuer has lapsed is answered with success and lost for good.", "quantifier": "all stores, histories of any length with database failures, chains, times", "why_tests_cant": "All histories and all interleavings of renewals with other calls.", "anchors": ["trust-graph/src/trust_graph.rs: add_trust, weight, get_all_certs", "service/src/storage_impl.rs: update_relation, remove_expired"]}
{"id": "C196", "title": "The message of a wrong signature identifies it", "statement": "revoke, verify_trust and add_trust, given the host's time and a readable record that has not expired and is not from the future, refuse a signature that is not the revoker's (issuer's) with a message about the failed verification that names the kind of that key, whatever the store and its failures, and change nothing. In a store written only by the service no other answer begins with these words, unless the caller put them into a kind of signature; if an insertion is refused so, its certificate has an unexpired trust not signed by the key trusted before it.", "quantifier": "all stores, calls, records, times, callers, statements that fail, texts of other libraries", "why_tests_cant": "All records, stores and failures; other texts could contain the same words.", "anchors": ["trust-graph/src/trust_graph.rs: add_trust, add, revoke", "trust-graph/src/revoke.rs: verify", "trust-graph/src/trust.rs: verify", "keypair/src/error.rs: VerificationError", "keypair/src/public_key.rs: verify", "service/src/service_api.rs"]}
{"id": "C197", "title": "Stolen keys can be cut off for good", "statement": "Take any set of keys without roots. If every key outside the set that ever trusted one of them revokes it (in a later second than its trusts were made), then from then on none of them weighs anything or occurs in any returned certificate, whatever the keys of the set sign, whatever old trusts are brought in again, and whatever fails, until a key outside trusts one of them anew or one is made a root. It is not enough that the root revokes a stolen key: keys which that key alone trusts keep their weight.", "quantifier": "all stores, sets of keys, histories of any length with database failures after the revocations, keys, times", "why_tests_cant": "All later histories: attackers choose what to sign and which old trusts to bring in again, and when.", "anchors": ["trust-graph/src/trust_graph.rs: revoke, add_trust, add, weight, get_all_certs", "trust-graph/src/chain.rs: can_be_extended_by", "service/src/storage_impl.rs: update_relation, remove_expired"]}
{"id": "C198", "title": "Renewing in time works through the service", "statement": "Take a chain of distinct keys under a root, no longer than the root allows. If for every step of the chain the record of a new trust is accepted by add_trust of the service before the last one expires, trusts made later expire no earlier, and no key of the chain revokes another, then get_weight tells the last peer at least the weight of this length, and get_all_certs a certificate whose records name exactly these keys, at every moment and whoever else calls the service meanwhile with whatever arguments.", "quantifier": "all stores the service leaves, chains, histories of service calls by any callers with failures anywhere, peers and moments", "why_tests_cant": "whether a gap opens depends on the whole history of calls by everybody, with their own times", "anchors": ["service/src/service_api.rs: add_trust, get_weight, get_all_certs", "trust-graph/src/trust_graph.rs: add_trust, weight", "service/src/storage_impl.rs: update_relation, remove_expired"]}
{"id": "C199", "title": "Stolen keys can be cut off through the service", "statement": "Take any set of keys without roots. If every key outside the set that ever trusted one of them has a later revocation brought in by revoke of the service, with the time of the host, then from then on get_weight answers 0 for their peers, get_all_certs an empty list, and no returned certificate has a record for one of them, whoever calls the service and whatever old records are brought in again, until a key outside trusts one of them anew or the owner makes one a root.", "quantifier": "all stores the service leaves, sets of keys, lists of revocations, histories of service calls by any callers with failures anywhere, peers and moments", "why_tests_cant": "an attacker may choose any calls in any order; only an invariant over all of them shows that none helps", "anchors": ["service/src/service_api.rs: revoke, get_weight, get_all_certs, set_root", "trust-graph/src/trust_graph.rs: revoke, add_trust, add", "service/src/storage_impl.rs: update_relation"]}
{"id": "C20", "title": "Certificate binary round trip", "statement": "Certificate::decode(Certificate::encode(c)) returns c for every certificate.", "quantifier": "all certificates of every length over all key kinds", "why_tests_cant": "Length and count bytes are truncated to u8; tests use one three-link chain.", "anchors": ["trust-graph/src/certificate.rs: Certificate::encode, Certificate::decode"]}
{"id": "C200", "title": "The whole life of a node is a run of the abstract machine", "statement": "Take any life of a node from an empty disk on: starts that may fail at any step, stops, calls by anyone, statements that fail, traps, and crashes between any two statements of a call. The calls that were answered, each with its answer, together with some of those during which the node died, are in their order a run of the abstract machine (a set of relations and a map of roots behind the checks of the service, C156), and what the disk holds in the end is the state of this machine. Nothing else has any effect.", "quantifier": "all lives of a node: lists of starts, stops, calls and crashes, with all arguments, callers and failures", "why_tests_cant": "crash points, failing statements, traps and restarts combine with the history of calls in unboundedly many ways", "anchors": ["service/src/main.rs: main", "service/src/storage_impl.rs: create_tables", "service/src/misc.rs: with_tg, INSTANCE", "service/src/service_api.rs"]}
{"id": "C201", "title": "What a wrong clock took away comes back with the certificates", "statement": "A node is asked questions while its clock is wrong, so that trusts vanish. When the certificates it told of some keys before are added again and their trusts are still unexpired, every call succeeds and the node answers all questions about these keys as it did before.", "quantifier": "all stores, histories of questions at any times with database failures, keys, times below 2^63 seconds", "why_tests_cant": "All stores and all wrong times: what is gone decides which certificates are accepted again.", "anchors": ["trust-graph/src/trust_graph.rs: weight, get_all_certs, add", "service/src/storage_impl.rs: remove_expired, update_relation"]}
{"id": "C202", "title": "A revocation can be taken back", "statement": "After a key has revoked another, or said anything else about it, it trusts it anew in a later second. The call gives the answer it would have given without all that, and if the trust is taken on (the answer is not zero), the store and all later answers are as if nothing had been said before. It has to be a later second: a trust made in the second of the revocation is answered with the same weight, but not stored. The same holds of the responses of the service.", "quantifier": "all stores, histories of revocations and trusts between the two keys and of questions, with database failures; all later histories and questions", "why_tests_cant": "All histories: what was said in between decides which rows are left and what they hide.", "anchors": ["trust-graph/src/trust_graph.rs: add_trust, revoke, weight, get_all_certs", "service/src/storage_impl.rs: update_relation"]}
{"id": "C203", "title": "A key can be replaced by a new one", "statement": "A new key takes the place of an old one that is no root: whoever trusts the old key gives the new one a trust, the new key gives one to whomever the old one trusts, and all these are taken on; then the old key may be revoked by anyone. Nobody loses by it: for every certificate told before there is now one with the same keys but the new one for the old, and every key weighs at least as much as before, the new one at least as much as the old one did. The same holds of the responses of the service.", "quantifier": "all stores, pairs of keys the second of which is unknown to the store, lists of trusts and revocations, keys, times below 2^63 seconds", "why_tests_cant": "All stores and all orders of the calls: a revocation hides parts of other chains.", "anchors": ["trust-graph/src/trust_graph.rs: add_trust, revoke, weight, get_all_certs", "trust-graph/src/chain.rs: can_be_extended_by", "service/src/storage_impl.rs: update_relation"]}
{"id": "C204", "title": "The factor of given certificates is the least of theirs", "statement": "certificates_weight_factor, given any list of certificates each of which starts with a trust for a root, returns the least of their factors, where the factor of a certificate is 16 less the maximum length of its root, plus the number of trusts after the first; for no certificates it returns none. If a certificate is empty or starts with a key that is no root, the first such one decides the error. Nothing is written, and a failing statement of the database makes no difference or the answer an error of the storage. For the certificates that get_all_certs tells of a key, 2^(16 - factor) or the weight of the root it is itself, whichever is more, is the weight of the key.", "quantifier": "all stores, lists of certificates shorter than 2^32 - 16 trusts, statements that fail, keys, times", "why_tests_cant": "All lists of certificates and all stores.", "anchors": ["trust-graph/src/trust_graph.rs: certificates_weight_factor, weight", "service/src/storage_impl.rs: get_root_weight_factor"]}
{"id": "C205", "title": "The factor of given certificates is none if a trust in them was revoked", "statement": "certificates_weight_factor returns none if a trust in the certificates was revoked (its documentation: none if there is no such public key or some trust between this key and a root key is revoked).", "quantifier": "all stores, lists of certificates", "why_tests_cant": "All certificates and revocations.", "anchors": ["trust-graph/src/trust_graph.rs: certificates_weight_factor"]}
{"id": "C206", "title": "What the service responds depends only on what it holds", "statement": "Two services that hold the same relations and the same roots, whatever the order in which they came in and whatever else was said to them before, respond the same to every call, whoever makes it, with lists up to their order; and after any further calls made to both they again hold the same and respond the same.", "quantifier": "all pairs of histories of the service that lead to the same contents, with calls by anyone; all further calls without database failures", "why_tests_cant": "All pairs of histories: a test compares a few.", "anchors": ["service/src/service_impl.rs", "service/src/main.rs", "service/src/storage_impl.rs", "trust-graph/src/trust_graph.rs"]}
{"id": "C207", "title": "Whoever stands in a certificate has a certificate", "statement": "If get_all_certs tells a certificate of a key, then for every key in it after the root the part of the certificate that ends at that key is told of that key, so each of them weighs at least what its place gives, twice as much as the next. This holds for all keys but the direct issuer: the part that ends at the direct issuer is told exactly if no key in the part has revoked the direct issuer. A direct issuer that was revoked by the root weighs nothing itself, and yet its trust gives a weight.", "quantifier": "all stores, keys, times, certificates told, positions in them", "why_tests_cant": "All stores and certificates: the search looks at the revocations of different keys at different times.", "anchors": ["trust-graph/src/trust_graph.rs: get_all_certs, weight, bf_search_paths", "trust-graph/src/chain.rs"]}
{"id": "C208", "title": "A peer signs only what they asked for, however scripts are mixed", "statement": "Any number of scripts run at once on the network, their requests interleaved in any way, clocks set at will, databases failing. A script asks a Sig service for no signature but that of the trust or revocation its user asked it for, in the name of the peer they gave, made at a second the clock of the relay said. If Sig services sign with the keys of the peers they are named after, what a script sends to a node as a new trust or revocation is exactly that, with a signature of that peer which verifies, and issue_trust and issue_revocation return exactly that.", "quantifier": "all networks, numbers of scripts, schedules of their steps, clock changes and failures", "why_tests_cant": "All interleavings of scripts.", "anchors": ["aqua/trust-graph-api.aqua: issue_trust, add_trust, add_root_trust, issue_revocation, revoke"]}
{"id": "C209", "title": "A trust prolongs the certificates of its issuer", "statement": "If a key has a certificate and trusts another key with an unexpired trust, then the certificate with this trust at its end is told of the other key exactly if the other key is not in the certificate already and no key of the certificate has revoked the other key or the direct issuer of the first. Below a root that trusts itself this is always so. So the weight that add_trust tells for a trust it takes on is one the trusted key really has from then on, if the weight of the issuer comes from such a certificate (what the issuer itself said before about the trusted key does not matter). If the direct issuer was revoked, the told weight may be more than the key gets. The service tells the same in its records.", "quantifier": "all stores, keys, trusts, times, certificates", "why_tests_cant": "All stores: which keys have revoked which others, and when.", "anchors": ["trust-graph/src/trust_graph.rs: add_trust, get_all_certs, weight, bf_search_paths"]}
{"id": "C21", "title": "Certificate text round trip", "statement": "Parsing the text printed for a certificate gives back that certificate; hence also for the serde helpers for lists of certificates.", "quantifier": "all certificates of every length (including empty), all accepted keys, all u64 times", "why_tests_cant": "Unbounded chains, numbers and base58 strings.", "anchors": ["trust-graph/src/certificate.rs: Display, FromStr", "trust-graph/src/certificate_serde.rs"]}
{"id": "C210", "title": "Exactly when making trusts, revocations and certificates panics", "statement": "Trust::create and Revocation::create panic exactly if the key pair cannot sign, which only an RSA pair can do, and Certificate::issue_root exactly if one of its two trusts cannot be signed. Certificate::issue and issue_with_trust panic on an empty certificate, unless the new trust would expire before it is made; issue also if the certificate verifies and holds the issuer's key, but the issuer cannot sign. They panic in no other case; new_from_root_trust and verify never do. Converting a key or pair of libp2p of a kind that the build does not have panics.", "quantifier": "all key pairs, keys, times, certificates; all signature schemes with the stated laws", "why_tests_cant": "All pairs and certificates; RSA signing does not fail on demand.", "anchors": ["trust-graph/src/trust.rs: create", "trust-graph/src/revoke.rs: create", "trust-graph/src/certificate.rs: issue_root, issue, issue_with_trust, new_from_root_trust, verify", "keypair/src/public_key.rs: From<libp2p_identity::PublicKey>", "keypair/src/key_pair.rs: From<libp2p_identity::Keypair>"]}
{"id": "C211", "title": "Certificates are told exactly until a trust in them expires", "statement": "While a node is only asked questions, a certificate it told at one time is told at a later time exactly if none of its trusts has expired by then. So the certificates told once determine the weight of the key at every later time: that of the key as a root or that of the best certificate that has lasted, and nothing if there is none. The same holds of certificates and weights through an issuer, and of the records and responses of the service.", "quantifier": "all stores, keys, pairs of times below 2^63 seconds in order, histories of questions in between with database failures", "why_tests_cant": "All stores, all times and all questions in between: each of them deletes what has expired.", "anchors": ["trust-graph/src/trust_graph.rs: get_all_certs, weight", "service/src/storage_impl.rs: remove_expired", "service/src/service_api.rs: get_all_certs, get_weight"]}
{"id": "C212", "title": "What a revocation takes away, exactly", "statement": "An accepted revocation that is newer than what its author last said of the key takes away exactly those certificates in which the revoked key stands behind the author, unless it is the direct issuer of the last key and not the next after the author, and those whose first key revoked itself. Every other certificate stays, no new one is told, and a revocation that is not newer takes away nothing. The weights follow. The same holds of certificates and weights through an issuer, and of the records of the service.", "quantifier": "all stores, revocations, keys and times, with database failures", "why_tests_cant": "All stores and chains: a missing and a superfluous effect both show only in particular chains.", "anchors": ["trust-graph/src/trust_graph.rs: revoke, get_all_certs, bf_search_paths", "service/src/storage_impl.rs: update_relation", "service/src/service_api.rs: revoke, get_all_certs"]}
{"id": "C213", "title": "What a new trust changes, exactly", "statement": "A trust that add_trust accepted with a weight, and that is newer than what its issuer last said of the key, stands in every certificate that goes from the issuer straight to the key. All other certificates are told exactly as before, but for those that an earlier revocation of the issuer had taken away. If the earlier word was a trust that has not expired, the certificates are exactly those of before with the new trust in its place, and no weight changes; the same holds of certificates and weights through an issuer, and of the records and weights of the service.", "quantifier": "all stores, trusts, keys and times before the new trust expires", "why_tests_cant": "All stores and chains: a renewal that drops, doubles or adds a certificate somewhere else shows only in particular graphs.", "anchors": ["trust-graph/src/trust_graph.rs: add_trust, get_all_certs, bf_search_paths", "service/src/storage_impl.rs: update_relation", "service/src/service_api.rs: add_trust, get_all_certs"]}
{"id": "C214", "title": "What a new root changes, exactly", "statement": "After a successful set_root the certificates of a key are those told before and those that begin with a trust of the new root for itself: every unrevoked chain of stored, unexpired trusts from it down to the key. Nothing else is told and nothing is lost. The weight of a key becomes the greatest of what it was, what those certificates give it and what it has as the new root; setting a root again changes no certificate and no weight. The same holds of certificates and weights through an issuer, and of the records and weights the service tells after the owner has set a root.", "quantifier": "all stores, keys, lengths and times, with database failures", "why_tests_cant": "All stores and chains: whether an additional root hides, adds or lowers something elsewhere depends on the graph.", "anchors": ["trust-graph/src/trust_graph.rs: set_root, get_all_certs, weight, certificates_weight_factor, bf_search_paths", "service/src/storage_impl.rs: set_root_weight_factor", "service/src/service_api.rs: set_root, get_all_certs"]}
{"id": "C215", "title": "Roots act independently of each other", "statement": "The certificates that begin with a root depend only on the stored trusts and revocations, not on which other roots there are. If three nodes hold the same trusts and revocations and the roots of one are those of the two others, it tells exactly the certificates that one of these tells, and the weight of every key is the greater of its two weights; the same holds of certificates and weights through an issuer, and of the records and weights of the service.", "quantifier": "all triples of stores with the same relations, all keys and times, with database failures", "why_tests_cant": "All stores and root sets: an interference of roots would need a particular graph to show.", "anchors": ["trust-graph/src/trust_graph.rs: set_root, get_all_certs, weight, bf_search_paths", "service/src/storage_impl.rs: root_keys, get_root_weight_factor", "service/src/service_api.rs: get_all_certs"]}
{"id": "C216", "title": "The order in which roots are set does not matter", "statement": "When different keys are made roots one after the other, the order makes no difference: whatever is called afterwards, the answers are the same up to the order of lists. The same holds of the responses of the service when the owner makes different peers roots. With two lengths for one key the order matters, since the first one counts (C73).", "quantifier": "all stores, lists of different keys with lengths, permutations of them, and later calls", "why_tests_cant": "All permutations and all later histories.", "anchors": ["trust-graph/src/trust_graph.rs: set_root", "service/src/storage_impl.rs: set_root_weight_factor, get_root_weight_factor, root_keys", "service/src/service_api.rs: set_root"]}
{"id": "C217", "title": "A root may be set early or late", "statement": "If trusts are added, revocations made and questions asked, and no trust is turned away with weight zero, then a root set after all of these calls leaves exactly the same store as the same root set before them, so every later call is answered alike. If a trust was turned away for want of weight, the order may matter: with the root set first it would have been kept. The same holds of the service, when its owner sets the root.", "quantifier": "all stores, histories of calls that set no root and add no whole certificate, keys and lengths", "why_tests_cant": "All histories: whether a call's effect depends on a root depends on the graph at that moment.", "anchors": ["trust-graph/src/trust_graph.rs: set_root, add_trust, revoke, get_all_certs, weight", "service/src/storage_impl.rs: set_root_weight_factor, update_relation, remove_expired", "service/src/service_api.rs: set_root, add_trust, revoke"]}
{"id": "C22", "title": "Certificate parsers are total", "statement": "Certificate::decode and Certificate::from_str return Ok or Err on every input and never panic.", "quantifier": "all byte strings and all strings", "why_tests_cant": "Unbounded malformed inputs; from_str is reachable by any caller of insert_cert_raw.", "anchors": ["trust-graph/src/certificate.rs: Certificate::decode, FromStr", "service/src/service_api.rs: insert_cert_raw"]}
{"id": "C23", "title": "Certificate search terminates", "statement": "get_all_certs (and weight, add_trust, ... which use it) finishes on every stored graph, whatever cycles, self-signed trusts and revocations it contains.", "quantifier": "all stored graphs of any size and shape, all keys", "why_tests_cant": "Termination on all cyclic graphs cannot be tested.", "anchors": ["trust-graph/src/trust_graph.rs: bf_search_paths", "trust-graph/src/chain.rs: Chain::can_be_extended_by"]}
{"id": "C24", "title": "Exactly the unrevoked root paths are returned", "statement": "get_all_certs(k, now) returns a certificate c if and only if c is a chain of currently stored trusts that starts with a self-signed trust of a root, ends at k, repeats no key except through a self-signed trust in the middle, and in which no key is revoked by a key above it, except that a revocation of the direct issuer of k (the last key but one) is ignored.", "quantifier": "all histories of calls leading to a store, all keys, all times", "why_tests_cant": "Soundness and completeness range over all graphs and all paths.", "anchors": ["trust-graph/src/trust_graph.rs: get_all_certs, bf_search_paths", "trust-graph/src/chain.rs"]}
{"id": "C25", "title": "A revocation excludes every chain from the revoker to the revoked key", "statement": "If A has a stored revocation of C, no certificate returned by get_all_certs contains C below A (README: R -> A -> ... -> C is not a path if A revoked C).", "quantifier": "all histories, all pairs A, C, all target keys, all times", "why_tests_cant": "The tests check only the revoked key itself as target; every other position needs all chains.", "anchors": ["trust-graph/src/trust_graph.rs: bf_search_paths, revoke", "README.md: path to the root"]}
{"id": "C26", "title": "Returned certificates verify", "statement": "Every certificate returned by get_all_certs(k, now) passes Certificate::verify at now against the configured roots. The records of a certificate in a response of the service are read as such a certificate, also after it was written as a text, and whoever holds its first key for a root can verify it at every time until one of the records expires.", "quantifier": "all histories of API calls with arbitrary arguments and failures, all keys, all times below 2^63 seconds", "why_tests_cant": "End-to-end over all histories.", "anchors": ["trust-graph/src/trust_graph.rs: get_all_certs, add_trust", "trust-graph/src/certificate.rs: verify"]}
{"id": "C27", "title": "Expired trusts never count", "statement": "No certificate returned at now, and no weight computed at now, uses a trust whose expiry is not after now.", "quantifier": "all histories, all keys, all u64 times", "why_tests_cant": "All times including those beyond the signed 64-bit range used by the database.", "anchors": ["service/src/storage_impl.rs: remove_expired", "trust-graph/src/trust_graph.rs: get_all_certs"]}
{"id": "C28", "title": "A stored unexpired trust is kept", "statement": "A trust accepted into the store stays there until its expiry passes or a strictly newer trust or revocation by the same issuer for the same key replaces it; asking about weights or certificates at a time before the expiry never drops it.", "quantifier": "all histories, all trusts, all u64 expiries (issue_root uses u64::MAX)", "why_tests_cant": "All expiries including the extreme one the library itself issues.", "anchors": ["service/src/storage_impl.rs: insert, remove_expired", "trust-graph/src/certificate.rs: issue_root"]}
{"id": "C29", "title": "Everything stored is authentic", "statement": "After any history of calls, every stored trust carries a signature accepted by its issuer's key and every stored revocation one accepted by its revoker's key.", "quantifier": "all histories of API calls with arbitrary arguments, including failures and crashes at any database statement", "why_tests_cant": "Invariant over all histories and crash points.", "anchors": ["trust-graph/src/trust_graph.rs: add_trust, add, revoke", "service/src/storage_impl.rs"]}
{"id": "C30", "title": "At most one relation per issuer and key, the newest wins", "statement": "For each ordered pair (issuer, key) at most one relation is stored, and importing a relation replaces the stored one exactly when it is strictly newer; all other pairs are untouched.", "quantifier": "all histories, all relations", "why_tests_cant": "Invariant over all histories.", "anchors": ["service/src/storage_impl.rs: update_relation, insert"]}
{"id": "C31", "title": "Import order does not matter", "statement": "Importing the same set of relations between any keys in any order leaves the same relations stored, as long as relations of the same pair have different times.", "quantifier": "all finite sets of relations and all permutations of their import", "why_tests_cant": "All permutations.", "anchors": ["service/src/storage_impl.rs: update_relation"]}
{"id": "C32", "title": "Revocations never expire", "statement": "Once a revocation is stored it remains stored, through any calls and garbage collections, until a strictly newer relation from the same issuer for the same key is imported.", "quantifier": "all histories after the revocation, all times", "why_tests_cant": "All continuations of a history.", "anchors": ["service/src/storage_impl.rs: remove_expired", "trust-graph/src/trust_relation.rs: expires_at"]}
{"id": "C33", "title": "A successful revoke takes effect", "statement": "If revoke(r) reports success, then no certificate for the revoked key that passes through the revoker as its issuer is returned afterwards, unless a newer trust is imported.", "quantifier": "all histories and revocations", "why_tests_cant": "Depends on what is stored and on timestamps equal to the second.", "anchors": ["trust-graph/src/trust_graph.rs: revoke", "service/src/storage_impl.rs: update_relation"]}
{"id": "C34", "title": "A revoked trust cannot be replayed", "statement": "Once a trust has been replaced by a newer revocation, importing that same trust again never makes it count again.", "quantifier": "all histories after the revocation", "why_tests_cant": "All continuations, including ones with later trusts that expire.", "anchors": ["service/src/storage_impl.rs: update_relation, remove_expired"]}
{"id": "C35", "title": "Weight is the best chain", "statement": "weight(k, now) is the maximum of the root weight of k (if k is a root) and of 2^(max_chain_len of the root - number of trusts after the root trust), over the certificates returned for k; it is 0 exactly when k is neither a root nor has a certificate.", "quantifier": "all histories, keys and times", "why_tests_cant": "All graphs; tests compare a few weights.", "anchors": ["trust-graph/src/trust_graph.rs: weight, certificates_weight_factor, get_weight_from_factor"]}
{"id": "C36", "title": "Weights are zero or a power of two up to 65536", "statement": "Every weight reported by weight, weight_from and add_trust is 0 or a power of two not above 2^16.", "quantifier": "all histories and arguments", "why_tests_cant": "All reachable states.", "anchors": ["trust-graph/src/trust_graph.rs: weight, weight_from, add_trust"]}
{"id": "C37", "title": "max_chain_len bounds chains", "statement": "With all roots set with max_chain_len at most m (m <= 16), no key whose only chains contain more than m trusts after the root trust has non-zero weight.", "quantifier": "all histories", "why_tests_cant": "All histories including expiry of shorter paths.", "anchors": ["trust-graph/src/trust_graph.rs: get_weight_from_factor, add_trust, set_root", "aqua/trust-graph-api.aqua: set_root"]}
{"id": "C38", "title": "add_trust reports and stores by issuer weight", "statement": "add_trust returns the issuer's weight for a self-signed trust and half of it otherwise; when that is 0 nothing is stored, otherwise the trust is imported.", "quantifier": "all histories, trusts, issuers, times", "why_tests_cant": "All reachable stores.", "anchors": ["trust-graph/src/trust_graph.rs: add_trust, get_next_weight"]}
{"id": "C39", "title": "The weight reported by add_trust is real", "statement": "After add_trust returns w, weight of the trusted key at the same time is at least w.", "quantifier": "all histories, trusts, issuers, times", "why_tests_cant": "All reachable stores.", "anchors": ["trust-graph/src/trust_graph.rs: add_trust, weight"]}
{"id": "C40", "title": "set_root updates the root's weight", "statement": "After set_root(k, n) succeeds, k is a root with maximum chain length n (capped at 16), replacing any earlier setting; no other root changes.", "quantifier": "all histories of set_root calls", "why_tests_cant": "Depends on table constraints and repeated calls.", "anchors": ["trust-graph/src/trust_graph.rs: set_root", "service/src/storage_impl.rs: create_tables, set_root_weight_factor, get_root_weight_factor"]}
{"id": "C41", "title": "Only the owner changes roots", "statement": "The set of roots and their weights changes only by set_root called by the peer that created the service.", "quantifier": "all sequences of service calls by any callers with any arguments", "why_tests_cant": "All call sequences.", "anchors": ["service/src/service_api.rs: set_root"]}
{"id": "C42", "title": "Adding a certificate is all or nothing", "statement": "TrustGraph::add either imports the whole chain or leaves the store as it was.", "quantifier": "all certificates, stores and failure points", "why_tests_cant": "All failure points.", "anchors": ["trust-graph/src/trust_graph.rs: add"]}
{"id": "C43", "title": "A valid root certificate takes effect when added", "statement": "Adding a certificate produced by Certificate::issue_root (or issue) for a configured root makes get_all_certs of its last key return it, while it is unexpired and unrevoked and short enough.", "quantifier": "all key pairs, certificates, times", "why_tests_cant": "All chains and times.", "anchors": ["trust-graph/src/trust_graph.rs: add, get_all_certs", "trust-graph/src/certificate.rs: issue_root"]}
{"id": "C44", "title": "Queries are stable", "statement": "get_all_certs, weight, weight_from, get_all_certs_from and get_revocations do not change the answers to later queries at the same or a later time.", "quantifier": "all histories, all interleavings of queries at non-decreasing times below 2^63 seconds", "why_tests_cant": "All query sequences.", "anchors": ["trust-graph/src/trust_graph.rs: get_all_certs, weight"]}
{"id": "C45", "title": "Trust only shrinks with time", "statement": "Without imports in between, certificates returned at a later time are a subset of those returned earlier, and weights do not increase.", "quantifier": "all stores, all pairs of times below 2^63 seconds", "why_tests_cant": "All pairs of times.", "anchors": ["trust-graph/src/trust_graph.rs: get_all_certs, weight", "service/src/storage_impl.rs: remove_expired"]}
{"id": "C46", "title": "Certificates through an issuer", "statement": "get_all_certs_from(k, i) returns exactly the certificates of get_all_certs(k) that contain a trust issued by i (README), and weight_from never exceeds weight.", "quantifier": "all histories, keys, issuers, times", "why_tests_cant": "All graphs.", "anchors": ["trust-graph/src/trust_graph.rs: get_all_certs_from, weight_from", "README.md: How to get certificates"]}
{"id": "C47", "title": "Shorter certificates come first", "statement": "The certificates returned by get_all_certs are ordered by non-decreasing length and contain no duplicates.", "quantifier": "all histories and keys", "why_tests_cant": "All graphs.", "anchors": ["trust-graph/src/trust_graph.rs: bf_search_paths"]}
{"id": "C48", "title": "Database failures are safe", "statement": "If any database statement fails (or the process dies there) during any call, the call reports a storage error and the store is one that a prefix of the call's writes produces; all store invariants still hold and later calls work.", "quantifier": "all calls, all statements at which a failure or crash may happen, all histories", "why_tests_cant": "All crash points of all histories.", "anchors": ["service/src/storage_impl.rs", "trust-graph/src/trust_graph.rs"]}
{"id": "C49", "title": "Times must come from the host", "statement": "Every service call that takes the current time rejects it unless the security tetraplet of that very argument says it was produced by the host's peer.timestamp_sec.", "quantifier": "all service functions with a timestamp argument, all call parameters", "why_tests_cant": "All call parameters; one wrong argument index suffices to break it.", "anchors": ["service/src/misc.rs: check_timestamp_tetraplets", "service/src/service_api.rs"]}
{"id": "C50", "title": "Strangers cannot erase trusts", "statement": "A call that does not carry a host-produced time cannot remove an unexpired trust of other peers from the store.", "quantifier": "all service calls with arbitrary arguments by arbitrary callers, all stores", "why_tests_cant": "All calls with all arguments.", "anchors": ["service/src/service_api.rs: insert_cert, insert_cert_raw", "trust-graph/src/trust_graph.rs: add, get_all_certs"]}
{"id": "C51", "title": "Nothing from the future is stored", "statement": "The service stores no trust or revocation whose creation time is after the time of the call that imported it.", "quantifier": "all service calls and arguments", "why_tests_cant": "All calls; a future-dated trust cannot be revoked until then.", "anchors": ["service/src/service_api.rs: add_trust, revoke, insert_cert, insert_cert_raw"]}
{"id": "C52", "title": "DTO conversions are lossless", "statement": "Converting a certificate, trust or revocation to its service record and back gives the same value.", "quantifier": "all certificates, trusts, revocations with whole-second times over inlineable (non-RSA) keys, all signature kinds", "why_tests_cant": "Quantifies over all values.", "anchors": ["service/src/dto.rs"]}
{"id": "C53", "title": "Service issue/import flow works", "statement": "A trust assembled by issue_trust from the issuer's signature over get_trust_bytes passes verify_trust and is accepted by add_trust for that issuer, whatever kinds of keys issuer and subject have; likewise issue_revocation and revoke.", "quantifier": "all keys of inlineable kinds, all times up to expiry", "why_tests_cant": "Mixed key kinds are never tested.", "anchors": ["service/src/service_api.rs: get_trust_bytes, issue_trust, verify_trust, add_trust, get_revocation_bytes, issue_revocation, revoke"]}
{"id": "C54", "title": "Failed service calls carry no data", "statement": "A service result has success = true exactly when the operation succeeded; otherwise its payload is the default (weight 0, no certificates, ...).", "quantifier": "all service calls", "why_tests_cant": "All outcomes of all calls.", "anchors": ["service/src/results.rs"]}
{"id": "C55", "title": "Exported revocations are exactly the stored ones", "statement": "export_revocations(k) returns exactly the stored revocations of k, each of which verifies when imported elsewhere.", "quantifier": "all histories, all keys", "why_tests_cant": "All histories.", "anchors": ["service/src/service_api.rs: export_revocations", "trust-graph/src/trust_graph.rs: get_revocations"]}
{"id": "C56", "title": "Key pair byte forms round trip", "statement": "KeyPair::from_vec(KeyPair::to_vec(kp)) gives back the key pair and any bytes from_vec accepts are what to_vec prints; KeyPair::from_secret_key(secret(kp), kind) gives it back too; neither function panics.", "quantifier": "all key pairs of all kinds, all byte strings", "why_tests_cant": "All key pairs and byte strings; to_vec is unimplemented for RSA, which no test reaches.", "anchors": ["keypair/src/key_pair.rs: KeyPair::to_vec, from_vec, from_secret_key, secret"]}
{"id": "C57", "title": "Key and signature parsers are total", "statement": "PublicKey::decode, PublicKeyHashable::from_str and Signature::decode return Ok or Err on every input and never panic.", "quantifier": "all byte strings and strings", "why_tests_cant": "Unbounded malformed inputs; one empty string suffices.", "anchors": ["keypair/src/public_key.rs: PublicKey::decode", "keypair/src/signature.rs: Signature::decode", "trust-graph/src/public_key_hashable.rs: FromStr"]}
{"id": "C58", "title": "Signature checks always answer", "statement": "PublicKey::verify answers Ok or a verification error for every key, message and signature, also when the kinds of key and signature differ; it never panics.", "quantifier": "all keys, messages and signatures of all kinds", "why_tests_cant": "All combinations of kinds and all byte strings.", "anchors": ["keypair/src/public_key.rs: PublicKey::verify"]}
{"id": "C59", "title": "Key kind names round trip", "statement": "KeyFormat::from_str of the printed name of a kind gives that kind, every string it accepts is one printed name, and the byte codes of the kinds behave the same way.", "quantifier": "all kinds, all strings, all bytes", "why_tests_cant": "All strings.", "anchors": ["keypair/src/key_pair.rs: KeyFormat"]}
{"id": "C60", "title": "Base58 round trip", "statement": "Decoding the base58 text of any byte string gives that byte string, and every text that decodes is the text of what it decodes to (also with leading zero bytes).", "quantifier": "all byte strings, all texts", "why_tests_cant": "All lengths and leading zeros; base58 is positional arithmetic over the whole string.", "anchors": ["trust-graph/src/public_key_hashable.rs", "trust-graph/src/trust.rs: to_string, convert_from_strings"]}
{"id": "C61", "title": "Exact acceptance condition of Revocation::verify", "statement": "Revocation::verify succeeds exactly when the revoker's key accepts the signature over the revoked key and the second of revocation; Revocation::create gives a revocation that verifies.", "quantifier": "all revocations, key pairs and times", "why_tests_cant": "All signatures and times.", "anchors": ["trust-graph/src/revoke.rs: Revocation::verify, create, signature_bytes"]}
{"id": "C62", "title": "Import order does not matter for relations of different seconds", "statement": "Importing the same relations in any order, where relations of the same two keys differ in their whole second, leaves stores with the same contents, and all later calls get the same answers up to the order of lists.", "quantifier": "all reachable stores, all finite lists of relations, all permutations, all later calls", "why_tests_cant": "All permutations and all continuations.", "anchors": ["service/src/storage_impl.rs: update_relation", "trust-graph/src/trust_graph.rs"]}
{"id": "C63", "title": "Everything stored was offered", "statement": "A relation found in the store after a history was there before, or one of the calls offered it with a good signature and, for a trust, before its expiry.", "quantifier": "all reachable stores, all histories with failures", "why_tests_cant": "All histories.", "anchors": ["trust-graph/src/trust_graph.rs: add_trust, add, revoke"]}
{"id": "C64", "title": "Why relations leave the store", "statement": "A stored relation leaves the store only because a call came with a time at or past its expiry (as the database compares them) or because a call offered a strictly newer well-signed relation of the same two keys.", "quantifier": "all reachable stores, all histories with failures", "why_tests_cant": "All histories.", "anchors": ["service/src/storage_impl.rs: update_relation, remove_expired"]}
{"id": "C65", "title": "Service calls always respond", "statement": "Every service call returns a result record; it never traps.", "quantifier": "all service calls with arbitrary texts and records, all stores, all failures", "why_tests_cant": "All malformed texts from remote peers.", "anchors": ["service/src/service_api.rs", "trust-graph/src/certificate.rs: FromStr"]}
{"id": "C66", "title": "A service call is one checked graph call", "statement": "A service call whose caller, timestamp and creation time are admissible and whose texts describe keys, trusts, certificates or revocations does exactly the corresponding graph call and reports its outcome; any other call fails and changes nothing.", "quantifier": "all service calls, callers, call parameters, stores and failures", "why_tests_cant": "All calls, all texts.", "anchors": ["service/src/service_api.rs", "service/src/dto.rs", "service/src/misc.rs"]}
{"id": "C67", "title": "Revoked keys appear only as direct issuers", "statement": "In a certificate returned by get_all_certs, a key that a key above it has revoked is the direct issuer of the last key; and the last key is never one that a key above it has revoked.", "quantifier": "all histories, keys, times", "why_tests_cant": "All chains.", "anchors": ["trust-graph/src/trust_graph.rs: bf_search_paths"]}
{"id": "C68", "title": "Expired trusts never count below 2^63 seconds", "statement": "At any time below 2^63 seconds every trust of a returned certificate expires strictly later.", "quantifier": "all histories, keys, times below 2^63 seconds", "why_tests_cant": "All times.", "anchors": ["service/src/storage_impl.rs: remove_expired"]}
{"id": "C69", "title": "Unexpired trusts with a 63-bit expiry are kept", "statement": "A stored trust that expires below 2^63 seconds stays stored through all calls at earlier times and all failures, until a strictly newer relation of its two keys is offered.", "quantifier": "all histories", "why_tests_cant": "All continuations.", "anchors": ["service/src/storage_impl.rs: remove_expired, update_relation"]}
{"id": "C70", "title": "A revocation newer than the store takes effect", "statement": "If all stored relations of the two keys are older than the revocation, then after a successful revoke no returned certificate has the revoked key right below the revoker, until a strictly newer relation of the two keys is offered.", "quantifier": "all histories, all continuations, all target keys", "why_tests_cant": "All continuations.", "anchors": ["trust-graph/src/trust_graph.rs: revoke"]}
{"id": "C71", "title": "No replay while the revocation is stored", "statement": "While a revocation is stored, no trust by the revoker for the revoked key made at or before the revocation gets stored.", "quantifier": "all histories", "why_tests_cant": "All continuations.", "anchors": ["service/src/storage_impl.rs: update_relation"]}
{"id": "C72", "title": "Long chains weigh at most one", "statement": "A key that is no root and whose certificates all have at least as many trusts after the root trust as the largest maximum chain length has weight at most 1, and a key of weight 1 cannot give others trust.", "quantifier": "all histories", "why_tests_cant": "All graphs.", "anchors": ["trust-graph/src/trust_graph.rs: weight, add_trust"]}
{"id": "C73", "title": "The first set_root of a key wins", "statement": "set_root makes a key a root with the given length (at most 16) if it was none before; otherwise, and for all other keys and all relations, nothing changes.", "quantifier": "all histories of calls", "why_tests_cant": "All histories.", "anchors": ["trust-graph/src/trust_graph.rs: set_root", "service/src/storage_impl.rs: set_root_weight_factor"]}
{"id": "C74", "title": "Adding a certificate is adding its trusts in order", "statement": "add behaves as adding the trusts one by one: it succeeds if all are good, otherwise it stops at the first bad one, names its defect and keeps what the trusts before it did.", "quantifier": "all certificates and stores", "why_tests_cant": "All chains.", "anchors": ["trust-graph/src/trust_graph.rs: add"]}
{"id": "C75", "title": "A good certificate counts once added", "statement": "If the expiries are after now and below 2^63 seconds, the keys are distinct, the chain is not longer than the root's maximum, nothing as new but the same trusts is stored for its pairs and no revocation between its keys is stored, then add succeeds and get_all_certs of its last key returns the certificate (in whole seconds) at every time before its expiries.", "quantifier": "all certificates, stores and times", "why_tests_cant": "All chains and times.", "anchors": ["trust-graph/src/trust_graph.rs: add, get_all_certs"]}
{"id": "C76", "title": "When the weight reported by add_trust is real", "statement": "If an issuer that is a root has its own unexpired trust stored, the trust expires after now and below 2^63 seconds, nothing as new is stored for the two keys and no other revocation between the keys involved is stored, then the weight of the trusted key after add_trust is at least the weight reported.", "quantifier": "all histories, trusts, issuers, times", "why_tests_cant": "All graphs.", "anchors": ["trust-graph/src/trust_graph.rs: add_trust, weight"]}
{"id": "C77", "title": "Certificates from another issuer", "statement": "For an issuer other than the key itself get_all_certs_from returns exactly the certificates with a trust issued by it, in the same order; weight_from is the best of them and never exceeds weight.", "quantifier": "all histories, keys, issuers, times", "why_tests_cant": "All graphs.", "anchors": ["trust-graph/src/trust_graph.rs: get_all_certs_from, weight_from"]}
{"id": "C78", "title": "Which trusts and certificates survive encoding", "statement": "A trust survives encode and decode exactly if its times are whole seconds and its key and signature encodings are shorter than 256 bytes; a certificate exactly if it has 2 to 255 trusts that each survive and take less than 256 bytes.", "quantifier": "all trusts, all certificates", "why_tests_cant": "All sizes.", "anchors": ["trust-graph/src/trust.rs: encode, decode", "trust-graph/src/certificate.rs: encode, decode"]}
{"id": "C79", "title": "Domain separation for keys that are not RSA", "statement": "What is hashed for a revocation of an ed25519 or secp256k1 key is never what is hashed for a trust; on wasm32 this covers all keys.", "quantifier": "all pairs of messages", "why_tests_cant": "All pairs.", "anchors": ["trust-graph/src/trust.rs: signature_bytes", "trust-graph/src/revoke.rs: signature_bytes"]}
{"id": "C80", "title": "When issue_with_trust gives a valid certificate", "statement": "Extending a valid certificate with a given trust gives a valid certificate exactly if the trust verifies under the extending key.", "quantifier": "all certificates, trusts, times", "why_tests_cant": "All trusts.", "anchors": ["trust-graph/src/certificate.rs: issue_with_trust"]}
{"id": "C81", "title": "Times come from the host, other calls", "statement": "Every service call with a time argument other than insert_cert, insert_cert_raw and get_weight_from fails without effect unless the tetraplet of that argument is the host's; get_weight_from checks the tetraplet of its issuer argument instead.", "quantifier": "all service calls and call parameters", "why_tests_cant": "All call parameters.", "anchors": ["service/src/misc.rs: check_timestamp_tetraplets", "service/src/service_api.rs"]}
{"id": "C82", "title": "What a service call can remove", "statement": "A service call removes from the store only trusts expired at the time it was given (a host time, unless it is insert_cert, insert_cert_raw or get_weight_from) and relations for which it brings a newer well-signed one of the same keys.", "quantifier": "all service calls, callers, stores, failures", "why_tests_cant": "All calls.", "anchors": ["service/src/service_api.rs"]}
{"id": "C83", "title": "Without certificate inserts nothing from the future is stored", "statement": "In a history without insert_cert and insert_cert_raw, everything stored was made no later than a host-given time of the call that brought it.", "quantifier": "all such service histories", "why_tests_cant": "All histories.", "anchors": ["service/src/service_api.rs: add_trust, revoke"]}
{"id": "C84", "title": "What signature checking checks", "statement": "PublicKey::verify succeeds exactly if, for ed25519 and RSA, the scheme accepts the signature, and, for secp256k1, the signature merely parses as DER.", "quantifier": "all keys, messages, signatures", "why_tests_cant": "All signatures.", "anchors": ["keypair/src/public_key.rs: PublicKey::verify", "keypair/src/secp256k1.rs: verify_hashed"]}
{"id": "C85", "title": "Exactly which inputs make the parsers panic", "statement": "The parsers of keys, signatures, trusts and certificates (bytes and text) panic exactly on the inputs described: empty keys or signatures, bytes after a trust, certificate texts of fewer than two lines, and encodings containing such parts where parsing reaches them.", "quantifier": "all byte strings and texts", "why_tests_cant": "All inputs.", "anchors": ["trust-graph/src/trust.rs: decode", "trust-graph/src/certificate.rs: decode, FromStr", "keypair/src/public_key.rs: decode", "keypair/src/signature.rs: decode"]}
{"id": "C86", "title": "Answers depend only on the contents", "statement": "Two stores that hold the same relations and roots answer all calls alike (lists up to order) and hold the same again afterwards, however they came about.", "quantifier": "all pairs of reachable stores, all sequences of calls", "why_tests_cant": "All pairs of histories.", "anchors": ["trust-graph/src/trust_graph.rs", "service/src/storage_impl.rs"]}
{"id": "C87", "title": "Repeating a call changes nothing", "statement": "Repeating a successful revoke, set_root, add_trust (of a trust that is not expired) or add leaves the contents of the store as they were.", "quantifier": "all reachable stores, all arguments", "why_tests_cant": "All stores.", "anchors": ["trust-graph/src/trust_graph.rs: add_trust, add, revoke, set_root"]}
{"id": "C88", "title": "Issuing through the Aqua interface only computes", "statement": "issue_trust and issue_revocation of the Aqua interface change no store, return exactly one of a result and an error, and, when the Sig service of the issuer signs with the issuer's key, return a trust or revocation with the asked contents that the issuer's key accepts; issue_trust fails only if the peer id holds no key or the Sig service does not sign.", "quantifier": "all issuers, subjects, times, Sig services, stores of all nodes, origins of arguments", "why_tests_cant": "All arguments and all behaviours of the Sig service.", "anchors": ["aqua/trust-graph-api.aqua: issue_trust, issue_revocation"]}
{"id": "C89", "title": "What add_trust of the Aqua interface guarantees", "statement": "If add_trust returns no error, only the named node's store changed, the trust asked for was signed by the issuer, its times are in order with the clocks of relay and node, and it was imported if the issuer has enough weight on that node (and otherwise dropped). With a cooperating Sig service and no database failure it returns no error exactly if relay time <= node time <= expiry.", "quantifier": "all nodes, issuers, subjects, times, clock readings of relay and node, reachable stores", "why_tests_cant": "All clock readings and stores.", "anchors": ["aqua/trust-graph-api.aqua: add_trust, import_trust"]}
{"id": "C90", "title": "What add_root_trust of the Aqua interface guarantees", "statement": "If add_root_trust returns no error, the caller owns the service of the node, the key became a root there and its self-signed trust was imported. A caller who does not own it gets an error and nothing changes. The owner with a cooperating Sig service, no database failure and clocks in order gets no error.", "quantifier": "all callers, nodes, keys, lengths, times, reachable stores", "why_tests_cant": "All callers and stores.", "anchors": ["aqua/trust-graph-api.aqua: add_root_trust, set_root"]}
{"id": "C91", "title": "What revoke of the Aqua interface guarantees", "statement": "If revoke returns no error the revocation asked for, signed by the revoker, was imported into the named node's store and no other store changed. With a cooperating Sig service and no failure it succeeds exactly if the relay's time is not after the node's; otherwise nothing changes.", "quantifier": "all nodes, revokers, subjects, clock readings, reachable stores", "why_tests_cant": "All clock readings and stores.", "anchors": ["aqua/trust-graph-api.aqua: revoke, import_revocation"]}
{"id": "C92", "title": "Queries of the Aqua interface answer for the named node at its own time", "statement": "get_weight, get_all_certs, get_all_certs_from, get_host_certs and get_host_certs_from answer exactly as the trust graph of the named node does at that node's clock, or report the storage error; verify_trust succeeds exactly if the trust is well signed and not expired at that clock, and changes nothing.", "quantifier": "all nodes, keys, clock readings, origins of the other arguments, reachable stores, database failures", "why_tests_cant": "All stores and failures.", "anchors": ["aqua/trust-graph-api.aqua: get_weight, get_all_certs, get_all_certs_from, get_host_certs, get_host_certs_from, verify_trust"]}
{"id": "C93", "title": "isFluencePeer is true exactly for vouched nodes", "statement": "isFluencePeer answers true exactly if in the node's store, at the node's clock, the Fluence root is a root with a self-signed trust, trusts the label key, the label key trusts the node, and the root has not revoked the node; it answers with one boolean, or with an error only if the database failed.", "quantifier": "all nodes, clock readings, reachable stores, database failures", "why_tests_cant": "All stores.", "anchors": ["aqua/labelling.aqua: isFluencePeer, get_host_certs_from"]}
{"id": "C94", "title": "The Aqua interface touches one node and lets only owners set roots", "statement": "Every function of the Aqua interface leaves all stores but that of its named node as they were. After any sequence of uses by any users, every root of a node was set through the interface by the owner of that node's service, with the stated length.", "quantifier": "all functions of the interface, all sequences of uses by any users, all failures", "why_tests_cant": "All histories over several nodes.", "anchors": ["aqua/trust-graph-api.aqua: all functions", "aqua/labelling.aqua: isFluencePeer"]}
{"id": "C95", "title": "What the Aqua interface removes and adds", "statement": "Through the Aqua interface a relation leaves a store only if it expired by the clock of that node or a newer signed relation of the same keys, which the function was asked to bring, replaces it; what is added is what the function was asked to bring (given, or made on the way with the asked contents), signed by the key it names, and, unless it came with insert_cert, was not made after the node's clock reading. In particular insert_cert, whose time the service does not check, is harmless through the interface.", "quantifier": "all functions of the interface, all arguments, reachable stores", "why_tests_cant": "All stores and arguments.", "anchors": ["aqua/trust-graph-api.aqua: all functions", "aqua/labelling.aqua: isFluencePeer"]}
{"id": "C96", "title": "No error from add_trust means stored", "statement": "add_trust of the Aqua interface returns no error whenever the Sig service cooperates and no database fails, and no error means that the trust is in the node's store.", "quantifier": "all nodes, issuers, subjects, clock readings, reachable stores", "why_tests_cant": "All clock readings and stores.", "anchors": ["aqua/trust-graph-api.aqua: add_trust"]}
{"id": "C97", "title": "add_root_trust is all or nothing", "statement": "If add_root_trust returns an error, the key has not become a root of the node.", "quantifier": "all callers, clock readings, reachable stores", "why_tests_cant": "All clock readings.", "anchors": ["aqua/trust-graph-api.aqua: add_root_trust"]}
{"id": "C98", "title": "get_weight_from of the Aqua interface answers", "statement": "get_weight_from of the Aqua interface answers as the trust graph of the named node at that node's clock for every two peers, as in the README example.", "quantifier": "all nodes, peers, origins of the peer ids, reachable stores", "why_tests_cant": "All origins.", "anchors": ["aqua/trust-graph-api.aqua: get_weight_from", "service/src/service_api.rs: get_weight_from"]}
{"id": "C99", "title": "Which texts are certificates", "statement": "A text is read as a certificate exactly if, after two lines, its lines are groups of four: a key and a signature in base58 (a 1 for every leading zero byte, then the digits of the number without a leading zero), and two decimal numbers below 2^64 without or with a plus sign. An error names the first group that is not a trust. The texts that make the parser panic are exactly those with fewer than two lines or with an empty key, or an empty signature after a good key, in the first group that is not a trust.", "quantifier": "all texts, trusts and certificates of both builds", "why_tests_cant": "Acceptance must be exact over all texts.", "anchors": ["trust-graph/src/certificate.rs: from_str, to_string", "trust-graph/src/trust.rs: convert_from_strings, str_to_duration, bs58_str_to_vec"]}
