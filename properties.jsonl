{"id": "C01", "title": "Caveat enabling is exactly field inclusion", "statement": "For any two caveat objects, `a.enables(b)` returns true if and only if every field of `a` is present in `b` with an equal JSON value. Consequently {} enables every caveat, every caveat enables itself, enabling is transitive, and a caveat with at least one field never enables {}.", "quantifier": "all pairs/triples of JSON objects of any size and nesting depth", "why_tests_cant": "The set of JSON objects is infinite; tests enumerate seven pairs.", "anchors": ["ucan/src/capability/caveats.rs::Caveat::enables", "ucan/src/capability/caveats.rs::Caveat::eq"]}
{"id": "C02", "title": "Resource containment never crosses kinds or DIDs", "statement": "`a.contains(b)` on resources holds only when both are plain, both are `my:`, or both are `as:` with the same DID, and then exactly when the wildcard or the scope of `a` contains the scope of `b`; a scoped resource never contains the wildcard. Containment is reflexive and transitive whenever the user's scope containment is.", "quantifier": "all resources over every user-supplied scope type", "why_tests_cant": "Ranges over every scope type a user may plug in and all resource values.", "anchors": ["ucan/src/capability/semantics.rs::Resource::contains", "ucan/src/capability/semantics.rs::ResourceUri::contains"]}
{"id": "C03", "title": "Capability enabling never broadens any component", "statement": "`a.enables(b)` is true exactly when both caveats are JSON objects, a's resource contains b's, a's ability is at least b's, and a's caveat enables b's. If the user's scope containment and ability order are preorders, enabling is transitive, and reflexive on every capability whose caveat is an object.", "quantifier": "all pairs/triples of capabilities under every user-defined semantics", "why_tests_cant": "Universally quantified over user-defined semantics and capability values.", "anchors": ["ucan/src/capability/semantics.rs::CapabilityView::enables"]}
{"id": "C04", "title": "Flat capability list to map and back loses nothing", "statement": "Whenever converting a list of capabilities to the map form succeeds, iterating the map yields a permutation of the list: the stable sort by (resource, ability) in byte order. No capability is lost, duplicated or re-attributed and caveats of one (resource, ability) keep their relative order.", "quantifier": "all finite lists of capabilities", "why_tests_cant": "The list length and contents are unbounded; one three-element list is tested.", "anchors": ["ucan/src/capability/data.rs::TryFrom<Vec<Capability>> for Capabilities", "ucan/src/capability/data.rs::Capabilities::iter"]}
{"id": "C05", "title": "Building the capability map fails exactly on a non-object caveat", "statement": "Converting a list of capabilities to the map form returns an error if and only if some capability in it carries a caveat that is not a JSON object.", "quantifier": "all finite lists of capabilities", "why_tests_cant": "Needs every position and every JSON value kind.", "anchors": ["ucan/src/capability/data.rs::TryFrom<Vec<Capability>> for Capabilities"]}
{"id": "C06", "title": "Map to flat list to map is the identity on non-empty caveat lists", "statement": "For every capability map in which each (resource, ability) has at least one caveat, every caveat is an object and each resource has at least one ability, rebuilding the map from its own iteration returns the identical map; entries whose caveat list is empty contribute no capability to the iteration.", "quantifier": "all capability maps", "why_tests_cant": "Unbounded maps.", "anchors": ["ucan/src/capability/data.rs::Capabilities::iter", "ucan/src/capability/data.rs::TryFrom<Vec<Capability>> for Capabilities"]}
{"id": "C07", "title": "Untyped JSON is accepted as capabilities exactly when it has the specified shape", "statement": "`Capabilities::try_from(&json)` succeeds if and only if the JSON is an object whose values are non-empty objects whose values are arrays of objects, and then the resulting map has exactly the same keys, order and caveats as the JSON.", "quantifier": "all JSON values", "why_tests_cant": "Infinite domain; five failure cases are tested.", "anchors": ["ucan/src/capability/data.rs::TryFrom<&Value> for Capabilities", "ucan/src/capability/data.rs::TryFrom<CapabilitiesImpl> for Capabilities"]}
{"id": "C08", "title": "A parsed token only carries well-formed capabilities", "statement": "Expected: every UCAN obtained by parsing a token string has capabilities of the shape `Capabilities::try_from` enforces (each resource has an ability, each caveat is an object).", "quantifier": "all token strings", "why_tests_cant": "A single malformed token out of infinitely many breaks it.", "anchors": ["ucan/src/capability/data.rs::Capabilities (derive Deserialize)", "ucan/src/ucan.rs::Ucan::from_str"]}
{"id": "C09", "title": "Indexed proof resources round-trip", "statement": "For every index that fits in a machine word, the proof selection prints as `prf:<index>` and parsing that resource with ability `ucan/DELEGATE` yields exactly that index again; different indices print differently.", "quantifier": "all machine-word indices", "why_tests_cant": "2^64 indices.", "anchors": ["ucan/src/capability/proof.rs::ProofSelection", "ucan/src/capability/semantics.rs::CapabilitySemantics::parse"]}
{"id": "C10", "title": "`prf:*` selects every proof", "statement": "Expected: a UCAN that claims `prf:*` with `ucan/DELEGATE` redelegates every one of its proofs.", "quantifier": "all UCANs and proof lists", "why_tests_cant": "The wildcard case is never exercised by a test.", "anchors": ["ucan/src/capability/proof.rs::TryFrom<String> for ProofSelection", "ucan/src/capability/semantics.rs::CapabilitySemantics::parse_resource", "ucan/src/chain.rs::ProofChain::from_ucan"]}
{"id": "C11", "title": "`as:<did>:<resource>` capabilities can be parsed", "statement": "Expected: an `as:` resource naming a did:key and a resource understood by the semantics parses to a capability on behalf of that DID.", "quantifier": "all `as:` resource strings and all semantics", "why_tests_cant": "No finite set of resource strings settles that the parser never (or always) succeeds.", "anchors": ["ucan/src/capability/semantics.rs::CapabilitySemantics::extract_did", "ucan/src/capability/semantics.rs::CapabilitySemantics::parse"]}
{"id": "C12", "title": "Capability view to data to view round-trips", "statement": "Printing a parsed capability back to its data form and parsing it again yields the same capability, for every capability over plain scoped resources whose scope and ability strings round-trip; the exceptions (the bare wildcard, whose printed form `*` is not a URL) are characterised.", "quantifier": "all capability views and all semantics", "why_tests_cant": "Universally quantified over user semantics.", "anchors": ["ucan/src/capability/semantics.rs::From<&CapabilityView> for Capability", "ucan/src/capability/semantics.rs::CapabilitySemantics::parse_capability"]}
{"id": "C13", "title": "Validation accepts exactly live, correctly signed UCANs", "statement": "`validate(now_time)` succeeds if and only if the expiry (if any) is not before the validation time, the not-before (if any) is not after the system time, the issuer DID resolves to a key, and that key verifies the signature over the signed bytes; the boundary instants exp = now and nbf = now are valid. Expiry is reported before earliness, and earliness before signature failures.", "quantifier": "all UCANs, all times including both boundaries, all parsers and clocks", "why_tests_cant": "Boundary instants and all combinations of optional fields.", "anchors": ["ucan/src/ucan.rs::Ucan::validate", "ucan/src/ucan.rs::Ucan::is_expired", "ucan/src/ucan.rs::Ucan::is_too_early", "ucan/src/ucan.rs::Ucan::check_signature"]}
{"id": "C14", "title": "The caller-supplied validation time governs both bounds", "statement": "Expected: when a validation time is passed explicitly, a UCAN whose not-before lies after that time is rejected, whatever the machine clock says.", "quantifier": "all UCANs, supplied times and machine clocks", "why_tests_cant": "Depends on the relation between a supplied time and the wall clock.", "anchors": ["ucan/src/ucan.rs::Ucan::is_too_early", "ucan/src/ucan.rs::Ucan::validate"]}
{"id": "C15", "title": "Lifetime comparison is interval inclusion", "statement": "`a.lifetime_encompasses(b)` is true exactly when every instant at which b is live (unbounded where a bound is absent) is an instant at which a is live, for b with a non-empty lifetime; it is reflexive and transitive.", "quantifier": "all UCANs with any combination of optional bounds", "why_tests_cant": "All u64 bounds and all four presence combinations.", "anchors": ["ucan/src/ucan.rs::Ucan::lifetime_encompasses", "ucan/src/ucan.rs::Ucan::lifetime_begins_before", "ucan/src/ucan.rs::Ucan::lifetime_ends_after"]}
{"id": "C16", "title": "Signing, encoding and parsing is lossless", "statement": "Every UCAN produced by the builder and signed, whose text is valid UTF-8 and whose facts and caveats fit the wire format, is recovered exactly (header, payload, signed bytes, signature) by encoding it and parsing the token string.", "quantifier": "all builder inputs, all keys, all JSON facts and caveats that the wire format can carry", "why_tests_cant": "Strings, escapes, integers and nested JSON of any shape.", "anchors": ["ucan/src/ucan.rs::Ucan::encode", "ucan/src/ucan.rs::Ucan::from_str", "ucan/src/builder.rs::Signable::sign", "ucan/src/serde.rs::Base64Encode", "ucan/src/serde.rs::DagJson"]}
{"id": "C17", "title": "Different UCANs have different tokens", "statement": "Two well-formed UCANs with the same token string have the same header, payload and signature.", "quantifier": "all pairs of UCANs", "why_tests_cant": "Injectivity over an infinite domain.", "anchors": ["ucan/src/ucan.rs::Ucan::encode"]}
{"id": "C18", "title": "The signature covers exactly the bytes the payload was decoded from", "statement": "If parsing a token succeeds, the token starts with H.P.S (with no dot inside H, P, S); the signed bytes are exactly `H.P`, the header is the decoding of H, the payload of P and the signature of S. Hence checking the signature of a parsed UCAN authenticates precisely the header and payload exposed by its accessors.", "quantifier": "all token strings", "why_tests_cant": "Every byte string is a possible token.", "anchors": ["ucan/src/ucan.rs::Ucan::from_str", "ucan/src/ucan.rs::Ucan::check_signature"]}
{"id": "C19", "title": "A token has exactly three segments", "statement": "Expected: a string with more than three dot-separated segments is rejected as a token.", "quantifier": "all token strings", "why_tests_cant": "Infinite malformed tokens.", "anchors": ["ucan/src/ucan.rs::Ucan::from_str"]}
{"id": "C20", "title": "Re-encoding a parsed token reproduces it", "statement": "Expected: if a token string parses, encoding the resulting UCAN returns the same string (so its CID and signature remain valid).", "quantifier": "all token strings", "why_tests_cant": "Needs every alternative JSON spelling of a payload.", "anchors": ["ucan/src/ucan.rs::Ucan::encode", "ucan/src/ucan.rs::Ucan::from_str", "ucan/src/ucan.rs::Ucan::to_cid"]}
{"id": "C21", "title": "Re-encoding a parsed token preserves its meaning", "statement": "If a token parses to a payload without a reserved `/` object, and doubles survive printing, encoding the result and parsing again gives the same header, payload and signature (only the signed bytes may change to the canonical spelling), and encoding is then stable.", "quantifier": "all token strings", "why_tests_cant": "Every JSON spelling of every payload.", "anchors": ["ucan/src/ucan.rs::Ucan::encode", "ucan/src/ucan.rs::Ucan::from_str"]}
{"id": "C22", "title": "Every UCAN that can be signed can be parsed back", "statement": "Expected: whatever facts and caveats are supplied to the builder, the encoded token parses.", "quantifier": "all facts and caveats", "why_tests_cant": "Breaks only on reserved keys or extreme nesting.", "anchors": ["ucan/src/builder.rs::UcanBuilder::with_fact", "ucan/src/serde.rs::DagJson"]}
{"id": "C23", "title": "A freshly signed UCAN verifies", "statement": "If a key's verification accepts its own signatures and the parser resolves the key's DID to a key with the same verification, then every UCAN the builder signs with it passes the signature check, both directly and after encoding and parsing the token.", "quantifier": "all keys, payloads, parsers", "why_tests_cant": "All payloads and key implementations.", "anchors": ["ucan/src/builder.rs::Signable::sign", "ucan/src/ucan.rs::Ucan::check_signature", "ucan/src/crypto/did.rs::DidParser::parse"]}
{"id": "C24", "title": "The header algorithm matches the issuer's key", "statement": "Expected: a UCAN is only accepted if its header names the algorithm of the issuer's key type.", "quantifier": "all tokens", "why_tests_cant": "Needs an adversarially signed header.", "anchors": ["ucan/src/ucan.rs::Ucan::check_signature", "ucan/src/builder.rs::Signable::ucan_header"]}
{"id": "C25", "title": "Only a payload signed by its issuer is accepted from a token string", "statement": "For UCANs obtained from token strings, acceptance implies the issuer's key verified a signature over bytes that decode to that very payload; for UCANs assembled with the public constructor (or deserialised) no such link between signed bytes and payload exists, and a forged payload carrying somebody's genuine signed bytes is accepted.", "quantifier": "all UCANs, all keys", "why_tests_cant": "Adversarial constructions.", "anchors": ["ucan/src/ucan.rs::Ucan::new", "ucan/src/ucan.rs::Ucan::check_signature", "ucan/src/chain.rs::ProofChain::from_ucan"]}
{"id": "C26", "title": "The DID parser's cache is invisible", "statement": "For every sequence of DIDs parsed earlier (successfully or not), parsing a DID returns exactly what a fresh parser with the same constructors returns; a failed parse changes nothing.", "quantifier": "all histories of parse calls", "why_tests_cant": "Unbounded histories.", "anchors": ["ucan/src/crypto/did.rs::DidParser::parse"]}
{"id": "C27", "title": "DID parsing dispatches on the two magic bytes", "statement": "Parsing succeeds only for strings starting `did:key:z` whose remainder is base58btc for two magic bytes registered in the parser followed by key bytes the constructor accepts; the constructor called is the last one registered for these two bytes and it receives exactly the remaining bytes; unregistered magic bytes and other DID methods are errors.", "quantifier": "all DID strings and constructor tables", "why_tests_cant": "All strings and tables.", "anchors": ["ucan/src/crypto/did.rs::DidParser::new", "ucan/src/crypto/did.rs::DidParser::parse"]}
{"id": "C28", "title": "Parsing a DID never aborts the process", "statement": "Expected: any DID string, in particular the issuer of an untrusted token, is parsed or rejected with an error. (It aborts exactly when the base58 payload is shorter than two bytes.)", "quantifier": "all DID strings", "why_tests_cant": "All strings.", "anchors": ["ucan/src/crypto/did.rs::DidParser::parse"]}
{"id": "C29", "title": "A key's DID resolves back to the same public key", "statement": "For each supported key type, parsing the DID derived from a public key calls that type's constructor on exactly the encoded public key bytes, in any parser where it is the registered constructor for its magic bytes.", "quantifier": "all public keys of the three supported types", "why_tests_cant": "All keys.", "anchors": ["ucan-key-support/src/ed25519.rs::get_did", "ucan-key-support/src/rsa.rs::get_did", "ucan-key-support/src/p256.rs::get_did", "ucan/src/crypto/did.rs::DidParser::parse"]}
{"id": "C30", "title": "DIDs of different keys or key types differ", "statement": "Two keys have the same did:key string only if they are of the same type and have the same encoded public key.", "quantifier": "all pairs of keys over all key types", "why_tests_cant": "Injectivity of base58 and prefix-freeness of magic bytes.", "anchors": ["ucan-key-support/src/ed25519.rs::get_did", "ucan-key-support/src/rsa.rs::get_did", "ucan-key-support/src/p256.rs::get_did"]}
{"id": "C31", "title": "Public-only key material cannot sign", "statement": "Key material built from public bytes (as the DID parser does) refuses to sign any payload with an error, so building and signing a UCAN with it yields an error, never a token.", "quantifier": "all payloads and keys", "why_tests_cant": "All payloads.", "anchors": ["ucan-key-support/src/ed25519.rs::sign", "ucan-key-support/src/rsa.rs::sign", "ucan-key-support/src/p256.rs::sign", "ucan/src/builder.rs::Signable::sign"]}
{"id": "C32", "title": "A proof chain is accepted exactly when every link is valid", "statement": "Instantiating a proof chain succeeds if and only if, recursively: the UCAN validates, each listed proof is a well-formed CID that the store resolves to a token which parses and is itself an accepted chain, whose audience equals this UCAN's issuer and whose lifetime encompasses this UCAN's lifetime, and every indexed redelegation names an existing proof. The resulting tree lists the proofs in order.", "quantifier": "all UCANs, stores (including stores mutated concurrently), parsers, clocks", "why_tests_cant": "Unbounded proof trees, all store behaviours.", "anchors": ["ucan/src/chain.rs::ProofChain::from_ucan", "ucan/src/chain.rs::ProofChain::validate_link_to", "ucan/src/chain.rs::ProofChain::try_from_token_string"]}
{"id": "C33", "title": "Every UCAN in an accepted chain is live and signed by its issuer", "statement": "Every UCAN anywhere in an accepted chain is unexpired at the validation time, has started, and carries a signature its issuer's key verifies.", "quantifier": "all accepted chains of any depth and width", "why_tests_cant": "Unbounded trees.", "anchors": ["ucan/src/chain.rs::ProofChain::from_ucan", "ucan/src/ucan.rs::Ucan::validate"]}
{"id": "C34", "title": "Authority flows along audience-issuer links", "statement": "In an accepted chain each proof's audience is the issuer of the UCAN citing it, at every depth.", "quantifier": "all accepted chains", "why_tests_cant": "Unbounded trees.", "anchors": ["ucan/src/chain.rs::ProofChain::validate_link_to"]}
{"id": "C35", "title": "A delegated lifetime never exceeds any ancestor's", "statement": "In an accepted chain the lifetime of a UCAN lies within the lifetime of every one of its transitive proofs.", "quantifier": "all accepted chains, all pairs of UCAN and transitive proof", "why_tests_cant": "Unbounded depth.", "anchors": ["ucan/src/chain.rs::ProofChain::validate_link_to", "ucan/src/ucan.rs::Ucan::lifetime_encompasses"]}
{"id": "C36", "title": "Each proof is the token stored under the cited CID", "statement": "In an accepted chain the i-th proof is the parse of a token that the store returned for the i-th CID cited by the UCAN; with the in-memory store that token's own Blake3 raw CID equals the cited CID, in every store state reachable by any sequence of writes.", "quantifier": "all accepted chains and store histories", "why_tests_cant": "All histories and chains.", "anchors": ["ucan/src/chain.rs::ProofChain::from_ucan", "ucan/src/store.rs::MemoryStore"]}
{"id": "C37", "title": "Redelegation indices always refer to existing proofs", "statement": "A UCAN claiming `prf:<i>` with i at least its number of proofs is rejected; hence reducing the capabilities of any accepted chain never aborts.", "quantifier": "all UCANs and accepted chains", "why_tests_cant": "All indices and proof counts.", "anchors": ["ucan/src/chain.rs::ProofChain::from_ucan", "ucan/src/chain.rs::ProofChain::reduce_capabilities"]}
{"id": "C38", "title": "Chain acceptance does not depend on parser history", "statement": "With a fixed store and clock reading, the outcome of building a chain is the same for a fresh parser and for one that already parsed any sequence of DIDs, or was used for other (accepted or rejected) chains.", "quantifier": "all parser histories, chains", "why_tests_cant": "Unbounded histories.", "anchors": ["ucan/src/chain.rs::ProofChain::from_ucan", "ucan/src/crypto/did.rs::DidParser::parse"]}
{"id": "C39", "title": "Building a chain terminates over acyclic citations", "statement": "Over a store whose tokens cite each other acyclically, building a chain terminates with success or error. (With a store that returns tokens citing each other in a cycle it does not terminate: the token is never checked against its CID and there is no depth limit.)", "quantifier": "all stores", "why_tests_cant": "Non-termination cannot be observed by a test.", "anchors": ["ucan/src/chain.rs::ProofChain::from_ucan", "ucan/src/store.rs::UcanJwtStore::require_token"]}
{"id": "C40", "title": "The in-memory store is a content-addressed map", "statement": "After any sequence of writes and reads by any number of clones of the store in any interleaving, reading the CID returned by a write returns exactly the bytes written (provided no two written blocks collide under the hash), reads change nothing, and a CID never returned by a write reads as absent.", "quantifier": "all histories and interleavings of store operations", "why_tests_cant": "Unbounded histories and schedules.", "anchors": ["ucan/src/store.rs::MemoryStore::read", "ucan/src/store.rs::MemoryStore::write"]}
{"id": "C41", "title": "Stored tokens are read back verbatim", "statement": "Writing a token string to the in-memory store and reading the returned CID gives back the same string, and the CID is the one the token's UCAN computes for itself with the default hasher (so a proof cited by the builder resolves).", "quantifier": "all UCANs and token strings", "why_tests_cant": "All tokens.", "anchors": ["ucan/src/store.rs::UcanJwtStore::write_token", "ucan/src/store.rs::UcanJwtStore::read_token", "ucan/src/ucan.rs::Ucan::to_cid", "ucan/src/builder.rs::UcanBuilder::witnessed_by"]}
{"id": "C42", "title": "Reading an absent token returns Ok(None)", "statement": "Expected (per the trait documentation): reading a CID that is not in the store returns Ok(None).", "quantifier": "all stores and CIDs", "why_tests_cant": "Every CID.", "anchors": ["ucan/src/store.rs::UcanJwtStore::read_token"]}
{"id": "C43", "title": "Only raw-codec CIDs are read as tokens", "statement": "Reading a token by a CID whose codec is not raw is an error for every store, and a token that is not UTF-8 is an error.", "quantifier": "all stores, CIDs, contents", "why_tests_cant": "All CIDs.", "anchors": ["ucan/src/store.rs::UcanJwtStore::read_token"]}
{"id": "C44", "title": "A proof cited under another hash function never resolves in the in-memory store", "statement": "If a UCAN cites a proof with a hash function other than Blake3-256, building its chain over the in-memory store fails in every reachable store state.", "quantifier": "all UCANs, histories", "why_tests_cant": "All histories.", "anchors": ["ucan/src/builder.rs::UcanBuilder::witnessed_by", "ucan/src/store.rs::MemoryStore::write"]}
{"id": "C45", "title": "Reported capabilities carry the leaf's lifetime", "statement": "Every capability reported for a chain (claimed or redelegated) has exactly the not-before and expiry of the outermost UCAN; for an accepted chain this window lies within that of every UCAN in the chain.", "quantifier": "all chains, all semantics", "why_tests_cant": "Unbounded chains.", "anchors": ["ucan/src/chain.rs::ProofChain::reduce_capabilities"]}
{"id": "C46", "title": "Every reported capability was claimed in the chain", "statement": "Each capability reported for a chain is the parse of a capability claimed by the outermost UCAN, or is reported for a proof that the outermost UCAN redelegates; nothing is invented.", "quantifier": "all chains, all semantics", "why_tests_cant": "Unbounded chains.", "anchors": ["ucan/src/chain.rs::ProofChain::reduce_capabilities"]}
{"id": "C47", "title": "Originators are issuers in the chain and never empty", "statement": "Each reported capability has at least one originator and every originator is the issuer of some UCAN in the chain; in a chain without proofs the only originator is the issuer.", "quantifier": "all chains, all semantics", "why_tests_cant": "Unbounded chains.", "anchors": ["ucan/src/chain.rs::ProofChain::reduce_capabilities"]}
{"id": "C48", "title": "No originator is credited with authority it never claimed", "statement": "Expected: if an accepted chain reports a capability with originator O, then O issued some UCAN in the chain claiming a capability that enables the reported one.", "quantifier": "all accepted chains, all semantics", "why_tests_cant": "Requires adversarial combinations of broad and narrow claims.", "anchors": ["ucan/src/chain.rs::ProofChain::reduce_capabilities"]}
{"id": "C49", "title": "Merging loses no capability and no originator", "statement": "Under a transitive enabling relation, every capability that is claimed (and understood) or redelegated is enabled by (or is) some reported capability, whose originators include all of its originators.", "quantifier": "all chains, all semantics", "why_tests_cant": "Unbounded lists and orders.", "anchors": ["ucan/src/chain.rs::ProofChain::reduce_capabilities"]}
{"id": "C50", "title": "A claim without a matching proof is attributed to the issuer", "statement": "A claim that no non-redelegated proof enables is reported with the issuer as an originator; a claim that some are enabling is credited with exactly the originators of those, and with the issuer only if a proof already credits them, before redundant entries are merged.", "quantifier": "all chains, all semantics", "why_tests_cant": "Unbounded chains.", "anchors": ["ucan/src/chain.rs::ProofChain::reduce_capabilities"]}
{"id": "C51", "title": "The report contains no redundant capability", "statement": "Expected: no reported capability enables another reported capability.", "quantifier": "all chains, all semantics", "why_tests_cant": "Order-dependent.", "anchors": ["ucan/src/chain.rs::ProofChain::reduce_capabilities"]}
{"id": "C52", "title": "Every understood claim is taken into account", "statement": "Expected: every claim of the UCAN which the semantics understands is covered by the report, whatever other capabilities the UCAN carries.", "quantifier": "all UCANs mixing capabilities of several semantics", "why_tests_cant": "Depends on sort position of foreign capabilities.", "anchors": ["ucan/src/chain.rs::ProofChain::reduce_capabilities"]}
{"id": "C53", "title": "Claims are reported independently of the order they were added", "statement": "Two UCANs that agree except for the order in which capabilities with distinct (resource, ability) were added to the builder report the same capabilities with the same originators.", "quantifier": "all permutations of all capability lists", "why_tests_cant": "All permutations.", "anchors": ["ucan/src/builder.rs::UcanBuilder::claiming_capability", "ucan/src/chain.rs::ProofChain::reduce_capabilities"]}
{"id": "C54", "title": "The builder builds exactly when issuer and audience are set", "statement": "For any sequence of builder calls, `build` succeeds iff an issuer and an audience have been set; the built UCAN has the last issuer, audience, not-before set, the expiration is the last explicit one, else now plus the last lifetime, else none; all claimed capabilities, facts (last value per key) and proofs appear in call order.", "quantifier": "all sequences of builder calls", "why_tests_cant": "Unbounded call sequences.", "anchors": ["ucan/src/builder.rs::UcanBuilder"]}
{"id": "C55", "title": "Delegating from a proof points at that proof", "statement": "For any sequence of builder calls, each `delegating_from(authority)` appends the authority's CID to the proofs and claims exactly the `prf:<i>` capability whose index i is the position of that CID, and later calls never change what index i denotes.", "quantifier": "all sequences of builder calls", "why_tests_cant": "Unbounded interleavings of witnessed_by and delegating_from.", "anchors": ["ucan/src/builder.rs::UcanBuilder::delegating_from", "ucan/src/builder.rs::UcanBuilder::witnessed_by"]}
{"id": "C56", "title": "Delegation built by the builder is honoured by the chain", "statement": "If a UCAN is built with delegating_from / witnessed_by calls and its chain is accepted, then the redelegated proofs are exactly the ones passed to delegating_from (plus those named by explicit prf claims).", "quantifier": "all builder call sequences and accepted chains", "why_tests_cant": "Unbounded sequences.", "anchors": ["ucan/src/builder.rs::UcanBuilder::delegating_from", "ucan/src/chain.rs::ProofChain::from_ucan"]}
{"id": "C57", "title": "A lifetime gives the exact expiry until the addition overflows", "statement": "If now + lifetime fits in 64 bits the expiry is exactly now + lifetime; otherwise debug builds abort and release builds wrap to a past instant, so the guarantee 'a UCAN with a positive lifetime is unexpired when built' fails exactly on overflow.", "quantifier": "all clocks and lifetimes", "why_tests_cant": "Overflow boundary over u64.", "anchors": ["ucan/src/builder.rs::UcanBuilder::implied_expiration"]}
{"id": "C58", "title": "Signing reports failures as errors", "statement": "Expected: signing returns an error (never aborts) when the payload cannot be produced. (It aborts exactly when a claimed caveat is not an object or the issuer's DID is unavailable.)", "quantifier": "all builder states", "why_tests_cant": "All capability lists.", "anchors": ["ucan/src/builder.rs::Signable::sign", "ucan/src/builder.rs::Signable::ucan_payload"]}
{"id": "C59", "title": "A nonce is present exactly when requested and is faithful to its randomness", "statement": "A built UCAN carries a nonce iff with_nonce was called; it is the 43-character unpadded URL-safe base64 of the 32 random bytes drawn, so distinct draws give distinct nonces.", "quantifier": "all builder sequences and random draws", "why_tests_cant": "2^256 draws.", "anchors": ["ucan/src/builder.rs::Signable::ucan_payload"]}
{"id": "C60", "title": "Token text is canonical", "statement": "The encoded token depends only on the contents of the maps: adding the same facts (with distinct keys) and capabilities (with distinct resource/ability) in any order gives byte-identical signed data.", "quantifier": "all permutations of facts and capabilities", "why_tests_cant": "All permutations.", "anchors": ["ucan/src/builder.rs::UcanBuilder::with_fact", "ucan/src/ucan.rs::Ucan::encode"]}
{"id": "C61", "title": "Varsig encoding round-trips", "statement": "Encoding a JWT signature of any supported algorithm and any length to its IPLD form and decoding it returns the same algorithm and bytes.", "quantifier": "all five algorithms and all signature byte strings", "why_tests_cant": "All lengths including multi-byte length prefixes.", "anchors": ["ucan/src/ipld/signature.rs::Signature::decode", "ucan/src/ipld/signature.rs::TryFrom<(JwtSignatureAlgorithm, T)> for Signature"]}
{"id": "C62", "title": "Decoding an IPLD signature never aborts", "statement": "Expected: decoding any bytes as an IPLD signature returns a signature or an error. (It aborts exactly when a supported prefix and a length exceeding the remaining bytes are present.)", "quantifier": "all byte strings", "why_tests_cant": "All byte strings.", "anchors": ["ucan/src/ipld/signature.rs::Signature::decode"]}
{"id": "C63", "title": "IPLD signatures are unique", "statement": "Expected: two different byte strings never decode to the same algorithm and signature. (Trailing bytes are ignored.)", "quantifier": "all byte strings", "why_tests_cant": "All byte strings.", "anchors": ["ucan/src/ipld/signature.rs::Signature::decode"]}
{"id": "C64", "title": "Principals round-trip through their IPLD form", "statement": "Converting a DID string to its IPLD principal and back returns the same string for every did:key in base58btc whose payload has at least two bytes and does not start with the DID marker, and for every other DID.", "quantifier": "all DID strings", "why_tests_cant": "All strings.", "anchors": ["ucan/src/ipld/principle.rs::Principle::from_str", "ucan/src/ipld/principle.rs::Principle::fmt"]}
{"id": "C65", "title": "Different DIDs have different IPLD principals", "statement": "Expected: two different DID strings never convert to the same IPLD principal.", "quantifier": "all pairs of DID strings", "why_tests_cant": "Requires a crafted did:key.", "anchors": ["ucan/src/ipld/principle.rs::Principle::from_str"]}
{"id": "C66", "title": "Printing an IPLD principal never aborts", "statement": "Expected: every principal obtained from a DID string or from the wire can be printed. (It aborts exactly when it has fewer than two bytes, or has the DID marker followed by invalid UTF-8.)", "quantifier": "all principals", "why_tests_cant": "All byte strings.", "anchors": ["ucan/src/ipld/principle.rs::Principle::fmt"]}
{"id": "C67", "title": "JWT to IPLD to JWT is lossless", "statement": "For every UCAN of the current version with a supported algorithm, canonical DIDs and canonical proof CIDs, converting to the IPLD form and back yields the same header, payload and signature, and signed bytes equal to the canonical encoding; so the re-encoded token is identical and the signature still verifies.", "quantifier": "all UCANs", "why_tests_cant": "All UCANs.", "anchors": ["ucan/src/ipld/ucan.rs::TryFrom<&Ucan> for UcanIpld", "ucan/src/ipld/ucan.rs::TryFrom<&UcanIpld> for Ucan"]}
{"id": "C68", "title": "The IPLD form preserves the version", "statement": "Expected: converting to IPLD and back preserves the UCAN's version field.", "quantifier": "all UCANs", "why_tests_cant": "All version strings.", "anchors": ["ucan/src/ipld/ucan.rs::TryFrom<&UcanIpld> for Ucan"]}
{"id": "C69", "title": "URL-safe base64 segments are a canonical bijection", "statement": "Decoding inverts encoding for all byte strings; any string that decodes is exactly the encoding of its decoding; encodings never contain a dot.", "quantifier": "all byte strings", "why_tests_cant": "All lengths mod 3.", "anchors": ["ucan/src/serde.rs::Base64Encode::jwt_base64_encode", "ucan/src/ucan.rs::Ucan::from_str"]}
{"id": "C70", "title": "Base58 DIDs are a canonical bijection", "statement": "Base58btc decoding inverts encoding for all byte strings (including leading zero bytes), and any string that decodes is exactly the encoding of its decoding.", "quantifier": "all byte strings", "why_tests_cant": "Big-number arithmetic over all lengths.", "anchors": ["ucan/src/crypto/did.rs::DidParser::parse", "ucan/src/ipld/principle.rs::Principle", "ucan-key-support/src/ed25519.rs::get_did"]}
{"id": "C71", "title": "DAG-JSON encoding round-trips every wire value", "statement": "For every JSON value with valid UTF-8 strings, in-range numbers, at most the parser's nesting limit and no reserved single-key `/` object, decoding its DAG-JSON encoding returns the same value, whatever follows it in the input.", "quantifier": "all JSON values, unbounded size", "why_tests_cant": "Infinite recursive domain.", "anchors": ["ucan/src/serde.rs::DagJson::to_dag_json", "ucan/src/serde.rs::DagJson::from_dag_json"]}
{"id": "C72", "title": "CID text round-trips", "statement": "The text of every version-1 CID with word-sized codec and hash code parses back to the same CID; different CIDs have different text.", "quantifier": "all CIDs", "why_tests_cant": "All digests.", "anchors": ["ucan/src/ucan.rs::Ucan::to_cid", "ucan/src/chain.rs::ProofChain::from_ucan"]}
{"id": "C73", "title": "Redelegation passes on exactly the proof's capabilities", "statement": "If a UCAN claims nothing itself in the given semantics and redelegates some proofs, each reported capability is one reported for a redelegated proof, every capability reported for a redelegated proof is covered, and originators are preserved.", "quantifier": "all chains, all semantics", "why_tests_cant": "Unbounded chains.", "anchors": ["ucan/src/chain.rs::ProofChain::reduce_capabilities"]}
{"id": "C74", "title": "A token without an expiry field is rejected", "statement": "Expected: a token whose payload omits the mandatory `exp` field does not parse. (It parses as never expiring.)", "quantifier": "all tokens", "why_tests_cant": "Absent-field handling.", "anchors": ["ucan/src/ucan.rs::UcanPayload"]}
{"id": "C75", "title": "Validation work is linear in the number of stored tokens", "statement": "Expected: the number of signature checks performed for a chain is bounded by a linear function of the number of tokens in the store. (Shared proofs are re-validated for each citation: n tokens can force 2^n checks.)", "quantifier": "all stores and chains", "why_tests_cant": "Asymptotic claim over a family of stores.", "anchors": ["ucan/src/chain.rs::ProofChain::from_ucan"]}
{"id": "C76", "title": "The instants at which a chain is accepted are the leaf's window", "statement": "If a chain is accepted for one supplied time, it is accepted with the same result for exactly the supplied times not after the leaf's expiry (otherwise the error is expiry); by the machine clock, a chain accepted at one instant is accepted at exactly the instants in the leaf's not-before/expiry window; the chain found never depends on the time.", "quantifier": "all chains, stores, clocks, pairs of times", "why_tests_cant": "Quantifies over all pairs of instants and chains of any depth.", "anchors": ["ucan/src/chain.rs::ProofChain::from_ucan", "ucan/src/ucan.rs::Ucan::validate", "ucan/src/ucan.rs::Ucan::lifetime_encompasses"]}
{"id": "C77", "title": "Adding blocks to the store never revokes or changes an accepted chain", "statement": "If a chain is accepted with one store, it is accepted with the same result with every store that has at least the same blocks; further operations on an in-memory store only add blocks unless hashes collide.", "quantifier": "all stores, chains, further operations", "why_tests_cant": "All possible later writes.", "anchors": ["ucan/src/chain.rs::ProofChain::from_ucan", "ucan/src/store.rs::MemoryStore"]}
{"id": "C78", "title": "Untrusted tokens never abort chain validation", "statement": "Expected: building a chain for a token never panics if store and keys do not. (An issuer did:key of fewer than two bytes aborts it, before any signature check.)", "quantifier": "all tokens, stores, key sets", "why_tests_cant": "Adversarial tokens at any depth.", "anchors": ["ucan/src/chain.rs::ProofChain::try_from_token_string", "ucan/src/crypto/did.rs::DidParser::parse"]}
{"id": "C79", "title": "The token read for a citation hashes to the cited CID", "statement": "Expected: in an accepted chain the token each proof was read from hashes to the CID citing it. (Not checked: whatever the store returns is taken; true of the in-memory store.)", "quantifier": "all stores and chains", "why_tests_cant": "All store implementations.", "anchors": ["ucan/src/chain.rs::ProofChain::from_ucan", "ucan/src/store.rs::UcanJwtStore::read_token"]}
{"id": "C80", "title": "A UCAN resting on proofs cannot claim more than they give", "statement": "Expected: a UCAN with proofs that claims a capability none of its proofs enables is refused. (It is accepted; the excess claim is reported with the issuer as only originator.)", "quantifier": "all chains, all semantics", "why_tests_cant": "Unbounded chains.", "anchors": ["ucan/src/chain.rs::ProofChain::from_ucan", "ucan/src/chain.rs::ProofChain::reduce_capabilities"]}
{"id": "C81", "title": "Acceptance looks at nothing but signature, issuer, window, citations and named proofs", "statement": "Two UCANs, each signed by its issuer, with equal issuer, window, citations and prf: claims are accepted or not together, with the same proofs; version, token type and algorithm fields do not matter.", "quantifier": "all pairs of UCANs, stores, clocks", "why_tests_cant": "All pairs of tokens.", "anchors": ["ucan/src/chain.rs::ProofChain::from_ucan", "ucan/src/ucan.rs::Ucan::validate"]}
{"id": "C82", "title": "A UCAN with an empty validity window is never accepted", "statement": "Expected: a UCAN whose expiry precedes its not-before is in no accepted chain. (False with a supplied time or a clock advancing between its readings; true for a clock standing still.)", "quantifier": "all chains, clocks, supplied times", "why_tests_cant": "All clock behaviours.", "anchors": ["ucan/src/ucan.rs::Ucan::validate", "ucan/src/ucan.rs::Ucan::is_expired", "ucan/src/ucan.rs::Ucan::is_too_early"]}
{"id": "C83", "title": "What the builder makes from accepted, stored proofs is accepted", "statement": "A UCAN built and signed with any sequence of builder calls is accepted by the validator whenever the validator knows its key type, the UCAN is within its window, the proofs added by the calls are in the in-memory store, are themselves accepted and are linked to it (audience and window), and explicit prf: claims name existing proofs, unless block hashes collide.", "quantifier": "all builder call sequences, key types, histories of the in-memory store", "why_tests_cant": "Unbounded call sequences and chains.", "anchors": ["ucan/src/builder.rs::UcanBuilder::build", "ucan/src/builder.rs::Signable::sign", "ucan/src/store.rs::MemoryStore", "ucan/src/chain.rs::ProofChain::from_ucan"]}
{"id": "C84", "title": "Any number of hand-overs is accepted and reports the root's capabilities", "statement": "Starting from an accepted UCAN, any number of builder-made UCANs each only delegating from the previous one is accepted while the last is live, and, when no capability reported for the first enables another one, reports exactly the capabilities of the first with their originators, within the window of the last.", "quantifier": "all numbers of hand-overs, all semantics", "why_tests_cant": "Chains of unbounded length.", "anchors": ["ucan/src/builder.rs::UcanBuilder::delegating_from", "ucan/src/chain.rs::ProofChain::from_ucan", "ucan/src/chain.rs::ProofChain::reduce_capabilities"]}
{"id": "C85", "title": "Every reported capability rests on one of its originators, and on the only one if there is just one", "statement": "For every chain, every semantics and every reported capability, a line of claims, each enabling the next or redelegated, leads from a claim issued by one of the reported originators to the capability; if a single originator is reported, from that one. With transitive enabling that originator claimed a capability enabling the reported one.", "quantifier": "all chains, all semantics, transitive or not", "why_tests_cant": "Unbounded chains and arbitrary semantics.", "anchors": ["ucan/src/chain.rs::ProofChain::reduce_capabilities"]}
{"id": "C86", "title": "What an accepted token reports was signed step by step", "statement": "If signatures cannot be forged, each capability reported for an accepted token rests on a line of payloads, each signed by its issuer in the very encoding parsed, cited by and addressed to the issuer of the next one and outliving it, whose claims enable or redelegate one another, up to a claim signed by one of the originators; every originator signed some UCAN of the chain; a sole originator signed a claim enabling the capability.", "quantifier": "all tokens, stores, key sets, clocks, semantics", "why_tests_cant": "Adversarial stores and tokens.", "anchors": ["ucan/src/chain.rs::ProofChain::try_from_token_string", "ucan/src/chain.rs::ProofChain::reduce_capabilities", "ucan/src/ucan.rs::Ucan::check_signature"]}
{"id": "C87", "title": "A UCAN in IPLD form survives being serialised", "statement": "Every UcanIpld value, serialised to IPLD data and deserialised, is unchanged, and different values are serialised differently; where JSON values refuse the integers of the data model, exactly the values without integers in caveats and facts survive.", "quantifier": "all UcanIpld values", "why_tests_cant": "All caveats and facts, any nesting.", "anchors": ["ucan/src/ipld/ucan.rs::UcanIpld"]}
{"id": "C88", "title": "Principals and signatures are IPLD byte strings", "statement": "Expected: the serialised IPLD form holds issuer, audience and signature as byte strings. (They are lists of integers, and byte strings are refused when reading.)", "quantifier": "all UcanIpld values, all IPLD data", "why_tests_cant": "About all values.", "anchors": ["ucan/src/ipld/principle.rs::Principle", "ucan/src/ipld/signature.rs::Signature", "ucan/src/ipld/ucan.rs::UcanIpld"]}
{"id": "C89", "title": "Exactly which IPLD data is read as a UCAN", "statement": "IPLD data is read as a UcanIpld iff it is a map with v a string, iss, aud and s lists of integers from 0 to 255, cap a map of maps of lists of JSON data, and prf (links), exp and nbf (64-bit), fct (JSON data) and nnc (string) absent, null or of their type; other fields are ignored; what was read is unchanged by writing and reading it again.", "quantifier": "all IPLD data", "why_tests_cant": "All data of the IPLD data model.", "anchors": ["ucan/src/ipld/ucan.rs::UcanIpld"]}
{"id": "C90", "title": "Reading untrusted IPLD data as a UCAN never aborts", "statement": "Expected: data deserialised as UcanIpld converts to a Ucan or an error. (It panics exactly if the signature bytes name a known algorithm and a length they do not have, or a known algorithm and the issuer or audience has fewer than two bytes or is marked as text without being UTF-8.)", "quantifier": "all UcanIpld values", "why_tests_cant": "Adversarial data.", "anchors": ["ucan/src/ipld/ucan.rs::Ucan::try_from", "ucan/src/ipld/principle.rs::Principle", "ucan/src/ipld/signature.rs::Signature::decode"]}
{"id": "C91", "title": "A token stored as IPLD data and read back is the same token", "statement": "For every token that parses and has printable principals, a known algorithm, the current version and canonical proof CIDs: converting to UcanIpld, serialising, deserialising and converting back gives the same header, payload and signature and the same encoding.", "quantifier": "all tokens", "why_tests_cant": "All payloads; composition of four conversions.", "anchors": ["ucan/src/ipld/ucan.rs::UcanIpld", "ucan/src/ipld/ucan.rs::Ucan::try_from", "ucan/src/ucan.rs::Ucan::encode"]}
{"id": "C92", "title": "A UCAN serialised with serde is read back unchanged", "statement": "Every Ucan parsed from a token, serialised to IPLD data and deserialised, is identical including its signed bytes; for any Ucan this holds iff JSON values accept the data model's integers or its caveats and facts have none.", "quantifier": "all UCANs", "why_tests_cant": "All payloads.", "anchors": ["ucan/src/ucan.rs::Ucan"]}
{"id": "C93", "title": "A deserialised UCAN reports only what was signed", "statement": "Expected: if signatures cannot be forged, what a chain built on a deserialised Ucan reports was signed by its originators. (The serialised form carries the payload apart from the signed bytes, which are never compared: any payload of the same issuer is accepted. True if the signed bytes are the payload's own signing input.)", "quantifier": "all serialised UCANs, stores, key sets, semantics", "why_tests_cant": "Adversarial data.", "anchors": ["ucan/src/ucan.rs::Ucan", "ucan/src/ucan.rs::Ucan::check_signature", "ucan/src/chain.rs::ProofChain::from_ucan"]}
{"id": "C94", "title": "A WebCrypto key has the DID of the same native RSA key", "statement": "Expected: get_did of a WebCryptoRsaKeyMaterial equals get_did of the RsaKeyMaterial with the same public key. (Only if the key's PKCS#1 encoding has 255 to 65515 bytes, as with 2048 bits and more; with 1024 bits get_did fails and signing a token aborts.)", "quantifier": "all RSA keys, browsers, SHA-256 functions", "why_tests_cant": "All key sizes.", "anchors": ["ucan-key-support/src/web_crypto.rs::WebCryptoRsaKeyMaterial::get_did", "ucan-key-support/src/web_crypto.rs::convert_spki_to_rsa_public_key", "ucan-key-support/src/rsa.rs::RsaKeyMaterial::get_did"]}
{"id": "C95", "title": "A token signed in the browser verifies under the native RSA key", "statement": "If the browser's signatures verify under the exported key natively, every token signed by a WebCryptoRsaKeyMaterial passes check_signature of any parser that registered the native RSA constructor, whatever it parsed before, and names RS256 in its header; without a private key nothing is signed; verify succeeds iff the browser says true.", "quantifier": "all tokens, keys of supported sizes, browsers, parser histories", "why_tests_cant": "All payloads and histories; composition of two key implementations.", "anchors": ["ucan-key-support/src/web_crypto.rs::WebCryptoRsaKeyMaterial", "ucan/src/ucan.rs::Ucan::check_signature", "ucan/src/crypto/did.rs::DidParser::parse"]}
{"id": "C96", "title": "Bytes that are no SubjectPublicKeyInfo are refused", "statement": "Expected: convert_spki_to_rsa_public_key returns an error on anything else than the SPKI of an RSA key and never aborts. (It drops the first 24 bytes whatever they are and aborts on fewer; get_did aborts exactly then or when the export fails.)", "quantifier": "all byte strings", "why_tests_cant": "About all inputs.", "anchors": ["ucan-key-support/src/web_crypto.rs::convert_spki_to_rsa_public_key", "ucan-key-support/src/web_crypto.rs::WebCryptoRsaKeyMaterial::get_did"]}
{"id": "C97", "title": "The example semantics are preorders", "statement": "The email and WNFS semantics of the repository order scopes and abilities reflexively and transitively, the WNFS levels as super_user >= overwrite >= soft_delete >= revise >= create, and reports read with the WNFS semantics cover every heeded claim with all its originators.", "quantifier": "all scopes, levels, chains", "why_tests_cant": "Order laws and coverage for all chains.", "anchors": ["ucan/src/tests/fixtures/capabilities/wnfs.rs::WNFSScope::contains", "ucan/src/tests/fixtures/capabilities/wnfs.rs::WNFSCapLevel", "ucan/src/tests/fixtures/capabilities/email.rs", "ucan/src/chain.rs::ProofChain::reduce_capabilities"]}
{"id": "C98", "title": "A WNFS directory contains everything below it", "statement": "Expected: wnfs://host/dir contains wnfs://host/dir/x, whether or not dir is written with a trailing slash, and nothing else. (Containment is exactly: same origin and the path is equal or continues after a slash. With a trailing slash, and so for the root directory, nothing below is contained.)", "quantifier": "all origins and paths", "why_tests_cant": "All paths.", "anchors": ["ucan/src/tests/fixtures/capabilities/wnfs.rs::WNFSScope::contains"]}
{"id": "C99", "title": "A UCAN cites no proof twice", "statement": "Expected (the test it_prevents_duplicate_proofs): the proofs of a built UCAN are distinct. (They are the citations of the calls in call order, repetitions included; citing again a proof that is not redelegated leaves the report unchanged.)", "quantifier": "all builder call sequences; all chains", "why_tests_cant": "All call sequences and chains.", "anchors": ["ucan/src/builder.rs::UcanBuilder::witnessed_by", "ucan/src/chain.rs::ProofChain::reduce_capabilities"]}
{"id": "C100", "title": "The report does not depend on the order of proofs", "statement": "Two chains with the same root UCAN and the same set of non-redelegated proofs, and the same redelegated proofs in the same order, have the same report.", "quantifier": "all chains and semantics", "why_tests_cant": "All permutations and repetitions of proofs.", "anchors": ["ucan/src/chain.rs::ProofChain::reduce_capabilities"]}
{"id": "C101", "title": "Exactly what a report is", "statement": "reduce_capabilities returns r exactly when every proof has a report and r is: the root's claims up to the first not understood, each with its credited originators and the root's lifetime, followed by the entries of the redelegated proofs' reports with the root's lifetime; every entry that an earlier one enables is handed over to the earliest such entry (with the originators it gathered), and the remaining ones are listed last first. No assumption on the semantics.", "quantifier": "all chains, semantics and reports", "why_tests_cant": "Exact for every chain and every semantics, transitive or not.", "anchors": ["ucan/src/chain.rs::ProofChain::reduce_capabilities"]}
{"id": "C102", "title": "Non-redelegated proofs do not change which capabilities are reported", "statement": "Two chains with the same root and the same redelegated proofs report the same capabilities in the same order (only originators can differ), and without redelegation there are at most as many entries as claims.", "quantifier": "all chains, semantics and reports", "why_tests_cant": "All sets of proofs.", "anchors": ["ucan/src/chain.rs::ProofChain::reduce_capabilities"]}
{"id": "C103", "title": "The text of a token, byte for byte", "statement": "encode(u) is base64url(header JSON).base64url(payload JSON).base64url(signature): the header JSON is {\"alg\":..,\"typ\":..}, the payload JSON has the fields aud, cap, exp, fct, iss, nbf, nnc, prf, ucv in that order without white space, exp null when there is no expiry, fct/nbf/nnc/prf left out when absent; strings escape only quote, backslash and control characters (as \\b \\f \\n \\r \\t or \\u00xx in lower case); numbers are decimal. Signing writes typ JWT, the key's algorithm name and ucv 0.10.0-canary. How doubles are printed is a parameter.", "quantifier": "all UCANs and texts", "why_tests_cant": "A format that is changed in the writer and the reader alike passes every round-trip test; here the bytes are stated.", "anchors": ["ucan/src/ucan.rs::Ucan::encode", "ucan/src/serde.rs::DagJson", "ucan/src/serde.rs::Base64Encode", "ucan/src/builder.rs::Signable::ucan_header"]}
{"id": "C104", "title": "Exactly which texts are tokens", "statement": "Ucan::try_from(text) is Ok(u) exactly when the text starts with three dot-separated base64url (unpadded, canonical) segments, followed by nothing or by a dot and anything; the first decodes to a DAG-JSON object with string fields alg and typ, the second to a DAG-JSON object with strings ucv, iss, aud, a map cap of maps of lists, and exp, nbf (64-bit), nnc (string), fct (map), prf (list of strings) each absent, null or of that type; other fields are ignored; the third is the signature; the signed data are the first two segments as received.", "quantifier": "all texts", "why_tests_cant": "Both directions for every text, including field order, unknown fields, nulls and extra segments.", "anchors": ["ucan/src/ucan.rs::Ucan::try_from", "ucan/src/serde.rs::DagJson"]}
{"id": "C105", "title": "Base encodings follow the standards", "statement": "base64url is RFC 4648 section 5 without padding (three bytes to four letters of A-Za-z0-9-_), base32 is RFC 4648 section 6 in lower case without padding (five bytes to eight letters of a-z2-7), base58btc writes one '1' per leading zero byte followed by the base-58 digits, without leading zero, of the remaining bytes as a big-endian number, and integers are printed in decimal without leading zeros.", "quantifier": "all byte strings and integers", "why_tests_cant": "All lengths modulo 3 and 5, all numbers of leading zeros.", "anchors": ["ucan/src/serde.rs::Base64Encode", "ucan/src/crypto/did.rs::DidParser::parse", "ucan/src/ucan.rs::Ucan::to_cid"]}
{"id": "C106", "title": "The text of a CID", "statement": "The CID of a UCAN prints as 'b' followed by base32 of: 01, 55 (raw codec), the hash function's code as a shortest LEB128 varint, the length of the digest, the digest of the token text. witnessed_by without a hash function appends the text with code 1e 20 (BLAKE3-256).", "quantifier": "all UCANs, hash codes below 2^64, digests up to 64 bytes", "why_tests_cant": "Byte for byte.", "anchors": ["ucan/src/ucan.rs::Ucan::to_cid", "ucan/src/builder.rs::UcanBuilder::witnessed_by", "ucan/src/builder.rs::UcanBuilder::default_hasher"]}
{"id": "C107", "title": "The text of a key's DID", "statement": "The DID of a supported key is 'did:key:z' followed by base58btc of the key type's two bytes (ed 01 for Ed25519, 80 24 for P-256, 85 24 for RSA) and the encoded public key; the algorithm names are EdDSA, ES256 and RS256.", "quantifier": "all key pairs and encodings", "why_tests_cant": "All public keys, including those starting with zero bytes.", "anchors": ["ucan-key-support/src/ed25519.rs::Ed25519KeyMaterial::get_did", "ucan-key-support/src/p256.rs::P256KeyMaterial::get_did", "ucan-key-support/src/rsa.rs::RsaKeyMaterial::get_did"]}
{"id": "C108", "title": "Exactly which texts are JSON documents, and what they say", "statement": "Decoding DAG-JSON succeeds with data d exactly when the text is a document of RFC 8259 (white space, literals, numbers, strings with escapes and surrogate pairs, valid UTF-8, arrays, objects) nested at most 127 deep whose reading is d: whole numbers from -2^63 to 2^64-1 other than -0 are integers and all other numbers are doubles, the last of repeated keys counts, an object with the single entry / is a link (string) or a byte string ({bytes: base64}). Hence Ucan::try_from(text) is Ok(u) exactly when the segments of the text are base64url of such documents with the fields of u. Whether trailing text is refused, how doubles are parsed and which multibase prefixes a CID may have are parameters.", "quantifier": "all texts and data", "why_tests_cant": "The grammar is unbounded; both directions for every text, including escapes, duplicate keys, number ranges and depth.", "anchors": ["ucan/src/ucan.rs::Ucan::try_from", "ucan/src/serde.rs::DagJson"]}
{"id": "C109", "title": "Exactly which resource texts are read, and as what", "statement": "A resource text is read as a URL with an opaque path exactly when, apart from surrounding control characters and spaces and from tabs and newlines, it is a scheme of RFC 3986 (case folded, not one of the special schemes of WHATWG), a colon and a path not starting with a slash; controls and non-ASCII bytes of the path are percent-encoded; query and fragment do not count. A semantics understands a capability exactly when its resource is such a URL (or a hierarchical one the url crate accepts), the scheme is not as, the path is * or denotes a scope, and the ability is known; my: reads as one's own resource. A capability redelegates proof i exactly when its ability is ucan/DELEGATE and its resource text is prf in any case, a colon, an optional plus, decimal digits worth i < 2^64, and maybe a query or fragment.", "quantifier": "all texts, scopes, abilities and indices; hierarchical URLs are a parameter", "why_tests_cant": "Every text is covered in both directions, including odd ones that tests do not contain (PRF:+007?x redelegates proof 7).", "anchors": ["ucan/src/capability/semantics.rs::CapabilitySemantics::parse_capability", "ucan/src/capability/proof.rs::ProofSelection"]}
{"id": "C110", "title": "The verdict on a chain depends on cited blocks only", "statement": "Take two machines with the same third-party code and clock whose stores answer alike for every CID cited by the UCAN or by a UCAN that citations lead to. Then ProofChain::from_ucan has the same outcome (chain, error or abort), makes the same number of reads and signature checks and leaves the DID parser in the same state. Other blocks - missing, damaged or failing - do not matter.", "quantifier": "all environments, UCANs, parser states and times", "why_tests_cant": "Quantifies over pairs of stores; a read of anything else would only show on a store prepared for it.", "anchors": ["ucan/src/chain.rs::ProofChain::from_ucan", "ucan/src/store.rs::UcanJwtStore::require_token"]}
{"id": "C111", "title": "Every refusal names a real fault, and only faults refuse", "statement": "When ProofChain::from_ucan returns an error there is a UCAN reached from the given one through citations that has the fault the error stands for: expired, not yet valid, a bad issuer DID, a signature its key refuses, a citation that is no CID / not raw / absent / not text / not a token, a proof for another audience, a proof with a shorter lifetime, or a named proof that does not exist. Conversely, for a clock and store at rest, with keys that neither hang nor abort, acyclic citations and no DID of fewer than two bytes, the UCAN is accepted exactly when no UCAN reached through citations has any such fault.", "quantifier": "all environments, UCANs and faults", "why_tests_cant": "The faults may sit at any depth and in any combination; acceptance is compared with the absence of all of them.", "anchors": ["ucan/src/chain.rs::ProofChain::from_ucan", "ucan/src/ucan.rs::Ucan::validate", "ucan/src/store.rs::UcanJwtStore::require_token"]}
{"id": "C112", "title": "The error for a text that is no token names the first bad segment", "statement": "Ucan::try_from(text) is an error exactly when one of the first three dot-separated segments is bad, and the error says which and how: header not base64url without padding; header not a JSON document with the header fields; no payload; payload not base64url; payload not a document with the payload fields; no signature; signature not base64url - judged in this order, so later segments are not looked at.", "quantifier": "all texts and errors", "why_tests_cant": "Both directions for every text; tests see a handful of malformed tokens and not which error they give.", "anchors": ["ucan/src/ucan.rs::Ucan::try_from"]}
{"id": "C113", "title": "Chains from tokens and from CIDs are the chains of the UCANs they stand for", "statement": "For a clock and store at rest: try_from_token_string yields a chain exactly when the text is a token (three base64url segments, header and payload documents) of the chain's root and the chain is valid; from_cid yields it exactly when the CID names a raw block which the store answers with the UTF-8 text of such a token. A refusal is explained by the token or the block (wrong codec, store error, nothing there, not text, not a token), or by a fault of some UCAN reached from it.", "quantifier": "all environments, texts, CIDs, chains and errors", "why_tests_cant": "Equivalence with a declarative notion of token, block and valid chain; the tests use both entry points on one good token.", "anchors": ["ucan/src/chain.rs::ProofChain::try_from_token_string", "ucan/src/chain.rs::ProofChain::from_cid", "ucan/src/store.rs::UcanJwtStore::require_token"]}
{"id": "C114", "title": "Key, principal and signature tags are those of the multicodec table", "statement": "The magic bytes of the key kinds are the shortest varints of 0xed, 0x1205, 0xea, 0xeb, 0x1200, 0xe7 and the principal marker that of 0x0d1d; the ten signature prefixes have their registered codes and a code is read as a kind exactly when it is in that table; a JWT algorithm name is read exactly when it is one of the five and goes with its kind. A tagged signature fails to decode exactly when a varint is malformed, the code is not in the table, or its kind has no JWT name - with the error saying which. A text is read as a principal exactly when it is a did:key in base58btc (giving the bytes) or another did: text (giving marker and rest); the error otherwise says whether it is no DID or bad base58.", "quantifier": "all texts, codes and byte strings", "why_tests_cant": "Compares whole tables and error conditions with the registered values; tests use three of the codes.", "anchors": ["ucan/src/ipld/signature.rs::VarsigPrefix", "ucan/src/ipld/signature.rs::Signature::decode", "ucan/src/ipld/principle.rs::Principle::from_str", "ucan/src/crypto/signature.rs::JwtSignatureAlgorithm", "ucan/src/crypto/did.rs::DidParser"]}
{"id": "C115", "title": "A store under another hash serves citations made with that hash", "statement": "Writing a token to a store that addresses blocks by Blake2b-256 returns the CIDv1 (raw, 0xb220, digest of the token), the token can be read back there and no other CID is affected. Whatever hash is used: if the store holds a UCAN's token under that hash then the citation witnessed_by(ucan, Some(hash)) resolves to it.", "quantifier": "all stores, tokens, hash codes and digests of at most 64 bytes", "why_tests_cant": "Quantifies over hash codes and store contents; the test has one store of two tokens.", "anchors": ["ucan/src/tests/fixtures/store.rs::Blake2bMemoryStore", "ucan/src/builder.rs::UcanBuilder::witnessed_by", "ucan/src/ucan.rs::Ucan::to_cid"]}
{"id": "C116", "title": "A line of single-claim delegations reports the last claim and one originator", "statement": "If every UCAN of a chain claims one understood capability and cites one proof (the first none) and nothing is redelegated, the report is exactly one entry: the last claim, with the last UCAN's window, originated by the issuer reached by going backwards as long as each claim is enabled by the one before it - the first issuer if all are. Nothing is assumed of the semantics.", "quantifier": "all semantics, UCANs, capabilities and lengths of the line", "why_tests_cant": "Induction over lines of any length with any enabling relation; tests have two or three delegations.", "anchors": ["ucan/src/chain.rs::ProofChain::reduce_capabilities"]}
{"id": "C117", "title": "Exact course of a validation: which answers of clock and store judge which UCAN", "statement": "A chain is accepted exactly when, in order of a depth-first walk checking a UCAN before its proofs, each UCAN passes at the next answers of the clock (one for the expiry unless a time is supplied or there is none, one for the beginning if there is one) and each proof's block is what the store answers at that point. Afterwards the clock was read exactly that often, the store once per proof (once more for from_cid), one signature checked per UCAN, and the DID parser asked the issuers in that order. Clock and store may answer differently each time.", "quantifier": "all environments including unsteady clocks and stores, start states, chains", "why_tests_cant": "Equivalence including the final state, for environments that change between calls; tests use a steady clock and store.", "anchors": ["ucan/src/chain.rs::ProofChain::from_ucan", "ucan/src/chain.rs::ProofChain::try_from_token_string", "ucan/src/chain.rs::ProofChain::from_cid", "ucan/src/ucan.rs::Ucan::validate", "ucan/src/ucan.rs::Ucan::is_expired", "ucan/src/ucan.rs::Ucan::is_too_early"]}
{"id": "C118", "title": "A proof citation is read as a CID exactly when it is one", "statement": "The text of a citation is read as the CID c exactly when the part after its first '/ipfs/' (else all of it) is either 46 base58btc letters starting with 'Qm', or 'b' with base32, or 'z' with base58btc (other bases are left to the multibase library) of bytes that are a version-0 CID (SHA2-256 multihash, meaning DAG-PB) or a version-1 CID (codec and a multihash of at most 64 bytes), possibly followed by more. Version-0 CIDs print as 'Qm' and 44 more letters and are read back.", "quantifier": "all texts, byte strings and CIDs", "why_tests_cant": "Relational grammar with both directions, including a bound on base58 numerals; tests never see a version-0 CID.", "anchors": ["ucan/src/chain.rs::ProofChain::from_ucan", "ucan/src/ucan.rs::Ucan::to_cid"]}
{"id": "C119", "title": "Every outcome of signing, verifying and decoding keys", "statement": "Keys of the key-support crate sign exactly as their private key does over the data (its SHA-256 for RSA), report a missing private key, or report the signing failure; they accept a signature exactly when the public key verifies it, and otherwise report a bad signature. A DID with a registered prefix whose bytes are no public key is refused with that error. WebCrypto keys behave likewise while the API is available; without it everything reports its absence, except that a missing private key is noticed first.", "quantifier": "all key material, data, signatures, cryptography and browser behaviours", "why_tests_cant": "Enumerates all outcomes for arbitrary cryptography; tests sign and verify one message per key type.", "anchors": ["ucan-key-support/src/ed25519.rs::Ed25519KeyMaterial", "ucan-key-support/src/p256.rs::P256KeyMaterial", "ucan-key-support/src/rsa.rs::RsaKeyMaterial", "ucan-key-support/src/web_crypto.rs::WebCryptoRsaKeyMaterial", "ucan/src/crypto/did.rs::DidParser::parse"]}
{"id": "C120", "title": "Malformed capabilities are refused with the error of their first fault", "statement": "Reading capabilities from JSON returns a map or an error. The error is: 'must be an object' when the JSON is no object; otherwise the first fault in the order of resources and abilities decides among 'abilities must be an object', 'caveats must be an array' and 'caveat must be an object'; a resource without abilities is reported only when there is no such fault.", "quantifier": "all JSON values of the Rust type", "why_tests_cant": "Gives the error for every malformed value, including values with several faults; tests try a few single faults.", "anchors": ["ucan/src/capability/data.rs::Capabilities::try_from"]}
{"id": "C121", "title": "The example semantics read and print exactly their own texts", "statement": "Email scopes are read from exactly the URLs with scheme mailto, as the path, print as 'mailto:' and the address and contain only themselves; the only email ability is 'email/send'. WNFS scopes are read from exactly the URLs with scheme wnfs and a host, and print as 'wnfs://', host and path; WNFS abilities are exactly the five names of the table.", "quantifier": "all URLs, texts, scopes and abilities", "why_tests_cant": "Excludes every other scheme and name; tests use a handful of good ones.", "anchors": ["ucan/src/tests/fixtures/capabilities/email.rs", "ucan/src/tests/fixtures/capabilities/wnfs.rs"]}
{"id": "C122", "title": "Capabilities that enable each other are the same, and a report lists none twice", "statement": "When no two different scopes contain each other and no two different abilities are at least each other, two capabilities that enable each other have the same resource, the same ability and equal caveats; with reflexive and transitive orders the converse holds, and no two entries of a report are the same capability. Both example semantics meet the hypotheses.", "quantifier": "all semantics with these laws, all capabilities, chains and reports", "why_tests_cant": "Antisymmetry for arbitrary user orders and JSON caveats; tests compare two or three literal capabilities.", "anchors": ["ucan/src/capability/semantics.rs::CapabilityView::enables", "ucan/src/chain.rs::ProofChain::reduce_capabilities"]}
{"id": "C123", "title": "A boxed or shared key is the key it points to", "statement": "Wrapping a key in Box or Arc, to any depth, changes none of its methods, and so no token or verdict.", "quantifier": "all keys and nestings of pointers", "why_tests_cant": "Arbitrary nesting over arbitrary keys; tests never wrap twice.", "anchors": ["ucan/src/crypto/key.rs::KeyMaterial"]}
{"id": "C124", "title": "The documented generate_token makes one exact text, good for sixty seconds", "statement": "generate_token of the crate documentation returns exactly base64url of the header with the key's algorithm, base64url of the payload with audience, no capabilities, expiry sixty seconds after the clock (modulo 2^64), issuer and version, and base64url of the key's signature over both; it aborts only when the addition overflows in a build with overflow checks or the key has no DID. Every validator that knows the key type accepts the token up to and including the sixtieth second, reports no capabilities, and refuses it as expired afterwards.", "quantifier": "all keys, audiences, clocks, random draws, validators and semantics", "why_tests_cant": "Byte-exact text for all inputs and all later clock readings; the doc-test only compiles the function.", "anchors": ["ucan/src/lib.rs::generate_token", "ucan/src/builder.rs::UcanBuilder::build", "ucan/src/ucan.rs::Ucan::encode"]}
{"id": "C125", "title": "The documented get_capabilities returns the report of the accepted chain", "statement": "get_capabilities of the crate documentation returns a list exactly when the text is a token whose chain passes validation with a fresh parser, and the list is the report of that chain; with the documentation's empty list of key types it never returns one.", "quantifier": "all texts, stores, clocks, key types and semantics", "why_tests_cant": "Composition over every environment; the doc-test only compiles the function.", "anchors": ["ucan/src/lib.rs::get_capabilities", "ucan/src/chain.rs::ProofChain::try_from_token_string", "ucan/src/chain.rs::ProofChain::reduce_capabilities"]}
{"id": "C126", "title": "The texts of redelegation are prf:INDEX, prf:* and ucan/DELEGATE", "statement": "A URL selects proofs exactly when its scheme is prf and its path is * or a decimal number below 2^64, possibly with a plus sign and leading zeros; a selection prints as prf: and the plain number, or prf:*; All contains every selection and an index only itself. The one ability is read from and printed as ucan/DELEGATE and enables itself.", "quantifier": "all URLs, selections and ability texts", "why_tests_cant": "Exact reading and printing for every text; tests use prf:0, prf:1 and prf:*.", "anchors": ["ucan/src/capability/proof.rs::ProofSelection", "ucan/src/capability/proof.rs::ProofAction", "ucan/src/capability/proof.rs::ProofDelegationSemantics"]}
{"id": "C127", "title": "DAG-CBOR blocks are canonical", "statement": "The DAG-CBOR codec that stores IPLD data reads exactly the blocks of the specification (shortest heads, doubles of eight bytes, keys by length then bytes, CIDs under tag 42) and writes exactly those; it writes every datum Rust can hold except integers beyond 64 bits and floats that are no numbers. A datum has one block, a block is of one datum, no block is the beginning of another, and what was read is written as the same block again.", "quantifier": "all data and all byte strings", "why_tests_cant": "Canonicity and prefix-freeness over every tree and byte string.", "anchors": ["ucan/src/tests/helpers.rs::dag_cbor_roundtrip", "ucan/src/ipld/ucan.rs::UcanIpld"]}
{"id": "C128", "title": "UCANs, principals and signatures survive storage as a DAG-CBOR block", "statement": "A UcanIpld or Ucan written as a DAG-CBOR block and read back is the same, exactly when JSON values accept the data model's integers or the UCAN holds none in caveats and facts; principals and signatures always are. The block is a map of ten entries in the order s, v, aud, cap, exp, fct, iss, nbf, nnc, prf, with every field's own block. Different UCANs have different blocks, a token survives the way into and out of a block, and a UCAN read from anybody's block can be written and its block is read as the same UCAN.", "quantifier": "all UCANs, tokens, byte strings and blocks", "why_tests_cant": "Byte layout and round trip for every UCAN; the tests round-trip three values.", "anchors": ["ucan/src/tests/helpers.rs::dag_cbor_roundtrip", "ucan/src/ipld/ucan.rs::UcanIpld", "ucan/src/ipld/principle.rs::Principle", "ucan/src/ipld/signature.rs::Signature"]}
{"id": "C129", "title": "RSA keys have one DER encoding, and exactly the acceptable ones are resolved", "statement": "bytes_to_rsa_key succeeds exactly on the DER of an RSAPublicKey (definite shortest lengths, minimal non-negative integers, nothing left over) whose modulus has at most 4096 bits, whose numbers are odd, and whose exponent is from 3 to 2^33-1 and below the modulus; the key's DID is did:key:z and the base58 of 85 24 and that DER. A key has one encoding and shares it with no other. A parser with RSA registered resolves a key's DID to the key exactly when the key is acceptable, and fails otherwise.", "quantifier": "all byte strings, moduli and exponents", "why_tests_cant": "Byte-exact reading for every input; the test resolves one fixture key.", "anchors": ["ucan-key-support/src/rsa.rs::bytes_to_rsa_key", "ucan-key-support/src/rsa.rs::RsaKeyMaterial::get_did"]}
{"id": "C130", "title": "A key generated in the browser has its own DID", "statement": "For a browser that keeps to the Web Cryptography API, WebCryptoRsaKeyMaterial::generate gives key material whose DID is that of the same key natively, so that its tokens verify.", "quantifier": "all browsers, key sizes and messages", "why_tests_cant": "The browser test generates one 2048-bit key.", "anchors": ["ucan-key-support/src/web_crypto.rs::WebCryptoRsaKeyMaterial::generate", "ucan-key-support/src/web_crypto.rs::convert_spki_to_rsa_public_key", "ucan-key-support/src/web_crypto.rs::WebCryptoRsaKeyMaterial::get_did"]}
{"id": "C131", "title": "A DID that resolves to a key is the key's own DID", "statement": "If DidParser::parse resolves a DID with the three key types of ucan-key-support registered, the key material's get_did returns that DID, so that one key is one principal.", "quantifier": "all DIDs, decoders and parser histories", "why_tests_cant": "Ranges over all DIDs and all readings of a key; tests resolve the DIDs the crates print.", "anchors": ["ucan/src/crypto/did.rs::DidParser::parse", "ucan-key-support/src/p256.rs::bytes_to_p256_key", "ucan-key-support/src/p256.rs::P256KeyMaterial::get_did", "ucan/src/chain.rs::ProofChain::validate_link_to"]}
{"id": "C132", "title": "Which hierarchical resource texts are read, and as what", "statement": "Under the URL Standard's rules, a text is read as a URL of a non-special scheme with a given host and path exactly if, surrounding blanks, tabs and line breaks removed, it is the scheme in any case, a colon and either an opaque path or a slash form: two slashes, an optional user, a host without forbidden characters or in brackets, a port up to 65535, then segments from which the dot segments, plain or percent-encoded, have been removed in any order (RFC 3986 5.2.4) and the unprintable characters percent-encoded. The WNFS semantics of the tests reads a scope exactly in such texts that have a host; the redelegation texts are those of C109.", "quantifier": "all texts, all sets of path characters to encode, all IPv6 readers", "why_tests_cant": "Ranges over all texts; the tests of the repository use four fixed URLs.", "anchors": ["ucan/src/capability/semantics.rs::CapabilitySemantics::parse", "ucan/src/capability/semantics.rs::CapabilitySemantics::parse_capability", "ucan/src/tests/fixtures/capabilities/wnfs.rs::WNFSScope::try_from", "ucan/src/chain.rs::ProofChain::validate_link_to"]}
{"id": "C133", "title": "A WNFS scope contains exactly what lies below it, and dots cannot escape it", "statement": "A scope that was read from a text has no dot segments, plain or encoded; it contains another read scope exactly if the hosts are the same and the other path is its own path followed by further names; the text it prints as is read as the same scope. User, port, query and fragment of the text are not part of the scope.", "quantifier": "all texts and pairs of texts, all users, ports and queries", "why_tests_cant": "A universal statement about pairs of texts; tests contain one pair below and none with dots.", "anchors": ["ucan/src/capability/semantics.rs::Resource::contains", "ucan/src/capability/semantics.rs::CapabilityView::enables", "ucan/src/tests/fixtures/capabilities/wnfs.rs::WNFSScope::contains", "ucan/src/tests/fixtures/capabilities/wnfs.rs::WNFSScope::try_from", "ucan/src/tests/fixtures/capabilities/wnfs.rs::WNFSScope::to_string"]}
{"id": "C134", "title": "Numbers with fraction or exponent are read as the nearest double", "statement": "A JSON number with a fraction or exponent is read, by a library that rounds correctly, as the double closest to the decimal number it says, halves to the even significand, with the sign of the text (also for zero); it is refused exactly if the number is half a unit or more above the largest double. Each number text says one number.", "quantifier": "all texts", "why_tests_cant": "Ranges over all number texts, of any number of digits and any exponent; no test of the repository has a caveat or fact with a fraction.", "anchors": ["ucan/src/ucan.rs::Ucan::try_from", "ucan/src/capability/caveats.rs::Caveat::try_from", "ucan/src/capability/semantics.rs::CapabilitySemantics::parse_caveat"]}
{"id": "C135", "title": "Doubles are printed as the shortest text that reads back, the closest of those", "statement": "The text printed for a finite double is a JSON number with a fraction or an exponent and reads as the same double, sign of zero included; no number text with fewer significant digits reads as it; of the texts with as many digits none is closer, and of two as close the one printed is even; the digits do not end in a zero and are laid out plainly from 1e-5 up to below 1e16 and with an exponent otherwise. The layout determines the digits and the place of the point, and they determine it.", "quantifier": "all finite doubles, all number texts", "why_tests_cant": "2^64 doubles and infinitely many texts.", "anchors": ["ucan/src/ucan.rs::Ucan::encode", "ucan/src/builder.rs::Signable::sign"]}
{"id": "C136", "title": "Tokens carry every finite double", "statement": "With reading and printing as in C134 and C135, every finite double is carried by the wire format as caveat or fact, and parsing, encoding and parsing a token again yields the same content and the same text, whatever doubles it holds: the hypothesis on doubles of C16, C17, C20, C21 and C71 is met.", "quantifier": "all tokens, all finite doubles", "why_tests_cant": "A universal statement about all tokens and doubles.", "anchors": ["ucan/src/ucan.rs::Ucan::try_from", "ucan/src/ucan.rs::Ucan::encode", "ucan/src/builder.rs::Signable::sign"]}
{"id": "C137", "title": "The digest RSA keys sign is SHA-256", "statement": "The hash function computes, for every message, exactly the SHA-256 digest of FIPS 180-4: padding, message schedule, rounds with the constants derived from the cube and square roots of the first primes.", "quantifier": "all messages", "why_tests_cant": "Ranges over messages of any length; the test suite has no digest of a known message.", "anchors": ["ucan-key-support/src/rsa.rs::RsaKeyMaterial::sign", "ucan-key-support/src/rsa.rs::RsaKeyMaterial::verify"]}
{"id": "C138", "title": "RSA signatures are those of PKCS 1 version 1.5", "statement": "An RSA key accepts a signature exactly if it has the length of the modulus and its power is the padded SHA-256 DigestInfo of the data (and, in releases that test the range, is below the modulus), and otherwise reports an invalid signature. A key pair signs all data from 489 bits on, with the only signature there is; what a key returns as signature is accepted, whatever the private exponent; shorter keys neither sign nor accept anything. A token of an RSA issuer passes the check exactly if it carries such a signature. Without the test of the range, exactly the signatures up to multiples of the modulus are accepted too.", "quantifier": "all moduli, exponents, data, signatures and tokens", "why_tests_cant": "Ranges over all keys and all signatures, most of which no test could construct.", "anchors": ["ucan-key-support/src/rsa.rs::RsaKeyMaterial::sign", "ucan-key-support/src/rsa.rs::RsaKeyMaterial::verify", "ucan/src/ucan.rs::Ucan::check_signature"]}
{"id": "C139", "title": "A header and payload have one signature", "statement": "If two tokens with the same header and payload are both accepted, their signatures are the same. Fails for P-256: from every accepted token of a P-256 issuer anybody, without the key, has a different one (s replaced by the order minus s), accepted with the same header, payload, proofs and report. Holds for RSA issuers with a key pair if numbers from the modulus on are refused.", "quantifier": "all tokens, stores, clocks and keys", "why_tests_cant": "Quantifies over all signatures of a token.", "anchors": ["ucan-key-support/src/p256.rs::P256KeyMaterial::verify", "ucan-key-support/src/rsa.rs::RsaKeyMaterial::verify", "ucan/src/chain.rs::ProofChain::try_from_token_string"]}
{"id": "C140", "title": "Ed25519 keys and signatures are those of RFC 8032 and ZIP 215", "statement": "Bytes are an Ed25519 key exactly if they name a point of the curve under the rules of ZIP 215; the DID of the key keeps the bytes. A key accepts a signature exactly if ZIP 215 does (8 s B = 8 R + 8 k A with s below the order), and otherwise reports an invalid signature. The key pair of a seed is the one of RFC 8032, always signs, returns the signature of RFC 8032, and that is accepted for every hash function and all data. A token of an Ed25519 issuer passes the check exactly if it carries such a signature.", "quantifier": "all hash functions, seeds, keys, data, signatures and tokens", "why_tests_cant": "Ranges over all points of a curve with about 2^255 of them and over all hash functions; needs the group law and the primality of the field and the order.", "anchors": ["ucan-key-support/src/ed25519.rs::Ed25519KeyMaterial::sign", "ucan-key-support/src/ed25519.rs::Ed25519KeyMaterial::verify", "ucan-key-support/src/ed25519.rs::bytes_to_ed25519_key", "ucan/src/ucan.rs::Ucan::check_signature"]}
{"id": "C141", "title": "An Ed25519 signature belongs to one text", "statement": "A signature accepted for a text under an Ed25519 key is accepted for no other text unless the hashes agree. Fails: a key whose point has an order dividing eight has one signature for every text and every hash, and exactly such keys have one; they are valid issuers of tokens, and everybody can sign for them. Holds for the key pair of every seed: no multiple of its point below the order vanishes, and one signature is accepted for two texts exactly if the two hash numbers are equal modulo the order.", "quantifier": "all keys, seeds, hash functions, texts and signatures", "why_tests_cant": "Quantifies over all texts a signature could be moved to.", "anchors": ["ucan-key-support/src/ed25519.rs::Ed25519KeyMaterial::verify", "ucan-key-support/src/ed25519.rs::bytes_to_ed25519_key", "ucan/src/ucan.rs::Ucan::check_signature"]}
{"id": "C142", "title": "The first half of an Ed25519 signature determines the second", "statement": "Two signatures accepted under one key for one text with the same first 32 bytes are equal, so of two accepted tokens of one Ed25519 issuer with the same header and payload the signatures are equal or begin differently. With a key pair, the first halves that can be completed are exactly the names of points that are, up to a point of order eight, a multiple of the base.", "quantifier": "all keys, texts, hash functions, signatures and tokens", "why_tests_cant": "Quantifies over all second halves; needs that the order of the base point is prime.", "anchors": ["ucan-key-support/src/ed25519.rs::Ed25519KeyMaterial::verify", "ucan/src/ucan.rs::Ucan::check_signature"]}
{"id": "C143", "title": "An Ed25519 point has one DID", "statement": "Two byte strings that are the same Ed25519 point are equal, so a point has one DID. Fails: the neutral point answers to several DIDs. Exactly the points with a second coordinate below 19 or the first zero have a second name; a name has one point, and every point has the name of RFC 8032.", "quantifier": "all points and byte strings", "why_tests_cant": "Quantifies over all 32-byte strings.", "anchors": ["ucan-key-support/src/ed25519.rs::bytes_to_ed25519_key", "ucan-key-support/src/ed25519.rs::Ed25519KeyMaterial::get_did"]}
{"id": "C144", "title": "The hash of Ed25519 signatures is SHA-512", "statement": "The hash the model uses is the function of FIPS 180-4: it returns the digest the standard describes for the message, for every message, and no other. With it, a token of an Ed25519 issuer passes the check of the signature exactly if ZIP 215 accepts the signature for the hash of the standard, and a seed signs what RFC 8032 says.", "quantifier": "all messages, seeds, keys and tokens", "why_tests_cant": "Quantifies over messages of every length, paddings of every kind included.", "anchors": ["ucan-key-support/src/ed25519.rs::Ed25519KeyMaterial::sign", "ucan-key-support/src/ed25519.rs::Ed25519KeyMaterial::verify", "ucan/src/ucan.rs::Ucan::check_signature"]}
{"id": "C145", "title": "P-256 keys and signatures are those of SEC 1 and FIPS 186-4", "statement": "Bytes are a P-256 key exactly if they are the compressed, uncompressed or compact name of a point of the curve; the DID of the key is made of the compressed name. A key accepts a signature exactly if FIPS 186-4 does for the SHA-256 of the data, and otherwise reports an invalid signature. A private key of 32 bytes is taken exactly if it is a number from 1 to the order less one; it signs what FIPS 186-4 says for its nonce. A key accepts exactly what some nonce signs. A token of a P-256 issuer passes the check exactly if the issuer names a point and the token carries a signature of it.", "quantifier": "all byte strings, keys, nonces, data, signatures and tokens", "why_tests_cant": "Ranges over all points of a curve with about 2^256 of them; needs the group law of the curve and the primality of the field and the order.", "anchors": ["ucan-key-support/src/p256.rs::P256KeyMaterial::sign", "ucan-key-support/src/p256.rs::P256KeyMaterial::verify", "ucan-key-support/src/p256.rs::P256KeyMaterial::get_did", "ucan-key-support/src/p256.rs::bytes_to_p256_key", "ucan/src/ucan.rs::Ucan::check_signature"]}
{"id": "C146", "title": "A P-256 point has one DID", "statement": "Two byte strings that are the same P-256 point are equal, so that a point has one DID and the key read from a DID has that DID. Fails: every point has at least two, and the key read from a DID has the DID it was read from exactly if that holds the compressed name. A point has two names, and a third if its second coordinate is below half the prime; a name has one point.", "quantifier": "all points and byte strings", "why_tests_cant": "Quantifies over all byte strings; the number of names of every point.", "anchors": ["ucan-key-support/src/p256.rs::bytes_to_p256_key", "ucan-key-support/src/p256.rs::P256KeyMaterial::get_did"]}
{"id": "C147", "title": "Every P-256 public key has exactly one private key", "statement": "For every point of the curve there is exactly one number from 1 to the order less one whose public key it is, and conversely. A multiple of a public key vanishes exactly if the factor is a multiple of the order: there are no keys of small order. The sum of points is defined for all points, a point, and unique.", "quantifier": "all points and numbers", "why_tests_cant": "The number exists but cannot be found; needs that the curve has no more points than the order of its base.", "anchors": ["ucan-key-support/src/p256.rs::bytes_to_p256_key", "ucan-key-support/src/p256.rs::P256KeyMaterial"]}
{"id": "C148", "title": "An accepted P-256 token has exactly one twin", "statement": "Verification in the model of the crate is ECDSA on a group of odd order. From every accepted token of a P-256 issuer there is another accepted one with the same header, payload, proofs and report and another signature. A token with the same header and payload and the same first half of the signature is accepted exactly if the second half is the same number or the order less it, unless the first half is a number below the difference of prime and order.", "quantifier": "all tokens, keys, validators and stores", "why_tests_cant": "Quantifies over all second halves.", "anchors": ["ucan-key-support/src/p256.rs::P256KeyMaterial::verify", "ucan/src/ucan.rs::Ucan::check_signature", "ucan/src/chain.rs::ProofChain::from_ucan"]}
{"id": "C149", "title": "A freshly signed token passes the check, with every supported key type", "statement": "What the builder signs with a P-256 key pair and any nonces in range, with the key pair of an Ed25519 seed, or with an RSA key whose public part the crate takes, passes the check of the signature by a parser that knows the key type, at once and after printing and parsing. No assumption on the cryptography remains.", "quantifier": "all key pairs, builders, parsers and tokens", "why_tests_cant": "Ranges over all key pairs and all contents of a token.", "anchors": ["ucan/src/builder.rs::Signable::sign", "ucan/src/ucan.rs::Ucan::check_signature", "ucan-key-support/src/p256.rs::P256KeyMaterial::sign", "ucan-key-support/src/ed25519.rs::Ed25519KeyMaterial::sign", "ucan-key-support/src/rsa.rs::RsaKeyMaterial::sign"]}
{"id": "C150", "title": "The default hash of CIDs is BLAKE3", "statement": "The hash the model uses for CIDs by default returns, for every message, the digest the tree of chunks and blocks of the BLAKE3 paper has, and no other. The incremental hasher with its stack of chaining values gives the same digest however the message is cut into pieces.", "quantifier": "all messages and all ways to cut them", "why_tests_cant": "Quantifies over messages of every length; the shape of the tree depends on the number of chunks.", "anchors": ["ucan/src/ucan.rs::Ucan::to_cid", "ucan/src/builder.rs::UcanBuilder::default_hasher", "ucan/src/store.rs::MemoryStore::write"]}
{"id": "C151", "title": "The hash of the test suite's other store is BLAKE2b-256", "statement": "The hash of the store of the fixtures returns, for every message, the digest RFC 7693 gives for an unkeyed hash of 32 bytes, and no other.", "quantifier": "all messages", "why_tests_cant": "Quantifies over messages of every length.", "anchors": ["ucan/src/tests/fixtures/store.rs::Blake2bMemoryStore", "ucan/src/ucan.rs::Ucan::to_cid"]}
{"id": "C152", "title": "CIDs of tokens under SHA-256, SHA-512, BLAKE3 and BLAKE2b-256", "statement": "For each of the four codes every message has exactly one digest, of 64 bytes for SHA-512 and of 32 for the others, and the modelled hasher returns it. The CID of a UCAN under such a code is the base32 text of version 1, the raw codec, the code as the shortest varint, the length of the digest and the digest of the token text. A witness added without a choice of hash is cited by the BLAKE3 digest of its token text.", "quantifier": "all UCANs, builders and the four codes", "why_tests_cant": "Quantifies over all contents of a token, with the digests computed by the standards.", "anchors": ["ucan/src/ucan.rs::Ucan::to_cid", "ucan/src/builder.rs::UcanBuilder::witnessed_by", "ucan/src/builder.rs::UcanBuilder::default_hasher"]}
{"id": "C153", "title": "A store gives back what was written, up to collisions of BLAKE3", "statement": "After any history of writes and reads, reading the CID returned for a block gives a block that was written, and that block is the same or has the same BLAKE3 digest. A UCAN whose token was written, cited as a builder does by default, resolves to what its token parses as, unless another block with the same BLAKE3 digest was written.", "quantifier": "all histories, blocks and UCANs", "why_tests_cant": "The alternative is a concrete pair of colliding texts, not an assumption that there is none.", "anchors": ["ucan/src/store.rs::MemoryStore", "ucan/src/store.rs::MemoryStore::write", "ucan/src/builder.rs::UcanBuilder::witnessed_by", "ucan/src/chain.rs::ProofChain::from_ucan"]}
{"id": "C154", "title": "An accepted UCAN has one chain, whatever store it was checked against", "statement": "If a UCAN is accepted against two memory stores, with any contents and other writers, at any times and with any parsers, the two chains are equal, unless the stores answered one CID with different tokens of the chains; these tokens then have the same BLAKE3 digest. So what a UCAN delegates is fixed by its own text.", "quantifier": "all UCANs, pairs of stores, clocks and parsers", "why_tests_cant": "Quantifies over pairs of changing stores; the exception is a collision exhibited by the run.", "anchors": ["ucan/src/chain.rs::ProofChain::from_ucan", "ucan/src/chain.rs::ProofChain::try_from_token_string", "ucan/src/store.rs::MemoryStore", "ucan/src/store.rs::MemoryStore::write"]}
{"id": "C155", "title": "Which UCANs have an IPLD block, which block, and why not", "statement": "A UCAN converts to a block exactly if every cited proof is the text of a CID, issuer and audience are principals and the algorithm has one of the five JWT names. The block then holds those CIDs (nothing instead of an empty list), the bytes of the principals, the signature behind the shortest varints of its code and its length, and the other fields unchanged. Otherwise the error names the first of these reasons; the conversion never aborts.", "quantifier": "all UCANs", "why_tests_cant": "Quantifies over all fields; fixes the order in which the reasons count.", "anchors": ["ucan/src/ipld/ucan.rs::UcanIpld", "ucan/src/ipld/principle.rs::Principle", "ucan/src/ipld/signature.rs::Signature"]}
{"id": "C156", "title": "Reading an IPLD block gives a UCAN or an error", "statement": "Every block is read as a UCAN or refused with an error. Fails: blocks abort the reader, exactly if the length of the signature exceeds what follows it, or, with a signature that decodes, the issuer or then the audience has fewer than two bytes or the marker before bytes that are no text. A block is refused exactly if its signature does not decode, with the error of that. The UCAN read from a block has the algorithm of its signature, type JWT, the version of the library, the DIDs of its principals, the texts of its CIDs, and the signing input made anew from those.", "quantifier": "all blocks", "why_tests_cant": "Quantifies over all blocks, those included no UCAN converts to.", "anchors": ["ucan/src/ipld/ucan.rs::Ucan", "ucan/src/ipld/principle.rs::Principle", "ucan/src/ipld/signature.rs::Signature::decode"]}
{"id": "C157", "title": "The capability a view prints as", "statement": "A view converts to the capability with the text of its ability, its caveat, and as resource the text of the scope or a star, behind my: or behind as:, the DID and a colon if it is one's own or another's.", "quantifier": "all semantics and views", "why_tests_cant": "Quantifies over all implementations of scopes and abilities.", "anchors": ["ucan/src/capability/semantics.rs::CapabilityView", "ucan/src/capability/semantics.rs::Resource"]}
{"id": "C158", "title": "The nonce of a P-256 signature is that of RFC 6979", "statement": "HMAC with SHA-256 is computed as in FIPS 198-1, for keys of all lengths. The nonce drawn for a private key and a text is the number RFC 6979, 3.2 gives, whether the digest is fed reduced or not; if there is such a number it is found, there is only one, and it lies between zero and the order.", "quantifier": "all private keys and texts, both ways to feed the digest", "why_tests_cant": "Quantifies over all keys and texts and all numbers of rejected candidates, of which a test meets none.", "anchors": ["ucan-key-support/src/p256.rs::P256KeyMaterial::sign"]}
{"id": "C159", "title": "P-256 keys sign deterministically, and what they sign passes", "statement": "Signing with a P-256 key pair gives the ECDSA signature of the text with the nonce of RFC 6979 and no other, and gives it if there is one. The signature of a built token is that of its header and payload. Such tokens pass the signature check, at once and after transport, with nothing assumed of the nonces.", "quantifier": "all key pairs, texts, builders and parsers with the constructor registered", "why_tests_cant": "Quantifies over all keys and texts; no test repeats a signature.", "anchors": ["ucan-key-support/src/p256.rs::P256KeyMaterial::sign", "ucan/src/builder.rs::Signable::sign", "ucan/src/ucan.rs::Ucan::check_signature"]}
{"id": "C160", "title": "Exactly which tokens are accepted, by the standards alone", "statement": "With the constructors of the three supported key types registered in any order, a signature passes exactly when it is one of the standards under the key the issuer DID names: Ed25519 by the rules of ZIP 215 with SHA-512, RSASSA-PKCS1-v1_5 with SHA-256, ECDSA on P-256. A token gives a chain exactly when it is a text of the token grammar, is within its window, carries such a signature, and cites version-1 CIDs of raw blocks whose BLAKE3 digest is that of a block in the memory store; the last such block is a token for which the same holds, addressed to the issuer and outliving the token; and the texts prf:N with ucan/DELEGATE name such proofs. The chain is the only one of its UCAN. No parsing or verifying function occurs in the description.", "quantifier": "all texts, chains, times, histories of a memory store, orders of the constructors and DIDs parsed before", "why_tests_cant": "Quantifies over every text and signature; it combines decoding, JSON, base58, DER, curve arithmetic, hashing and the store in one equivalence.", "anchors": ["ucan/src/chain.rs::ProofChain::try_from_token_string", "ucan/src/chain.rs::ProofChain::from_ucan", "ucan/src/ucan.rs::Ucan::validate", "ucan/src/ucan.rs::Ucan::check_signature"]}
{"id": "C161", "title": "What a report rests on, by the standards alone", "statement": "That signatures cannot be forged means, for the three key types, exactly that whoever has a signature of the standards has signed. A capability reported for an accepted token rests on a line of UCANs, each with its issuer signature by the standards, each cited in and addressed to the next, back to an originator; every originator issued a UCAN of the chain. The DID of the neutral point of edwards25519 counts as having signed everything.", "quantifier": "all semantics, texts, chains, times, histories of a memory store and orders of the constructors", "why_tests_cant": "Quantifies over every accepted token and signature.", "anchors": ["ucan/src/chain.rs::ProofChain::reduce_capabilities", "ucan/src/chain.rs::ProofChain::try_from_token_string", "ucan/src/ucan.rs::Ucan::check_signature", "ucan-key-support/src/ed25519.rs::bytes_to_ed25519_key"]}
{"id": "C162", "title": "Texts with a leading letter for their base", "statement": "The text of a CID starts with a letter naming one of the 23 bases of multibase. A letter and a text stand for bytes exactly as the table of multibase says: for powers of two the binary digits of the bytes, filled up with fewer zeros than a letter holds, are those of the letters; with padding each block is filled up with =; for other bases leading zero bytes are leading first letters and the rest is a number. A text stands for one list of bytes only, each base writes all bytes, and each base writes them in one way.", "quantifier": "all letters, texts and byte strings", "why_tests_cant": "Infinitely many texts; a decoder that takes trailing bits, a wrong case or short padding differs on texts no test tries.", "anchors": ["ucan/src/chain.rs::ProofChain::from_ucan", "ucan/src/ipld/ucan.rs::TryFrom<&Ucan> for UcanIpld"]}
{"id": "C163", "title": "The spellings of a citation", "statement": "A cited text is read as a CID exactly when the part after its first /ipfs/ (or all of it) is 46 letters of base58btc starting with Qm or a letter and a text of its base for bytes of that CID. Every version-1 CID can be spelled with each letter of the table. All spellings of a CID cite the same proof, and so the citations of accepted tokens are described by the standards alone.", "quantifier": "all texts, CIDs, bases, stores and UCANs", "why_tests_cant": "Quantifies over every text and every CID; which spellings are read depends on the bases and on the search for /ipfs/ together.", "anchors": ["ucan/src/chain.rs::ProofChain::from_ucan", "ucan/src/ipld/ucan.rs::TryFrom<&Ucan> for UcanIpld"]}
{"id": "C164", "title": "Texts of IPv6 addresses", "statement": "A text is read as an IPv6 address exactly if it is eight pieces of one to four hexadecimal digits separated by colons, the last two possibly written as an IPv4 address, with :: at most once for one or more zero pieces; what is read are eight 16-bit numbers and no text has two meanings. An address is printed as RFC 5952 demands: lower case, no leading zeros, the first longest sequence of two or more zeros left out. The printed text is read back as the address.", "quantifier": "all texts and all addresses", "why_tests_cant": "2^128 addresses with many texts each; the place of :: relative to an embedded IPv4 address and the choice among equal sequences of zeros are easily wrong on texts no test tries.", "anchors": ["ucan/src/tests/fixtures/capabilities/wnfs.rs::WNFSScope::try_from", "ucan/src/capability/semantics.rs::ResourceUri"]}
{"id": "C165", "title": "Scopes on IPv6 hosts", "statement": "A wnfs resource with a host in brackets names a scope exactly if the host is the text of an IPv6 address. Texts of the same address name the same scope; a scope on one address contains nothing on another; and every scope that was read, whatever its host, is read back from the text it prints as.", "quantifier": "all texts of hosts and paths, and all URL libraries that follow the rules", "why_tests_cant": "Quantifies over every spelling of every address; a canonical text missed on one side would refuse a delegation or let two hosts share one.", "anchors": ["ucan/src/tests/fixtures/capabilities/wnfs.rs::WNFSScope::try_from", "ucan/src/tests/fixtures/capabilities/wnfs.rs::WNFSScope::contains", "ucan/src/capability/semantics.rs::ResourceUri"]}
{"id": "C166", "title": "SHA-3 and Keccak", "statement": "The digest under the codes sha3-224 to sha3-512 is the one FIPS 202 defines for the bits of the message, and under keccak-224 to keccak-512 the one without the two bits SHA-3 appends; no other digest is.", "quantifier": "all messages and the four lengths", "why_tests_cant": "A wrong rotation, round constant or padding byte may show only for messages of certain lengths; the proof covers every length of message, in particular those that fill a block up to its last byte.", "anchors": ["ucan/src/ucan.rs::to_cid", "ucan/src/builder.rs::UcanBuilder::witnessed_by"]}
{"id": "C167", "title": "BLAKE2b and BLAKE2s of every length", "statement": "The digest of n bytes is the one RFC 7693 defines for BLAKE2b (n up to 64) and BLAKE2s (n up to 32) without a key; no other is.", "quantifier": "all messages and all lengths of digests", "why_tests_cant": "Infinitely many messages; the last block differs from the others and is a full one if the length divides, which tests with short inputs do not reach.", "anchors": ["ucan/src/ucan.rs::to_cid", "ucan/src/builder.rs::UcanBuilder::witnessed_by"]}
{"id": "C168", "title": "Citations under every hash", "statement": "Under each of the fifteen codes a hasher can have, a UCAN has one CID: version 1, codec raw, the code as shortest varint, the length and the digest of its token in the standard of that hash, in lower-case base32; a witness is cited by this text. Citations under different codes differ, and under one code they agree only if the digests of the tokens do.", "quantifier": "all UCANs and all codes", "why_tests_cant": "Quantifies over all tokens and both sides of a pair of codes; a code mapped to the wrong function or length would be noticed only by other implementations.", "anchors": ["ucan/src/ucan.rs::to_cid", "ucan/src/builder.rs::UcanBuilder::witnessed_by"]}
{"id": "C169", "title": "One chain in every content-addressed store", "statement": "Call a store content-addressed if what it answers for a raw CID has the CID's digest under the CID's hash code. MemoryStore and the BLAKE2b store of the tests are. A UCAN accepted against two such stores, at any times and with any parsers, gives the same chain, unless a UCAN of the chain cites a CID which the stores answered by two texts with one digest. A witness cited under any hash resolves only to the cited token or to one that collides with it.", "quantifier": "all content-addressed stores, also changing ones, all fifteen hashes, all UCANs", "why_tests_cant": "Quantifies over two unknown stores and their histories; a test has one store and its own blocks.", "anchors": ["ucan/src/chain.rs::ProofChain::from_ucan", "ucan/src/store.rs::UcanJwtStore::require_token", "ucan/src/ucan.rs::to_cid", "ucan/src/builder.rs::UcanBuilder::witnessed_by"]}
{"id": "C170", "title": "Chains can be moved between stores", "statement": "If a UCAN is accepted against a content-addressed store that does not change, it is accepted with the same chain against any other one that has something under each CID cited in the chain (same clock), unless the two stores answered a cited CID by texts that collide. A store that lacks one of them does not give this chain.", "quantifier": "all pairs of steady content-addressed stores and all chains", "why_tests_cant": "Needs all stores that hold the cited blocks beside arbitrary others, and chains of any depth.", "anchors": ["ucan/src/chain.rs::ProofChain::from_ucan", "ucan/src/chain.rs::ProofChain::try_from_token_string", "ucan/src/store.rs::UcanJwtStore::require_token"]}
{"id": "C171", "title": "Validity in real time", "statement": "On a clock that shows nanoseconds, a signed UCAN is valid at exactly the instants from the start of its not-before second to the end of its expiry second (the whole second named by `exp` is included). A chain accepted at one instant is accepted, with the same links, at exactly the instants of the outermost UCAN's window. If the clock moves during validation, every UCAN of the accepted chain had started by the last reading and had not expired at the first. While the clock is before 1970 validation aborts exactly if it has to read the clock: for an expiry without a supplied time, or for a not-before unless the supplied time is past the expiry.", "quantifier": "all instants before and after 1970, all UCANs and chains", "why_tests_cant": "Tests run at one real instant; rounding shows only within a second of a bound, and the abort only on a machine with a wrong clock.", "anchors": ["ucan/src/time.rs::now", "ucan/src/ucan.rs::Ucan::is_expired", "ucan/src/ucan.rs::Ucan::is_too_early", "ucan/src/ucan.rs::Ucan::validate"]}
{"id": "C172", "title": "Lifetimes in real time", "statement": "A UCAN built with a lifetime of n seconds and no explicit expiry is live for n seconds from the instant it was built, and is no longer live n+1 seconds after it (as long as the sum fits 64 bits). Building aborts because of the clock exactly if it is before 1970, issuer and audience are set, and the expiry comes from a lifetime.", "quantifier": "all instants, sequences of builder calls and lifetimes", "why_tests_cant": "The extra fraction of a second depends on the instant within a second at which build runs.", "anchors": ["ucan/src/time.rs::now", "ucan/src/builder.rs::UcanBuilder::implied_expiration", "ucan/src/builder.rs::UcanBuilder::build"]}
