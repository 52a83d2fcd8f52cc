# A Rocq model of rs-ucan

The plan (the shape of the development and how each group of properties is modelled) was written before
the proofs; the other sections are kept current.

## Shape of the development

`rocq/theories/` holds

| files | contents |
|---|---|
| `Prelude.v`, `Ord.v`, `SMap.v` | outcome type (`Ok`/`Err`/`Panic`/`Diverged`), byte strings, BTreeMap/BTreeSet as sorted association lists |
| `BaseN.v`, `Base58.v`, `Varint.v`, `Utf8.v` | the codecs the code calls (URL-safe and standard base64, base32, base58btc, decimal, unsigned varint, UTF-8) |
| `Value.v`, `Ext.v`, `Json.v` | `serde_json::Value`, the open parameters, IPLD values, the DAG-JSON printer and parser |
| `Url.v`, `Cid.v` | the part of `url::Url` and `cid::Cid` the code observes |
| `Hier.v` | hierarchical URLs of non-special schemes, as the URL Standard reads them |
| `Double.v` | decimal texts of doubles: correct rounding, shortest printing |
| `Sha256.v`, `RsaSign.v` | SHA-256; RSA signatures of PKCS 1 version 1.5 |
| `Ed25519.v` | Ed25519 as in ed25519-zebra: field and curve arithmetic, point texts, key pairs, signing, verification (ZIP 215); the hash is a parameter |
| `Sha512.v`, `P256.v` | SHA-512; ECDSA on P-256 as in the crates p256 and ecdsa: curve arithmetic, names of points, key pairs, signing, verification; the nonce is a parameter |
| `Rfc6979.v` | HMAC-SHA-256 and the nonces of RFC 6979 as in the crates hmac and rfc6979; whether the digest is fed reduced is a parameter |
| `Ipv6.v` | IPv6 addresses as hosts of URLs (`parse_ipv6addr`, `write_ipv6` of crate url) |
| `Multibase.v` | `multibase::decode` for all its bases |
| `RealTime.v` | `time::now`, validation and building over instants in nanoseconds |
| `Keccak.v`, `Blake2s.v`, `AllHashes.v` | SHA-3, Keccak, BLAKE2s, other lengths of BLAKE2b, the whole table of multihash codes |
| `Blake3.v`, `Blake2b.v`, `Multihash.v` | BLAKE3 (incremental hasher), BLAKE2b-256, digests by multihash code |
| `Caveat.v`, `Capability.v`, `Semantics.v` | ucan/src/capability |
| `Key.v`, `KeyWrap.v`, `KeySupport.v` | ucan/src/crypto and ucan-key-support |
| `Ucan.v`, `Builder.v`, `Store.v`, `Chain.v`, `Ipld.v`, `IpldSerde.v`, `Cbor.v` | ucan/src/{ucan,builder,store,chain}.rs and ucan/src/ipld; DAG-CBOR blocks |
| `WebCrypto.v`, `Der.v`, `Fixtures.v`, `Docs.v` | ucan-key-support/src/web_crypto.rs; the RSA encoding behind rsa.rs and `generate`; ucan/src/tests/fixtures (example semantics and store); the functions of the documentation in ucan/src/lib.rs |
| `Samples.v`, `Sample*.v` | concrete tokens, keys and stores used by the examples |
| `TestSuite.v` | the repository's own unit tests, transcribed and run on the model (a check of the model; nothing depends on it) |
| `Spec*.v` | small specifications, independent of the model's helper functions |
| `*Facts.v` | proofs |
| `P*.v` | the property theorems, each closed by `exact` (or by explicit witnesses for an existential) and followed by `Print Assumptions`, with examples |

Model files contain definitions only. Every definition cites the lines it models.

## How each group of properties is modelled and proved

* C01-C07 (capabilities): direct functional models of caveats.rs, semantics.rs, data.rs over
  arbitrary scope/ability types; proofs by induction over the lists/maps.
* C08, C74 (shape of parsed tokens): the derived `Deserialize` is modelled as the function from IPLD
  values it generates; the expected statements are refuted by a concrete token, and what does hold is proved.
* C09-C12 (resource strings): URL parsing is modelled concretely for opaque paths; decimal printing and
  parsing are modelled; C10 and C11 are refuted outright (for *all* inputs), C12 proved with its exceptions.
* C13-C15 (time): the clock is an arbitrary function of the number of readings, so every clock behaviour
  during a call is covered.
* C16-C25, C60, C69-C72 (token text): base64, base58, base32, DAG-JSON printing/parsing are concrete
  functions with round-trip proofs by induction; the token functions are modelled on top.
* C26-C31 (DIDs, keys): the parser is a state machine; cache transparency by an invariant over
  arbitrary call histories. Key types are records of functions; cryptography is a parameter.
* C32-C39, C75-C82 (chains): `from_ucan` is a fuelled function in a state monad (parser cache, number of clock
  readings, number of store reads, number of signature checks); the store is an arbitrary function of (number of
  reads so far, CID), so concurrent writers are covered. Acceptance is proved equivalent to an inductive
  specification; the others are corollaries by induction on it. Non-termination = out of fuel for every fuel.
* C40-C44 (store): histories of operations over a shared map; induction over the history.
* C45-C53, C73 (reduction): direct model of `reduce_capabilities` including the in-place merge loop;
  induction over chains and over the merge. C48, C51, C52 are refuted by concrete accepted chains and
  proved under the hypotheses that make them true.
* C54-C59 (builder): builder calls as an operation type, induction over call sequences.
* C61-C68 (IPLD): concrete varint, varsig, principal models.
* C87-C93 (serialised IPLD data): derived `Serialize`/`Deserialize` as functions to and from IPLD values; reading is
  proved equivalent to a relational specification, from which the round trips follow.
* C94-C96 (WebCrypto keys): DER lengths and SPKI written out in the specification; case analysis on the size of the key.
* C97-C98 (example semantics): a path is the join of its components, so containment is prefixing at a slash.
* C99-C100 (proofs as a set): originators are sorted sets, determined by membership, and the rest of a report does not see
  the proofs.
* C101-C102 (what a report is): merging never changes a capability, so an entry is kept iff no earlier one enables it;
  induction over the merge loop.
* C103-C107 (wire formats): the texts are written out from the standards in `SpecWire.v`; bit lists of bytes are split at
  letter boundaries, digits are unique, and printing is shown equal to the relational grammar.
* C108 (what is read as JSON): a relational grammar after RFC 8259 and RFC 3629 in `SpecJson.v`; the recursive descent is shown
  sound (induction on fuel) and complete (induction on nesting).
* C109 (what is read as a resource): the text grammar of opaque URLs in `SpecUrl.v`; each stage of the parser is matched with
  one clause. Hierarchical URLs stay a parameter.
* C110 (locality) and C111 (reasons for refusal): induction over the recursion; faults are listed one by one in `SpecReject.v`,
  and C32 gives the converse.
* C112 (errors of tokens): case distinction along the parser, each case characterised by C105 and C108.
* C113 characterises the two other entry points (token text, CID) by the same notion of valid chain and the faults of C111;
  C114 the multicodec tables, tagged signatures and principals with their errors; C115 stores under other hashes.
* C116 gives the report of a line of single-claim delegations outright, by induction on the line; C117 follows the whole course
  of a validation, answer by answer, for clocks and stores that change (mutual induction on chains and proof lists).
* C118 gives the grammar of CIDs in text and bytes (both versions), C119 every outcome of the key operations.
* C120 gives the error of every malformed capability JSON, C121 the texts of the example semantics.
* C122 shows that mutual enabling is sameness and that reports have no repetitions, C123 that pointers to keys are transparent.
* C124-C125 are about the two functions of the crate documentation (`Docs.v`), end to end.
* C126 gives the texts of the redelegation semantics.
* C127-C128: a concrete DAG-CBOR writer and reader are proved equal to a relational specification of canonical blocks;
  the round trips of C87 and C92 then carry over to blocks.
* C129-C130: DER of RSA public keys is concrete (`Der.v`), proved against X.690 in relational form; sizes in bytes follow
  from sizes in bits, which turns C94 into statements about `generate`.
* C131: the decoders of the key types are parameters; `own_encoding_only` and `sec1_codec` (`SpecAlias.v`) are the two
  assumptions on them that occur. Only the DER decoder is concrete.
* C132-C133: `Hier.v` is the URL Standard's reading of hierarchical URLs of non-special schemes; the theorems are for every
  `ext` whose field `x_url_hier` follows it (`follows`). The specification removes dot segments by rewriting, in any order;
  the proof is that the parser computes the unique normal form. Known differences of the url crate from the standard, all
  for texts of no use as resources: a backslash after a port, `//@` at the end, drive letters before `..`.
* C134-C136: `Double.v` reads number texts by correct rounding and prints the shortest text that reads back, as serde_json
  with the feature float_roundtrip and the crate ryu document. The specification (`SpecDouble.v`) measures distances of doubles
  to fractions in whole numbers. The other theorems keep both functions open; C136 shows that their hypotheses on doubles
  (`float_carried`, `floats_survive`) are met by these. Without float_roundtrip serde_json rounds twice and they are not: that
  libipld-json turns the feature on for the build is taken from its manifest and could not be checked here.
* C137-C139: `Sha256.v` and `RsaSign.v` make the signatures of RSA keys concrete. The specifications are FIPS 180-4 with its
  constants as roots of primes (`SpecSha.v`), RFC 8017 (`SpecRsa.v`) and ECDSA over an abstract group (`SpecTwin.v`). The
  proof that a key pair signs contains Fermat's theorem and the Chinese remainder theorem. Blinding and the use of the prime
  factors in signing are not modelled: they do not change the result.
* C140-C143: `Ed25519.v` makes the signatures of Ed25519 keys concrete. The specification (`SpecEd.v`) is RFC 8032 and ZIP 215 in
  terms of points modulo 2^255 - 19. Behind it: Pocklington certificates for the field prime and the order of the base
  (`EdPrimeFacts.v`, generated, checked by computation), that d is no square, the residues as a field (`PrimeFacts.v`), the
  completeness and the group law of the curve from polynomial identities (`EdwardsFacts.v`), a walk of checked doublings and
  additions from the base to its order (`EdOrderFacts.v`, generated), square roots by the (p - 5) / 8 power (`EdTextFacts.v`).
  The test vectors 1 and 2 of RFC 8032, 7.1 were checked against the model with `Sha512.v` outside the build (nine minutes).
* C144-C149: `Sha512.v` makes the hash of Ed25519 concrete, `P256.v` the signatures of P-256 keys. The specification
  (`SpecP256.v`) is SEC 1 and FIPS 186-4 in terms of pairs of residues, with the sum of points as a relation given by chords
  and tangents. Behind it: certificates for the two primes (`P256PrimeFacts.v`, `P256OrderFacts.v`, generated), the group law
  of Weierstrass curves without points of order two, associativity included (`WeierFacts.v`, polynomial identities), a walk
  from the base to its order, and a count: each first coordinate has at most two points, so that there are fewer than three
  times the order of them, and as there is none of order two, every point is a multiple of the base (`P256PointFacts.v`). C149 composes the three key types with C23.
* C150-C154: `Blake3.v` and `Blake2b.v` make the hashes of the stores concrete, `Multihash.v` the choice by code. The
  specification of BLAKE3 (`SpecBlake3.v`) is the binary tree of the paper, split at the largest power of two of chunks; the
  model is the reference implementation with its stack of chaining values, and `Blake3TreeFacts.v` shows by induction over the
  binary digits of the number of chunks that they agree. Statements about stores that needed freedom from collisions (C40-C44)
  return here with the collision as the alternative: two concrete texts with one digest. C154 follows from the characterisation
  of acceptance (C32) by induction over the chain.
* C155-C157: the conversions of blocks and views written as relations field by field (`SpecBlock.v`); each stage is matched
  with the characterisations of C62-C66 and C114. They came from wrong programs that no theorem noticed.
* C158-C159: `SpecRfc6979.v` writes HMAC with the bits of the padded key turned over and the loop of RFC 6979, 3.2, h as an
  inductive relation; the loop of the model has fuel, and the theorems say that a number found is the one of the relation and
  that enough fuel finds it. That some candidate is in range cannot be shown of SHA-256; the theorems do not assume it. The
  examples are the vectors of RFC 4231, 4.3 and RFC 6979, A.2.5 (key, nonce and signature), and a token of that key; the
  multiples of the base point in them are certified by trails (`SampleTrails.v`) like that for its order.
* The certificates (`EdPrimeFacts.v`, `P256PrimeFacts.v`, `EdOrderFacts.v`, `P256OrderFacts.v`, `SampleTrails.v`) multiply with
  `zmul` of `FastMul.v`, shown equal to the product, because coqchk computes without the virtual machine.
* C160-C161: `SpecStandard.v` puts the specifications together: `standard_signature` (ZIP 215, RFC 8017, FIPS 186-4 under the
  key a DID names), `latest` (the last block with a BLAKE3 digest), `stands_for` (a CID text, the grammar of tokens) and
  `standard_chain`, which mentions no function that parses, verifies, reads or hashes. Assumed: the store is a memory store with some
  history and does not change, the clock stands still, `multihashed` (C152) and `rooted` (C109). `standard_line` is `authority`
  (C86) with the signatures of the standards in place of an assumption about forging.
* C162-C163: `Multibase.v` makes the remaining bases of CID texts concrete; `SpecMultibase.v` writes the table of multibase with
  binary digits and place values, `spells` is what `Cid::try_from(&str)` should read. Padded bases are decoded block by block
  in data-encoding, so padded blocks may follow one another; `multibased` says that the library knows the table.
* C164-C165: `Ipv6.v` gives the field `ur_ipv6` of `url_rules` its value, so that `stable_rules` (C133) is no longer an
  assumption for url 2.x. `SpecIpv6.v` describes texts of addresses by grammar and the printed one by RFC 5952; the code
  computes the first longest sequence of zeros in one pass.
* C166-C168: `SpecKeccak.v` follows FIPS 202 bit by bit (state, steps, LFSR of the round constants, padding as a relation);
  `Keccak.v` works on lanes with the tables and the single walk of the crate. BLAKE2s shares its mixing with BLAKE3.
  `SpecAllHashes.v` is the table of the fifteen codes.
* C169-C170: `SpecAddressed.v` says of a store only that its answers have the digest of the CID under the CID's code (table of
  C168); `stores_collide` names the UCAN, the citation and the two texts, so the exception is an actual collision.
* C171-C172: `RealTime.v` has the callers of `time::now` over instants in nanoseconds, including the `unwrap` that aborts before
  1970; C171_validation and C171_chain tie it to the readings in seconds the other files start from. The walk over a chain is
  not repeated for clocks before 1970.
* C83-C86 (end to end): builder, store, validator and report composed; signatures as an unforgeability hypothesis.

No property is declared inexpressible.

## Trusted base

* The Rocq (Coq 8.16.1) kernel and its standard library. Each property theorem is followed by
  `Print Assumptions`; every one prints "Closed under the global context": no axiom is used, not even one
  of the standard library.
* `lia`/`ring`/`vm_compute` produce terms the kernel checks; no plugin, no disabled check, no admitted proof.
* The correspondence between the Rust sources and the model files, which was made by reading. It is not
  machine-checked. The comments give file and lines for each definition and say where something is simplified.
* That third-party crates behave as described in `BaseN.v`, `Base58.v`, `Multibase.v`, `Ipv6.v`, `Varint.v`, `Utf8.v`, `Json.v`, `Cid.v`,
  `Url.v` (written from their documentation), and that `serde`'s derived code does what its documentation says.

Left open (a field of the record `ext`, a parameter, or a universally quantified variable; theorems hold for every
value unless they state a hypothesis): hashing (all fifteen codes made concrete in `Multihash.v` and `AllHashes.v`, C150-C154, C166-C168), the cryptographic primitives (RSA signatures made concrete in `RsaSign.v`, C137-C138; Ed25519 in `Ed25519.v` and `Sha512.v`, C140-C144; P-256 in `P256.v` and `Rfc6979.v`, C145-C149 and C158-C159), the clock, the store behind
`UcanJwtStore` (any function of the number of earlier reads), printing and parsing of doubles (made concrete in `Double.v`, C134-C136), URLs with an authority
or a special scheme, multibase prefixes other than `b` and `z` (made concrete in `Multibase.v`, C162-C163), whether integer overflow panics or wraps, whether
serde_json accepts 128-bit integers, whether the DAG-JSON decoder rejects trailing input, and random nonce bytes.

Modelled: everything in ucan/src outside `#[cfg(test)]` and in
ucan-key-support/src/{ed25519,rsa,p256}.rs, except what the next list names.

Not modelled, or simplified:

* error texts: errors are an enumeration of their causes;
* `async`: futures run to completion in program order; interleavings appear only as other writers of the store and
  as movements of the clock. `MemoryStore`'s mutex is assumed not poisoned;
* memory exhaustion and stack overflow; recursion depth of `from_ucan` is unbounded;
* chains on a machine clock set before 1970, on which `time::now` panics (single UCANs and building: C171, C172); `serde::ser_to_lower_case`, which nothing calls;
* `Debug`/`Display` output other than `to_string` used by the code, logging;
* keys are pure functions (no interior state), and signing with the three key types is deterministic;
* web_crypto.rs: the browser is a parameter, `generateKey` included;
* the checks of `RsaPublicKey::new` and the strictness of the DER reader (crates rsa 0.9, pkcs1, der) are modelled from
  their documentation (C129-C130 only; C94-C96 take the decoder as a parameter);
* DAG-CBOR (serde_ipld_dagcbor, third party) is modelled from its specification, with the strict reader; the library may
  read more than that of blocks written by others;
* the two conditional-compilation variants of the `ConditionalSend` markers, which have no run-time content.

## Findings

Properties that a reader would expect and that are false of the code (each has a `_refuted` theorem, see the table):

1. One unsigned token with issuer `did:key:z` (or any did:key of fewer than two bytes) aborts every validator that
   meets it at any depth of a chain: `DidParser::parse` slices without a length check (C78). An `RsaKeyMaterial`
   whose public key cannot be encoded produces exactly that DID.
2. A shared proof is re-validated once per citation; n stored tokens can force 2^(n+1)-1 signature checks (C75).
3. When merging, a narrow entry absorbed by a broad one hands its originators to the broad one, so the report credits a
   DID with authority it never claimed (C48), on an accepted chain. Entries are only merged into ones listed earlier, so
   redundant entries remain (C51).
4. `prf:*` parses but never redelegates anything (C10); `as:` capabilities never parse (C11); the bare wildcard prints
   as `*`, which does not parse (C12). Segments of a token after the third are ignored (C19), and other JSON spellings of
   a payload are accepted, so the same UCAN has many tokens and CIDs (C20).
5. `Signature::decode` aborts when the declared length exceeds the input, ignores trailing bytes and lets ten-byte varints
   overflow (C62, C63). `Principle::to_string` aborts on short or marked invalid payloads (C66). did:key payloads
   starting with `9d1a` collide with other DIDs (C65).
6. IPLD conversion rewrites the version field (C68) and turns an empty proof list into none (C67). Principals and signatures
   are serialised as lists of integers and byte strings are refused (C88); untrusted IPLD data can abort the reader (C90).
7. `Signable::sign` aborts for a capability whose caveat is not an object or a key whose DID fails (C58); `now() + lifetime`
   overflows (C57).
8. `exp` may be absent and then means "never expires" (C74); the derived `Deserialize` skips the checks of
   `Capabilities::try_from` (C08).
9. The validator does not re-hash what the store returns for a CID (C79), never compares claims with what the proofs give
   (C80; the report does), never looks at header or version (C81), and accepts empty windows when a time is supplied or
   when the clock moves between its two readings (C82). `not before` always uses the machine clock.
10. `reduce_capabilities` stops reading a UCAN's claims at the first one the semantics does not understand (`map_while`), so
    understood claims after a foreign one vanish from the report (C52).
11. A deserialised `Ucan` carries its payload apart from the signed bytes; nothing compares them, so a chain built on one
    reports capabilities nobody signed (C93). Tokens are not affected (C86).
12. `read_token` reports a missing token as an error, so `require_token`'s own message is unreachable.
13. A WebCrypto RSA key of 1024 bits has no DID, because 24 bytes of SPKI header are dropped where it has 22; signing with
    it aborts (C94). The header is not looked at, and shorter exports abort (C96). In terms of `generate`: sizes below 1944
    and above 4096 bits do not work, and a key of fewer than 936 bits can get the DID of another key (C130).
14. In the example WNFS semantics a directory written with a trailing slash, and so the root, contains nothing below it (C98).
15. The builder does not deduplicate proofs, against what a unit test's name says (C99).
16. A P-256 key answers to a second DID, made of the uncompressed form of its point: tokens issued under it verify, but
    chains treat the two as different principals (C131). Half of the keys answer to a third one, of the compact form (C146).
17. In the example WNFS semantics user and port of a resource are dropped: `wnfs://bob@alice:80/x` is `wnfs://alice/x`; host
    names differing in case, and paths differing in percent-encoding, are different scopes (C133).
18. P-256 signatures are accepted in both forms (s and the order minus s): anybody can turn an accepted token of a P-256
    issuer into another accepted one with the same content and another CID, so CIDs do not identify delegations (C139).
19. Ed25519 keys of small order are accepted as issuers: `did:key` of such a point has one signature that is valid for every
    token, so everybody can sign for it (C141); a few points have several DIDs (C143).
20. A proof can be cited under many texts (any base, any case in base 36, padded blocks, anything before `/ipfs/`), and the base64
    text of one CID can be read as another because `/ipfs/` is searched for first (C162-C163).

## Seeded wrong programs

`seeded/LOG.jsonl` has one line per attempt: the model definition edited in a scratch copy, the edit, the property it
should break, the theorems that no longer prove, and the theorems tightened as a result.

## Properties

| id | title | status | file | theorems |
|---|---|---|---|---|
| C01 | Caveat enabling is exactly field inclusion | proved | `PCapability.v` | `C01_caveat_enables_iff`, `C01_caveat_empty`, `C01_caveat_enables_refl`, `C01_caveat_enables_trans` |
| C02 | Resource containment never crosses kinds or DIDs | proved | `PCapability.v` | `C02_resource_contains_iff`, `C02_scoped_never_contains_wildcard`, `C02_resource_contains_refl`, `C02_resource_contains_trans` |
| C03 | Capability enabling never broadens any component | proved | `PCapability.v` | `C03_view_enables_iff`, `C03_view_enables_refl`, `C03_view_enables_trans` |
| C04 | Flat capability list to map and back loses nothing | proved | `PCapability.v` | `C04_caps_of_list_iter` |
| C05 | Building the capability map fails exactly on a non-object caveat | proved | `PCapability.v` | `C05_caps_of_list_fails_iff`, `C05_caps_of_list_total`, `C05_caveat` |
| C06 | Map to flat list to map is the identity on non-empty caveat lists | proved | `PCapability.v` | `C06_caps_roundtrip`, `C06_caps_iter_in` |
| C07 | Untyped JSON is accepted as capabilities exactly when it has the specified shape | proved | `PCapability.v` | `C07_caps_of_value_iff` |
| C08 | A parsed token only carries well-formed capabilities | partial | `PToken.v` | `C08_parsed_capabilities_refuted`, `C08_signed_capabilities_partial`, `C08_transported_capabilities_partial` |
| C09 | Indexed proof resources round-trip | proved | `PSemantics.v` | `C09_index_roundtrip`, `C09_index_printing_injective`, `C09_large_index_refused`, `C09_index_is_honoured` |
| C10 | `prf:*` selects every proof | partial | `PSemantics.v` | `C10_star_redelegates_all_refuted`, `C10_star_parses_unscoped_partial`, `C10_star_contributes_nothing_partial`, `C10_star_alone_redelegates_nothing_partial`, `C10_selection_contains_iff`, `C10_delegations_enable` |
| C11 | `as:<did>:<resource>` capabilities can be parsed | partial | `PSemantics.v` | `C11_as_parses_refuted`, `C11_as_never_parses_partial`, `C11_no_view_on_behalf_partial` |
| C12 | Capability view to data to view round-trips | proved | `PSemantics.v` | `C12_roundtrip_iff`, `C12_proof_capabilities`, `C12_wildcard_is_lost`, `C12_my_wildcard` |
| C13 | Validation accepts exactly live, correctly signed UCANs | proved | `PTime.v` | `C13_validate_ok_iff`, `C13_expiry_reported_first`, `C13_earliness_reported_second`, `C13_signature_reported_last` |
| C14 | The caller-supplied validation time governs both bounds | partial | `PTime.v` | `C14_supplied_time_refuted`, `C14_supplied_time_partial` |
| C15 | Lifetime comparison is interval inclusion | proved | `PTime.v` | `C15_lifetime_is_inclusion`, `C15_lifetime_inclusion_sound`, `C15_lifetime_refl`, `C15_lifetime_trans` |
| C16 | Signing, encoding and parsing is lossless | proved | `PToken.v` | `C16_sign_encode_parse` |
| C17 | Different UCANs have different tokens | proved | `PToken.v` | `C17_same_token_same_content` |
| C18 | The signature covers exactly the bytes the payload was decoded from | proved | `PToken.v` | `C18_signature_covers_payload` |
| C19 | A token has exactly three segments | partial | `PToken.v` | `C19_three_segments_refuted`, `C19_extra_segments_partial`, `C19_missing_segments_partial`, `C19_ok_or_error_partial` |
| C20 | Re-encoding a parsed token reproduces it | partial | `PToken.v` | `C20_reencode_refuted`, `C20_reencode_partial` |
| C21 | Re-encoding a parsed token preserves its meaning | proved | `PToken.v` | `C21_reencode_preserves` |
| C22 | Every UCAN that can be signed can be parsed back | partial | `PToken.v` | `C22_signed_parses_refuted`, `C22_signed_parses_partial` |
| C23 | A freshly signed UCAN verifies | proved | `PToken.v` | `C23_signed_verifies`, `C23_signed_verifies_after_transport` |
| C24 | The header algorithm matches the issuer's key | partial | `PToken.v` | `C24_algorithm_matches_refuted`, `C24_validation_ignores_header_partial`, `C24_signed_header_partial` |
| C25 | Only a payload signed by its issuer is accepted from a token string | proved | `PToken.v` | `C25_parsed_payload_is_authentic`, `C25_constructor_is_unchecked` |
| C26 | The DID parser's cache is invisible | proved | `PDid.v` | `C26_cache_invisible`, `C26_failure_changes_nothing` |
| C27 | DID parsing dispatches on the two magic bytes | proved | `PDid.v` | `C27_success_iff`, `C27_constructor_outcome`, `C27_unregistered_magic`, `C27_other_method`, `C27_bad_base58` |
| C28 | Parsing a DID never aborts the process | partial | `PDid.v` | `C28_never_aborts_refuted`, `C28_aborts_iff_short_partial` |
| C29 | A key's DID resolves back to the same public key | proved | `PDid.v` | `C29_did_dispatches_to_own_type`, `C29_ed25519_roundtrip`, `C29_p256_roundtrip`, `C29_rsa_roundtrip` |
| C30 | DIDs of different keys or key types differ | proved | `PDid.v` | `C30_dids_distinguish_keys` |
| C31 | Public-only key material cannot sign | proved | `PDid.v` | `C31_public_key_refuses`, `C31_no_token`, `C31_error`, `C31_parsed_keys_are_public_only` |
| C32 | A proof chain is accepted exactly when every link is valid | proved | `PChain.v` | `C32_accepted_is_valid`, `C32_accepted_iff_valid`, `C32_fuel_irrelevant` |
| C33 | Every UCAN in an accepted chain is live and signed by its issuer | proved | `PChain.v` | `C33_every_link_valid` |
| C34 | Authority flows along audience-issuer links | proved | `PChain.v` | `C34_audience_is_issuer` |
| C35 | A delegated lifetime never exceeds any ancestor's | proved | `PChain.v` | `C35_lifetime_within_ancestors`, `C35_live_implies_ancestors_live` |
| C36 | Each proof is the token stored under the cited CID | proved | `PChain.v` | `C36_proofs_are_the_cited_tokens`, `C36_no_proof_is_dropped`, `C36_memory_store_token_has_cited_cid` |
| C37 | Redelegation indices always refer to existing proofs | proved | `PChain.v` | `C37_missing_proof_rejected`, `C37_accepted_chain_reduces` |
| C38 | Chain acceptance does not depend on parser history | proved | `PChain.v` | `C38_history_irrelevant`, `C38_other_chains_are_history` |
| C39 | Building a chain terminates over acyclic citations | proved | `PChain.v` | `C39_acyclic_terminates`, `C39_self_citation_diverges` |
| C40 | The in-memory store is a content-addressed map | proved | `PStore.v` | `C40_read_returns_what_was_written`, `C40_unwritten_reads_absent`, `C40_write_succeeds`, `C40_only_bytes_are_written`, `C40_reads_change_nothing` |
| C41 | Stored tokens are read back verbatim | proved | `PStore.v` | `C41_token_read_back`, `C41_token_read_back_later`, `C41_token_is_text`, `C41_stored_under_own_cid`, `C41_cited_proof_resolves` |
| C42 | Reading an absent token returns Ok(None) | partial | `PStore.v` | `C42_absent_is_none_refuted`, `C42_absent_is_error_partial`, `C42_never_none_partial` |
| C43 | Only raw-codec CIDs are read as tokens | proved | `PStore.v` | `C43_other_codec_is_error`, `C43_read_iff_raw_text` |
| C44 | A proof cited under another hash function never resolves in the in-memory store | proved | `PStore.v` | `C44_other_hash_rejected`, `C44_builder_cites_other_hash` |
| C45 | Reported capabilities carry the leaf's lifetime | proved | `PReduce.v` | `C45_report_has_leaf_lifetime`, `C45_window_within_chain` |
| C46 | Every reported capability was claimed in the chain | proved | `PReduce.v` | `C46_reported_was_claimed_or_redelegated`, `C46_passed_on_was_claimed`, `C46_accepted_chain_reports` |
| C47 | Originators are issuers in the chain and never empty | proved | `PReduce.v` | `C47_originators_are_issuers`, `C47_without_proofs_the_issuer` |
| C48 | No originator is credited with authority it never claimed | partial | `PReduce.v` | `C48_no_unclaimed_authority_refuted`, `C48_originator_source_partial`, `C48_no_unclaimed_authority_partial` |
| C49 | Merging loses no capability and no originator | proved | `PReduce.v` | `C49_claims_are_covered`, `C49_redelegations_are_covered`, `C49_preorders_suffice` |
| C50 | A claim without a matching proof is attributed to the issuer | proved | `PReduce.v` | `C50_claim_attribution`, `C50_unproved_claim_names_issuer` |
| C51 | The report contains no redundant capability | partial | `PReduce.v` | `C51_no_redundant_entry_refuted`, `C51_no_earlier_redundant_partial`, `C51_no_redundant_entry_partial` |
| C52 | Every understood claim is taken into account | partial | `PReduce.v` | `C52_understood_claims_count_refuted`, `C52_understood_claims_count_partial` |
| C53 | Claims are reported independently of the order they were added | proved | `PBuilder.v` | `C53_order_independent_report` |
| C54 | The builder builds exactly when issuer and audience are set | proved | `PBuilder.v` | `C54_build_iff_described`, `C54_build_succeeds_iff`, `C54_missing_issuer`, `C54_missing_audience` |
| C55 | Delegating from a proof points at that proof | proved | `PBuilder.v` | `C55_delegating_from_points_at_its_proof`, `C55_later_calls_keep_the_proofs` |
| C56 | Delegation built by the builder is honoured by the chain | proved | `PBuilder.v` | `C56_redelegated_iff_delegating_from`, `C56_proofs_are_the_authorities_cited` |
| C57 | A lifetime gives the exact expiry until the addition overflows | proved | `PBuilder.v` | `C57_lifetime_expiry`, `C57_abort_iff_overflow` |
| C58 | Signing reports failures as errors | partial | `PBuilder.v` | `C58_signing_never_aborts_refuted`, `C58_aborts_iff_partial`, `C58_otherwise_reports_partial` |
| C59 | A nonce is present exactly when requested and is faithful to its randomness | proved | `PBuilder.v` | `C59_nonce_iff_requested`, `C59_nonce_form`, `C59_distinct_draws_distinct_nonces` |
| C60 | Token text is canonical | proved | `PToken.v` | `C60_order_independent` |
| C61 | Varsig encoding round-trips | proved | `PIpld.v` | `C61_signature_roundtrip`, `C61_signature_layout` |
| C62 | Decoding an IPLD signature never aborts | partial | `PIpld.v` | `C62_decode_never_aborts_refuted`, `C62_decode_aborts_iff_partial`, `C62_decode_terminates_partial` |
| C63 | IPLD signatures are unique | partial | `PIpld.v` | `C63_unique_refuted`, `C63_unique_same_length_refuted`, `C63_decode_iff_partial`, `C63_short_varints_partial`, `C63_encode_injective_partial` |
| C64 | Principals round-trip through their IPLD form | proved | `PIpld.v` | `C64_principal_roundtrip`, `C64_principal_roundtrip_iff`, `C64_principal_reads_back` |
| C65 | Different DIDs have different IPLD principals | partial | `PIpld.v` | `C65_injective_refuted`, `C65_collisions_partial`, `C65_printable_injective_partial` |
| C66 | Printing an IPLD principal never aborts | partial | `PIpld.v` | `C66_printing_never_aborts_refuted`, `C66_printing_aborts_iff_partial`, `C66_did_aborts_iff_partial` |
| C67 | JWT to IPLD to JWT is lossless | proved | `PIpld.v` | `C67_lossless`, `C67_reencodes`, `C67_verifies`, `C67_lossless_iff` |
| C68 | The IPLD form preserves the version | partial | `PIpld.v` | `C68_version_preserved_refuted`, `C68_version_preserved_iff_partial`, `C68_block_keeps_version_partial` |
| C69 | URL-safe base64 segments are a canonical bijection | proved | `PCodec.v` | `C69_decode_iff_encode`, `C69_roundtrip`, `C69_injective`, `C69_no_dot` |
| C70 | Base58 DIDs are a canonical bijection | proved | `PCodec.v` | `C70_decode_iff_encode`, `C70_roundtrip`, `C70_injective` |
| C71 | DAG-JSON encoding round-trips every wire value | proved | `PJson.v` | `C71_roundtrip`, `C71_roundtrip_trailing`, `C71_injective` |
| C72 | CID text round-trips | proved | `PCodec.v` | `C72_cid_text_roundtrip`, `C72_cid_text_injective` |
| C73 | Redelegation passes on exactly the proof's capabilities | proved | `PReduce.v` | `C73_redelegates_only_the_proofs`, `C73_redelegates_all_of_the_proofs`, `C73_redelegates_only_their_originators` |
| C74 | A token without an expiry field is rejected | partial | `PToken.v` | `C74_exp_mandatory_refuted`, `C74_exp_meaning_partial` |
| C75 | Validation work is linear in the number of stored tokens | partial | `PCost.v` | `C75_linear_refuted`, `C75_exponential_refuted`, `C75_one_check_per_link_partial`, `C75_linear_without_sharing_partial`, `C75_bounded_by_shape_partial` |
| C76 | The instants at which a chain is accepted are the leaf's window | proved | `PChainMore.v` | `C76_supplied_time`, `C76_window_of_acceptance`, `C76_same_chain` |
| C77 | Adding blocks to the store never revokes or changes an accepted chain | proved | `PChainMore.v` | `C77_growing_store`, `C77_memory_store_grows` |
| C78 | Untrusted tokens never abort chain validation | partial | `PChainMore.v` | `C78_tokens_never_abort_refuted`, `C78_only_short_dids_abort_partial`, `C78_short_did_aborts_partial`, `C78_standard_keys_partial` |
| C79 | The token read for a citation hashes to the cited CID | partial | `PChainMore.v` | `C79_content_has_cited_cid_refuted`, `C79_content_has_cited_cid_partial` |
| C80 | A UCAN resting on proofs cannot claim more than they give | partial | `PChainMore.v` | `C80_excess_claim_refused_refuted`, `C80_excess_claim_is_the_issuers_partial` |
| C81 | Acceptance looks at nothing but signature, issuer, window, citations and named proofs | proved | `PChainMore.v` | `C81_version_type_algorithm_ignored`, `C81_only_links_matter` |
| C82 | A UCAN with an empty validity window is never accepted | partial | `PChainMore.v` | `C82_empty_window_refused_refuted`, `C82_empty_window_refused_partial`, `C82_no_empty_ancestor_partial` |
| C83 | What the builder makes from accepted, stored proofs is accepted | proved | `PEnd.v` | `C83_built_is_accepted` |
| C84 | Any number of hand-overs is accepted and reports the root's capabilities | proved | `PEnd.v` | `C84_hand_over_accepted`, `C84_hand_over_report` |
| C85 | Every reported capability rests on one of its originators, and on the only one if there is just one | proved | `PSecurity.v` | `C85_genuine_originator`, `C85_sole_originator`, `C85_some_originator_claimed`, `C85_sole_originator_claimed` |
| C86 | What an accepted token reports was signed step by step | proved | `PSecurity.v` | `C86_report_has_authority`, `C86_originators_signed`, `C86_sole_originator_signed` |
| C87 | A UCAN in IPLD form survives being serialised | proved | `PIpldSerde.v` | `C87_roundtrip`, `C87_roundtrip_iff`, `C87_injective` |
| C88 | Principals and signatures are IPLD byte strings | partial | `PIpldSerde.v` | `C88_byte_strings_refuted`, `C88_integer_lists_partial`, `C88_byte_strings_not_read_partial` |
| C89 | Exactly which IPLD data is read as a UCAN | proved | `PIpldSerde.v` | `C89_read_iff`, `C89_only_maps`, `C89_stable` |
| C90 | Reading untrusted IPLD data as a UCAN never aborts | partial | `PIpldSerde.v` | `C90_never_aborts_refuted`, `C90_aborts_iff_partial`, `C90_converts_iff_partial`, `C90_terminates_partial` |
| C91 | A token stored as IPLD data and read back is the same token | proved | `PIpldSerde.v` | `C91_jwt_through_data`, `C91_token_data_read_back` |
| C92 | A UCAN serialised with serde is read back unchanged | proved | `PIpldSerde.v` | `C92_ucan_roundtrip_iff`, `C92_token_roundtrip` |
| C93 | A deserialised UCAN reports only what was signed | partial | `PIpldSerde.v` | `C93_deserialised_authority_refuted`, `C93_own_signing_input_partial` |
| C94 | A WebCrypto key has the DID of the same native RSA key | partial | `PWebCrypto.v` | `C94_native_did_refuted`, `C94_native_did_iff_partial`, `C94_other_sizes_partial`, `C94_other_sizes_abort_partial` |
| C95 | A token signed in the browser verifies under the native RSA key | proved | `PWebCrypto.v` | `C95_token_verifies_natively`, `C95_algorithm`, `C95_signs_iff`, `C95_verifies_iff` |
| C96 | Bytes that are no SubjectPublicKeyInfo are refused | partial | `PWebCrypto.v` | `C96_checks_header_refuted`, `C96_never_aborts_refuted`, `C96_converts_iff_partial`, `C96_aborts_iff_partial`, `C96_did_aborts_iff_partial` |
| C97 | The example semantics are preorders | proved | `PFixtures.v` | `C97_examples_are_preorders`, `C97_wnfs_claims_are_covered`, `C97_wnfs_levels` |
| C98 | A WNFS directory contains everything below it | partial | `PFixtures.v` | `C98_wnfs_contains_iff`, `C98_directory_contains_partial`, `C98_directory_contains_refuted` |
| C99 | A UCAN cites no proof twice | partial | `PProofs.v` | `C99_no_duplicate_proofs_refuted`, `C99_no_duplicate_proofs_partial`, `C99_repeated_proof_partial` |
| C100 | The report does not depend on the order of proofs | proved | `PProofs.v` | `C100_proof_order`, `C100_same_proofs` |
| C101 | Exactly what a report is | proved | `PReport.v` | `C101_report_exactly` |
| C102 | Non-redelegated proofs do not change which capabilities are reported | proved | `PReport.v` | `C102_capabilities_of_the_root`, `C102_at_most_the_claims` |
| C103 | The text of a token, byte for byte | proved | `PWire.v` | `C103_token_text`, `C103_header_text`, `C103_payload_text`, `C103_constants` |
| C104 | Exactly which texts are tokens | proved | `PWire.v` | `C104_token_read` |
| C105 | Base encodings follow the standards | proved | `PWire.v` | `C105_base64url`, `C105_base32`, `C105_base58`, `C105_decimal` |
| C106 | The text of a CID | proved | `PWire.v` | `C106_cid_text`, `C106_default_proof` |
| C107 | The text of a key's DID | proved | `PWire.v` | `C107_did_text`, `C107_algorithm_names` |
| C108 | Exactly which texts are JSON documents, and what they say | proved | `PJsonGrammar.v` | `C108_documents`, `C108_utf8`, `C108_tokens` |
| C109 | Exactly which resource texts are read, and as what | proved | `PUrl.v` | `C109_resource_texts`, `C109_capability_texts`, `C109_proof_texts` |
| C110 | The verdict on a chain depends on cited blocks only | proved | `PReject.v` | `C110_only_cited_blocks_matter` |
| C111 | Every refusal names a real fault, and only faults refuse | proved | `PReject.v` | `C111_every_refusal_has_a_reason`, `C111_accepted_iff_faultless` |
| C112 | The error for a text that is no token names the first bad segment | proved | `PReject.v` | `C112_token_errors` |
| C113 | Chains from tokens and from CIDs are the chains of the UCANs they stand for | proved | `PEntry.v` | `C113_from_token`, `C113_from_cid`, `C113_from_token_refused`, `C113_from_cid_refused` |
| C114 | Key, principal and signature tags are those of the multicodec table | proved | `PEntry.v` | `C114_key_kinds`, `C114_signature_kinds`, `C114_jwt_algorithms`, `C114_signature_errors`, `C114_principals`, `C114_principal_errors` |
| C115 | A store under another hash serves citations made with that hash | proved | `PEntry.v` | `C115_blake2b_store`, `C115_citation_under_hash` |
| C116 | A line of single-claim delegations reports the last claim and one originator | proved | `PLine.v` | `C116_line_report`, `C116_attenuating_line`, `C116_one_originator` |
| C117 | Exact course of a validation: which answers of clock and store judge which UCAN | proved | `PLine.v` | `C117_from_ucan`, `C117_from_token`, `C117_from_cid`, `C117_answers_used` |
| C118 | A proof citation is read as a CID exactly when it is one | proved | `PKeys.v` | `C118_cid_bytes`, `C118_cid_text`, `C118_versions`, `C118_version_0_text` |
| C119 | Every outcome of signing, verifying and decoding keys | proved | `PKeys.v` | `C119_native_sign`, `C119_native_verify`, `C119_bad_key_bytes`, `C119_web_sign`, `C119_web_verify`, `C119_web_unavailable` |
| C120 | Malformed capabilities are refused with the error of their first fault | proved | `PCaps.v` | `C120_caps_error_iff`, `C120_caps_total` |
| C121 | The example semantics read and print exactly their own texts | proved | `PCaps.v` | `C121_email_scope`, `C121_email_ability`, `C121_wnfs_scope`, `C121_wnfs_ability` |
| C122 | Capabilities that enable each other are the same, and a report lists none twice | proved | `PMutual.v` | `C122_mutual_enabling`, `C122_same_capability`, `C122_no_repetition`, `C122_examples_are_antisymmetric` |
| C123 | A boxed or shared key is the key it points to | proved | `PMutual.v` | `C123_wrapped_key` |
| C124 | The documented generate_token makes one exact text, good for sixty seconds | proved | `PDocs.v` | `C124_generated_text`, `C124_generate_aborts`, `C124_generated_token_is_good` |
| C125 | The documented get_capabilities returns the report of the accepted chain | proved | `PDocs.v` | `C125_get_capabilities`, `C125_no_key_types` |
| C126 | The texts of redelegation are prf:INDEX, prf:* and ucan/DELEGATE | proved | `PProofText.v` | `C126_selection_text`, `C126_delegate_text` |
| C127 | DAG-CBOR blocks are canonical | proved | `PCbor.v` | `C127_read_iff`, `C127_write_iff`, `C127_written_when`, `C127_prefix_free`, `C127_reencode`, `C127_read_data` |
| C128 | UCANs, principals and signatures survive storage as a DAG-CBOR block | proved | `PCbor.v` | `C128_roundtrip_iff`, `C128_ucan_roundtrip_iff`, `C128_bytes_roundtrip`, `C128_layout`, `C128_distinct`, `C128_stable`, `C128_token_through_block`, `C128_rust_data` |
| C129 | RSA keys have one DER encoding, and exactly the acceptable ones are resolved | proved | `PDer.v` | `C129_read_iff`, `C129_decode_iff`, `C129_encode_iff`, `C129_encodes`, `C129_one_encoding`, `C129_distinct`, `C129_did`, `C129_resolves` |
| C130 | A key generated in the browser has its own DID | partial | `PDer.v` | `C130_own_did_refuted`, `C130_asks_partial`, `C130_generated_did_partial`, `C130_own_did_partial`, `C130_small_never_own_partial`, `C130_token_verifies_partial`, `C130_sign_aborts_partial` |
| C131 | A DID that resolves to a key is the key's own DID | partial | `PAlias.v` | `C131_own_did_refuted`, `C131_own_did_iff_partial`, `C131_rsa_partial`, `C131_second_did_partial`, `C131_second_token_partial`, `C131_names_apart_partial` |
| C132 | Which hierarchical resource texts are read, and as what | proved | `PHier.v` | `C132_resource_texts`, `C132_scope_texts`, `C132_proof_texts` |
| C133 | A WNFS scope contains exactly what lies below it, and dots cannot escape it | proved | `PHier.v` | `C133_no_dots`, `C133_below`, `C133_stable`, `C133_user_port_query` |
| C134 | Numbers with fraction or exponent are read as the nearest double | proved | `PDouble.v` | `C134_reading`, `C134_one_number`, `C134_refused` |
| C135 | Doubles are printed as the shortest text that reads back, the closest of those | proved | `PDouble.v` | `C135_reads_back`, `C135_float_text`, `C135_shortest`, `C135_closest`, `C135_layout`, `C135_layout_unique`, `C135_one_layout` |
| C136 | Tokens carry every finite double | proved | `PDouble.v` | `C136_carried`, `C136_floats_survive`, `C136_reencode` |
| C137 | The digest RSA keys sign is SHA-256 | proved | `PRsa.v` | `C137_sha256` |
| C138 | RSA signatures are those of PKCS 1 version 1.5 | proved | `PRsa.v` | `C138_verify`, `C138_sign`, `C138_short`, `C138_token`, `C138_range_loss`, `C138_range_twin` |
| C139 | A header and payload have one signature | partial | `PRsa.v` | `C139_one_signature_refuted`, `C139_p256_partial`, `C139_rsa_partial` |
| C140 | Ed25519 keys and signatures are those of RFC 8032 and ZIP 215 | proved | `PEd.v` | `C140_keys`, `C140_seeds`, `C140_complete`, `C140_token` |
| C141 | An Ed25519 signature belongs to one text | partial | `PEd.v` | `C141_bound_refuted`, `C141_universal_partial`, `C141_token_partial`, `C141_seeds_partial`, `C141_bound_partial` |
| C142 | The first half of an Ed25519 signature determines the second | proved | `PEd.v` | `C142_first_half`, `C142_first_halves`, `C142_tokens` |
| C143 | An Ed25519 point has one DID | partial | `PEd.v` | `C143_one_did_refuted`, `C143_names_partial`, `C143_points_partial` |
| C144 | The hash of Ed25519 signatures is SHA-512 | proved | `PSha512.v` | `C144_sha512`, `C144_token`, `C144_seeds` |
| C145 | P-256 keys and signatures are those of SEC 1 and FIPS 186-4 | proved | `PP256.v` | `C145_keys`, `C145_pairs`, `C145_scalars`, `C145_nonces`, `C145_token` |
| C146 | A P-256 point has one DID | partial | `PP256.v` | `C146_one_did_refuted`, `C146_names_partial`, `C146_points_partial`, `C146_did_partial` |
| C147 | Every P-256 public key has exactly one private key | proved | `PP256.v` | `C147_private`, `C147_public`, `C147_order`, `C147_sum` |
| C148 | An accepted P-256 token has exactly one twin | proved | `PP256.v` | `C148_ecdsa`, `C148_twin`, `C148_exactly_two` |
| C149 | A freshly signed token passes the check, with every supported key type | proved | `PP256.v` | `C149_p256`, `C149_ed25519`, `C149_rsa` |
| C150 | The default hash of CIDs is BLAKE3 | proved | `PHash.v` | `C150_blake3`, `C150_pieces` |
| C151 | The hash of the test suite's other store is BLAKE2b-256 | proved | `PHash.v` | `C151_blake2b256` |
| C152 | CIDs of tokens under SHA-256, SHA-512, BLAKE3 and BLAKE2b-256 | proved | `PHash.v` | `C152_digests`, `C152_multihash`, `C152_cid_text`, `C152_default_citation` |
| C153 | A store gives back what was written, up to collisions of BLAKE3 | proved | `PHash.v` | `C153_read_back`, `C153_cited_resolves` |
| C154 | An accepted UCAN has one chain, whatever store it was checked against | proved | `PHash.v` | `C154_one_chain` |
| C155 | Which UCANs have an IPLD block, which block, and why not | proved | `PBlock.v` | `C155_block`, `C155_errors`, `C155_total` |
| C156 | Reading an IPLD block gives a UCAN or an error | partial | `PBlock.v` | `C156_ucan`, `C156_errors`, `C156_never_aborts_refuted`, `C156_aborts_iff_partial` |
| C157 | The capability a view prints as | proved | `PBlock.v` | `C157_view_text` |
| C158 | The nonce of a P-256 signature is that of RFC 6979 | proved | `PRfc6979.v` | `C158_hmac`, `C158_nonce`, `C158_found`, `C158_one`, `C158_range` |
| C159 | P-256 keys sign deterministically, and what they sign passes | proved | `PRfc6979.v` | `C159_signs`, `C159_made`, `C159_once`, `C159_token`, `C159_fresh` |
| C160 | Exactly which tokens are accepted, by the standards alone | proved | `PStandard.v` | `C160_signature`, `C160_token`, `C160_one_chain` |
| C161 | What a report rests on, by the standards alone | proved | `PStandard.v` | `C161_unforgeable`, `C161_report`, `C161_originators`, `C161_weak_key` |
| C162 | Texts with a leading letter for their base | partial | `PMultibase.v` | `C162_table`, `C162_unambiguous`, `C162_every`, `C162_letters`, `C162_one_text_partial`, `C162_one_text_refuted` |
| C163 | The spellings of a citation | partial | `PMultibase.v` | `C163_spelling`, `C163_spellings_partial`, `C163_spellings_refuted`, `C163_same_proof`, `C163_standard` |
| C164 | Texts of IPv6 addresses | proved | `PIpv6.v` | `C164_read`, `C164_addresses`, `C164_print`, `C164_again` |
| C165 | Scopes on IPv6 hosts | proved | `PIpv6.v` | `C165_host`, `C165_same`, `C165_apart`, `C165_stable` |
| C166 | SHA-3 and Keccak | proved | `PAllHashes.v` | `C166_sha3`, `C166_keccak` |
| C167 | BLAKE2b and BLAKE2s of every length | proved | `PAllHashes.v` | `C167_blake2b`, `C167_blake2s` |
| C168 | Citations under every hash | proved | `PAllHashes.v` | `C168_digests`, `C168_multihash`, `C168_contains`, `C168_cid_text`, `C168_citation`, `C168_apart` |
| C169 | One chain in every content-addressed store | proved | `PAddressed.v` | `C169_memory`, `C169_fixture`, `C169_one_chain`, `C169_pinned` |
| C170 | Chains can be moved between stores | proved | `PAddressed.v` | `C170_portable`, `C170_needs_blocks` |
| C171 | Validity in real time | proved | `PRealTime.v` | `C171_readings`, `C171_before_1970`, `C171_validation`, `C171_window`, `C171_aborts`, `C171_chain`, `C171_moving` |
| C172 | Lifetimes in real time | proved | `PRealTime.v` | `C172_lifetime`, `C172_aborts` |
