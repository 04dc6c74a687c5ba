{
 "C02": "gunzip(gzip x)=x is an explicit premise; base64 codec is modelled and proved.",
 "C03": "iff with the declarative spec; gzip, non-'u' multibase and the resolver are universally quantified oracles.",
 "C06": "iff for every size incl. 2^n overflow; the bit position is C58.",
 "C38": "refuted: the code is LSB-first; proved that the W3C bit is the mirrored one.",
 "C39": "refuted: the list's purpose is never compared.",
 "C40": "lists without credentialSubject: C59 (refuted).",
 "C09": "Sound, duplicate-free, complete and total over every history of Next calls whose exclusions are descriptors of the last answer; duplicate descriptor ids are C57.",
 "C10": "Per-descriptor matching is a universally quantified oracle (its own filters are C15/C16).",
 "C11": "Faithful for `all` without min/max; `all` with max is C56.",
 "C12": "Premise uid_identifies: equal unique ids mean equal credentials (collisions: C49). sort.Sort(byID) is a permutation of `maps`.",
 "C13": "Instantiated with the modelled schema and constraint filters; JSONPath selection, context loading and JSON-schema validation are universally quantified.",
 "C14": "JSONPath selection of $.verifiableCredential[i] / $[i] is a premise on the select oracle. Partial submissions: C50.",
 "C15": "JSONPath and JSON-schema evaluation are universally quantified oracles; edge cases are C51, C52, C55.",
 "C42": "directly nested arrays: C53 (refuted).",
 "C43": "several vc steps: C54 (refuted).",
 "C44": "null entries: C55 (refuted).",
 "C47": "refuted (SetSDJWTDisclosures mutates the wallet credential); proved instead: what is presented was requested by every descriptor.",
 "C48": "refuted: the filter becomes numeric while the value stays a string; universally, such a filter accepts no string date.",
 "C49": "refuted.",
 "C50": "refuted for pick; proved that Match always demands every descriptor.",
 "C51": "refuted: nothing is kept, for every credential list.",
 "C52": "refuted: with allOf present the verdict does not depend on the rest of the filter.",
 "C53": "refuted.",
 "C54": "refuted.",
 "C55": "refuted: both panic.",
 "C56": "refuted.",
 "C57": "refuted: constructor panics.",
 "C58": "refuted: statusSize is ignored.",
 "C59": "refuted: index out of range panic.",
 "C29": "JWS splitting/base64/JSON decoding are deterministic oracles; proof checker universally quantified.",
 "C30": "iff; several '+' signs are C60.",
 "C31": "default checker: all seven algorithms, all eight verifiers, converse proved for JWK keys; cryptographic primitives and DID resolution universally quantified.",
 "C60": "refuted: a typ p+jwt+anything is accepted.",
 "C64": "refuted: asn1.Unmarshal's rest is ignored (premise: the DER reader ignores trailing bytes).",
 "C65": "refuted: only keyAgreement is excluded.",
 "C67": "refuted.",
 "C17": "both directions; free_of '~' premises are what base64url parts satisfy; the one presentation shape that does not reprint is spelled out in the statement.",
 "C18": "stated with the independent relation `committed`; hash and JSON decoding are universally quantified oracles.",
 "C19": "rejects every payload where a digest occurs twice (also across nested disclosures).",
 "C20": "the model's fuel is proved sufficient: no run ends with the fuel error.",
 "C21": "up to JSON equality (object member order).",
 "C24": "provenance of scalars and names, and absence of digests for tidy payloads (objects inside arrays: C70).",
 "C26": "necessary and sufficient conditions.",
 "C69": "refuted: accepted for every such disclosure.",
 "C70": "refuted: for every payload such arrays are returned unchanged.",
 "C71": "refuted: for every payload the claim is missing from the output.",
 "C72": "refuted: nil interface call panics on every parseable token with an issuer.",
 "C22": "any subset of disclosures; through verify_disclosures/GetDisclosedClaims and verifier.Parse.",
 "C23": "without decoys (C77), null (C78), empty names (C79).",
 "C77": "refuted: the decoys' salts are handed out as disclosures, so the token is refused.",
 "C78": "refuted: panics (reflect.TypeOf(nil)).",
 "C79": "refuted: disclosed as an array element, so refused.",
 "C80": "refuted: issued, but its disclosure is refused.",
 "C82": "refuted: with both a vc object and a top-level credentialSubject the latter stays.",
 "C84": "refuted.",
 "C33": "iff-style soundness for proof sets in one frame (always true of a single proof); C85/C86 state what fails outside.",
 "C35": "for documents of one frame; the general claim is refuted by C87.",
 "C85": "refuted: proof: [] and proof: null are accepted by VerifyProof for every verifier and options.",
 "C86": "refuted: the method resolved for the first proof is cached in the options and used for the rest.",
 "C87": "refuted: see theorem; a used options value changes later outcomes.",
 "C89": "refuted: an existing proof is hashed when signing but not when verifying; alias eddsa-2022 writes another suite name than it hashes.",
 "C90": "unforgeability is an explicit premise on the signature oracle, satisfied by the example; hash collisions appear as a disjunct.",
 "C91": "refuted: when the verifier expects no domain/challenge the proof's own ones are not hashed.",
 "C93": "refuted: only the part after '#' is compared.",
 "C130": "refuted: of two disclosures with the same claim name only the last is sent.",
 "C131": "refuted: with nothing disclosed the output is the bare token, read as a plain JWT credential.",
 "C132": "refuted: ParseCredential never looks at the holder binding.",
 "C07": "sizes are natural numbers; integer overflow of the pre-computed capacity is not modelled.",
 "C37": "soundness and completeness; JSON-LD/schema validation inside ParseCredential are oracles.",
 "C134": "refuted: a listed JWT credential without issuer panics.",
 "C135": "refuted: the clock is never consulted.",
 "C136": "refuted: texts without a scheme all have the empty origin.",
 "C137": "refuted: the sub claim of the token is never read.",
 "C138": "JSON (embedded linked-data or data integrity proof) and JWT presentations; the enclosed credentials are C140/C141.",
 "C139": "refuted: PresentationCWTParser never looks at the signature or the checkers.",
 "C140": "uses the credential result C103/C104 for every enclosed token.",
 "C141": "refuted: credentials enclosed as JSON objects are decoded without a proof check (the presentation's own proof is the only one).",
 "C142": "both directions (C142_holder_check_exact).",
 "C143": "refuted: the kid of a JWT presentation is never compared with the holder.",
 "C145": "schemas and JSON-LD validation are universally quantified.",
 "C147": "refuted: nil claims / nil map panics, whatever the options.",
 "C148": "refuted: the jwt member is removed before the proof check and kept in the presentation.",
 "C149": "refuted.",
 "C150": "signer and parser libraries are universally quantified (makes_jws); C150_marshalled_token: what MarshalJSON writes is one of the texts.",
 "C151": "refuted: nil registered claims are dereferenced.",
 "C152": "see C153 for minimised tokens.",
 "C153": "refuted: the CWT parser never copies iss/jti into the presentation.",
 "C154": "any member order; with or without embedded proof (its acceptance is a hypothesis, see C138).",
 "C155": "refuted for data model 1.1.",
 "C156": "refuted: raw() passes nil for the custom contexts.",
 "C157": "canonicalisation, hashing, signing universally quantified; canonical form assumed independent of member order (order_free).",
 "C158": "refuted: the existing proofs are replaced (all inputs), and the new one, computed over them, is refused (witness).",
 "C159": "composition of C154 with C88 for any member order.",
 "C160": "refuted: for enveloped credentials/presentations the text after adding equals the text before.",
 "C161": "hash functions and multibase.Decode are parameters; goroutines interleaved per cache access, HTTP exchange and channel message; LRU eviction and other users arbitrary.",
 "C162": "hash lengths >= 2 bytes assumed (SHA-2).",
 "C163": "assumes answered requests and digests of >= 2 bytes when base64url; C164 shows the second is needed.",
 "C164": "refuted: an empty base64url digest, or the single byte 0x12, indexes out of range in a goroutine.",
 "C165": "refuted: '-' in base64url splits digestSRI; a bare hash starting 0x12 0x20 is cut; the SHA-256 header is accepted before SHA-512.",
 "C166": "refuted: within the cache's lifetime the resource isn't fetched.",
 "C167": "Herlihy-Wing linearizability over call/return histories; RWMutex modelled as reader count and writer flag, each map access one step. Values immutable (caller aliasing not modelled). Queries with && excluded: C169.",
 "C168": "under the same hypothesis on queries as C167.",
 "C169": "refuted: history in which an entry is returned that never had both tags.",
 "C170": "any number of concurrent readers, any map iteration order.",
 "C171": "refuted: results are kept per tag name, so only the last value counts.",
 "C172": "refuted: Batch accepts ':' in tags; no query can ask for such a tag.",
 "C173": "exact traversal, deterministic.",
 "C174": "all reachable provider states; strings.ToLower on ASCII.",
 "C175": "refuted for all contents: the handle still reads the data; a second Close on it removes the newer store.",
 "C176": "encoding/json decoding into structs, DID resolution, Endpoint.URI and the HTTP client are parameters; url.ParseQuery, QueryUnescape and base64.StdEncoding are modelled; EqualFold on ASCII.",
 "C177": "the token goes to whatever host the URL or the DID document names.",
 "C179": "the JSON decoder of the text is a parameter.",
 "C180": "composition of C03 with C176.",
 "C181": "refuted for all issuers and lists: proof checking is disabled (TODO in the code), so whoever answers decides.",
 "C182": "refuted: object ids compared with EqualFold; request and message ids of the answer are never read (proved for all answers).",
 "C184": "refuted: two usable members, two iteration orders, different hosts asked.",
 "C186": "refuted: didDoc.ID on nil.",
 "C187": "for credentials that ParseCredential returned, hash algorithm in the credential object, no member named vc in it (C193).",
 "C192": "refuted: nested disclosures of a chosen one are shown whatever their names (values are completed while parsing).",
 "C193": "refuted: `_sd_alg` in the subject only is accepted by ParseCredential but not found when displaying.",
 "C194": "v2 format; credentials without nulls, empty arrays, reserved names; digests of the issued token distinct (no hash collision); the signer makes a compact JWS of the claims.",
 "C195": "as C194, v5 format: no member of the document named like a registered claim, no empty claim name; disclosures with distinct digests.",
 "C198": "proved for JWT; refuted for CWT: ES256K and ES521 both report COSE algorithm 0, so the first registered of them signs for both.",
 "C199": "did-go's AddProof/CreateVerifyData are the record ldlib with the laws ld_lib (LdSpec.v); proof member not null.",
 "C200": "laws ld_lib/ld_reader of did-go's proof package are hypotheses (a model satisfying them is given); creator and checker fit (ld_fits).",
 "C201": "as C200.",
 "C202": "did.Doc is represented by the members of its JSON; did.ParseDocument not modelled.",
 "C203": "refuted: the expected issuer is taken from the proof's own key id, so a document for one DID signed by another DID is accepted.",
 "C204": "as C157; did.ParseDocument not modelled.",
 "C205": "refuted: the marshalled form of a JWT/CWT credential is the token as before.",
 "C209": "refuted: a statement of the framed document that is missing from the document silently selects position 0, so the first statement of the credential is revealed.",
 "C211": "refuted: the BBS+ proof verifier only reads raw key bytes; a key published as JWK is refused for every derived proof.",
 "C214": "refuted for BBSSelectiveDisclosure (nil creator crashes); C214_credential_reports proves that GenerateBBSSelectiveDisclosure reports it.",
 "C216": "refuted: domain, challenge and every other member of the original options are not copied to the derived proof, so its verification cannot succeed.",
 "C224": "refuted: an empty issuer claim passes the check and is then treated as no expectation; a message without key id verifies under the key it carries.",
 "C226": "refuted: marshalCOSE never writes the COSE_Key header that ParseAndCheckProof demands, so every such token is refused.",
 "C228": "refuted: the CBOR decoder stops at 32 nested levels, the encoder does not; deeper credentials are signed and cannot be read.",
 "C231": "refuted: the integer key 1 and the text key \"1\" collide; which value stays depends on map order (proved for distinct key texts in C230).",
 "C232": "refuted: the unprotected header and the form of lengths are not covered by the signature.",
 "C240": "refuted: the template lists all subjects, requested elements are renumbered from 0, so a claim about the second subject ends up at the first.",
 "C241": "refuted: compaction counters are fresh for every field, so elements selected by different fields land on the same index (proved for separate arrays in C234).",
 "C242": "refuted: for an array element the value true is written at the compacted index; the original element stays where it was.",
 "C243": "refuted: paths are joined with dots for gjson/sjson; a dotted member name is read as nested members, null is written.",
 "C244": "refuted: all alternative paths are evaluated and all matches disclosed.",
 "C245": "refuted: every path whose text contains credentialSchema is skipped.",
 "C246": "refuted: @explicit is set on the array itself, which sjson refuses.",
 "C247": "refuted: for a top-level request the parent path is empty and a member with the empty name is added.",
 "C248": "refuted: the template is the whole credential, proof included, and proof checking is switched off.",
 "C253": "refuted: without selective disclosure credentials that cannot be limited are listed although limit_disclosure is required; C253_left_out says which.",
 "C254": "refuted: the first claim format the wallet has is chosen before schemas and constraints are looked at.",
 "C256": "refuted: one unloadable context of any candidate credential fails the whole query.",
 "C257": "refuted: limiting an SD-JWT credential changes the wallet's credential; C257_changed_in_place says when.",
 "C258": "refuted: is_holder is never read (ValidateSchema accepts it: C258_accepted_example).",
 "C259": "refuted: a non-nil empty schema list is satisfied by nothing.",
 "C261": "refuted: credentials with v1 and v2 base contexts cannot be in one presentation.",
 "C269": "refuted: the 1.1 schema takes one status object only; a created credential with several is always refused.",
 "C270": "refuted: the 1.1 schema takes an empty list of contexts, and baseContextExtendedValidation accepts it.",
 "C271": "refuted: the 1.1 presentation schema has a tuple of one proof schema; later entries may be anything.",
 "C274": "refuted: both embedded schemas refuse cwt_vc/cwt_vp formats, locale, descriptor metadata and optional fields with a predicate.",
 "C275": "refuted: schemas exist in the 1.0 schema only, frames, descriptor formats, optional and intent_to_retain in the 2.0 schema only.",
 "C276": "refuted: ids, groups and bounds are not compared.",
 "C280": "refuted: expiry is kept and compared in whole seconds, so an entry is served up to a second longer; expiration 0 serves entries until the second ends.",
 "C285": "refuted: a path that leads nowhere is retried inside the member \"vp\", also in JSON presentations and in values that are not a JWT's claims; C282 states exactly what is selected.",
 "C290": "refuted: an option that turns proof checks off wins whatever its place, so a checker given later is never asked.",
 "C291": "refuted: an envelope whose enclosed presentation is refused (or whose media type is unknown) is read as a presentation itself, with its own proof.",
 "C295": "refuted: the credential keeps the caller's map; C293 holds for callers that do not use it again.",
 "C296": "refuted: ToRawJSON copies only the top of the document.",
 "C297": "refuted: for a credential that is no SD-JWT the map returned is the credential's own.",
 "C299": "refuted: Clone copies the slice header, so an append with room left writes the shared array.",
 "C300": "refuted: append(opts.nonSDClaims, \"id\") writes the caller's array when it has room.",
 "C303": "refuted: the key binding JWT carries nothing about the JWT or the disclosures it is presented with (no sd_hash); it can be moved to any presentation with the same confirmation key.",
 "C306": "refuted: P-521 is written \"ES521\" instead of \"ES512\", and tokens with alg ES512 are refused; every other name is the registered one.",
 "C307": "refuted: secp256k1 and P-521 keys have no COSE algorithm, CWTs with alg -47 or -36 are always refused.",
 "C314": "Refuted: a ProofCreator looks for the signer by algorithm only; with two keys for one algorithm every token is signed with the first, also when its kid header names the second, so it does not verify.",
 "C318": "Refuted: Clone copies slice headers, and AddCredentials appends one by one, so spare cells of the array are shared: after three credentials, the credential added to the copy overwrites the one added to the original.",
 "C319": "Refuted: Clone copies the map reference.",
 "C320": "Refuted: Credentials() returns the presentation's own slice.",
 "C326": "Does not hold: NewSigned picks the signer by SignParameters.JWTAlg, and an added header \"alg\" then replaces the algorithm in the token (mergeHeaders, protected headers win). Without such a header it holds (C326_named_alg)."
}