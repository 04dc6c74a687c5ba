{"id": "C01", "title": "Bit lookup agrees with the LSB-first bit array", "statement": "bitstring.BitAt(bs, i) returns the i-th element of the LSB-first bit array of bs when 0 <= i < 8*len(bs), and an error (never a value, never a panic) for every other i, including negative i.", "quantifier": "every byte slice and every int index", "why_tests_cant": "2^63 indices times all slices; boundary bytes/bits are sampled only", "anchors": ["status/internal/bitstring/bitstring.go: BitAt"]}
{"id": "C02", "title": "Status list encode/decode round-trip", "statement": "bitstring.Decode(bitstring.Encode(bs)) = bs for every byte slice, so that any bit set by an issuer is the bit read by a verifier.", "quantifier": "every byte slice", "why_tests_cant": "unbounded input; base64 tail lengths 0,1,2 and byte values combine freely", "anchors": ["status/internal/bitstring/bitstring.go: Encode, Decode"]}
{"id": "C03", "title": "VerifyStatus accepts only if every status bit is clear", "statement": "If Client.VerifyStatus returns nil, then the credential has at least one status entry and for every one of them: its type is supported and well-formed, the resolved list VC has the credential's issuer, the list decodes and the bit at statusListIndex is 0.", "quantifier": "every credential, every list of status entries, every resolver behaviour", "why_tests_cant": "arbitrary number of entries and arbitrary resolver answers", "anchors": ["status/status.go: Client.VerifyStatus, verifyStatus", "status/validator"]}
{"id": "C04", "title": "A revoked (suspended) entry is reported as such", "statement": "If all entries before entry k verify and entry k resolves to a list by the same issuer whose bit is set, VerifyStatus returns ErrRevoked exactly for purpose revocation, ErrSuspended exactly for suspension, and some other error for any other purpose; it never returns nil.", "quantifier": "every position k and every purpose string", "why_tests_cant": "position in the list and content are unbounded", "anchors": ["status/status.go: verifyStatus"]}
{"id": "C05", "title": "statusListIndex parsing is exact", "statement": "GetStatusListIndex returns the integer denoted by a decimal string and fails on every string that does not denote an int64, so two different denoted indices never read the same bit.", "quantifier": "every string", "why_tests_cant": "overflow boundary and sign handling over all strings", "anchors": ["status/validator/*/: GetStatusListIndex"]}
{"id": "C06", "title": "Multi-bit status entries are validated consistently", "statement": "A BitstringStatusListEntry with statusSize n>1 is accepted only with exactly 2^n-1 statusMessages, for every n including those where 2^n overflows int.", "quantifier": "every status size (float64) and message list", "why_tests_cant": "overflow of 1<<n happens outside any tested range", "anchors": ["status/validator/bitstringstatus/bitstringstatus.go: checkStatusSize"]}
{"id": "C07", "title": "Combination generator enumerates exactly the m-subsets", "statement": "The internal combination generator terminates and returns every m-element subset of {0..n-1} exactly once, each in ascending order, in colexicographic order.", "quantifier": "every m and n", "why_tests_cant": "number of combinations is unbounded; an off-by-one in the gap stack shows only at some (m,n)", "anchors": ["presexch/internal/requirementlogic/combinatorics.go: getMCombinationsOfN, allCombinationsInLengthRange, nChooseM"]}
{"id": "C08", "title": "Requirement satisfaction matches the submission-requirement semantics", "statement": "IsSatisfiedBy(S) holds iff the number of satisfied children (or distinct listed descriptors in S) lies in the count/min/max window at every level of nesting.", "quantifier": "every requirement tree of any depth and every descriptor set", "why_tests_cant": "trees are unbounded", "anchors": ["presexch/internal/requirementlogic/requirementlogic.go: IsSatisfiedBy, isLenApplicable, GetAllDescriptors"]}
{"id": "C09", "title": "Solution iterator is sound, duplicate free and complete", "statement": "For distinct descriptor ids and every sequence of Next calls whose exclusions are descriptors of the last answer, each answer is a non-empty set of non-excluded descriptors satisfying the requirement, no answer repeats, and when Next returns nil every satisfying non-empty set that avoids all excluded descriptors has been returned.", "quantifier": "every requirement tree, descriptor list and history of exclusions", "why_tests_cant": "2^n states times all exclusion histories", "anchors": ["presexch/internal/requirementlogic/requirementlogic.go: BitsetSolutionIterator.Next, excludeDescriptors, incrementUntilValid"]}
{"id": "C10", "title": "CreateVP finds a submission iff one exists", "statement": "Given per-descriptor matching results, the search behind CreateVP/CreateVPArray terminates and succeeds iff some non-empty set of input descriptors, each with at least one matching credential, satisfies the submission requirements; the result covers exactly such a set.", "quantifier": "every presentation definition, every credential list", "why_tests_cant": "search space is exponential in descriptors; interplay of exclusion and memoisation", "anchors": ["presexch/definition.go: applyRequirement, makeRequirement, toRequirement, requirement.toLogic"]}
{"id": "C11", "title": "Submission requirement translation preserves meaning", "statement": "The requirement tree built from submission_requirements (or from plain input_descriptors when absent) is satisfied by a set S iff S satisfies the Presentation Exchange rules: `all` of a group/nested list, `pick` with count/min/max (bounds on `pick` only, as the specification defines them); translation fails exactly when a referenced group is empty.", "quantifier": "every list of submission requirements, nesting and groups", "why_tests_cant": "unbounded nesting", "anchors": ["presexch/definition.go: makeRequirement, toRequirement, toLogic"]}
{"id": "C12", "title": "Descriptor map points at the credentials that matched", "statement": "When different matched credentials have different ids: in the presentation produced from matched credentials, every descriptor_map entry's path index selects a credential that matched that descriptor, every matched credential is present, and nothing else is included.", "quantifier": "every match table", "why_tests_cant": "collisions of credential IDs, multiplicities and orders are unbounded", "anchors": ["presexch/definition.go: merge, presentationData"]}
{"id": "C13", "title": "Match accepts only if every input descriptor is satisfied by a submitted credential", "statement": "If PresentationDefinition.Match returns no error then every input descriptor has a matched credential, every returned credential passed the schema and constraint filters of the descriptor it is returned for, and every mapping id named an existing descriptor.", "quantifier": "every definition, list of presentations, submission, loader behaviour (including loader errors)", "why_tests_cant": "error paths combine with list lengths", "anchors": ["presexch/api.go: Match, getMatchedCreds, evalSubmissionRequirements"]}
{"id": "C14", "title": "What CreateVP submits, Match accepts", "statement": "When every input descriptor has a match, the descriptor map and credentials that CreateVP (one presentation) or CreateVPArray (one presentation per credential plus merged submission) produce are accepted by Match for the same definition, and Match returns exactly the credentials that matched each descriptor, with the id of the presentation that carries them.", "quantifier": "every definition and match table covering it, every order of the descriptor map", "why_tests_cant": "needs composition of both algorithms over all definitions", "anchors": ["presexch/definition.go: CreateVP", "presexch/api.go: Match"]}
{"id": "C15", "title": "Constraint filter keeps exactly the credentials satisfying every field", "statement": "filterConstraints keeps a credential iff subject_is_issuer (when required) holds and every field has at least one path accepted by its filter; order is preserved and no credential is altered. (Constraint objects with at least one field, fields with at least one path, typed filters without allOf; see C51, C52, C55 for the rest.)", "quantifier": "every constraint object and credential list", "why_tests_cant": "list lengths and path alternatives unbounded", "anchors": ["presexch/definition.go: filterConstraints, filterField, checkPathValue, validatePath"]}
{"id": "C16", "title": "Format filter returns credentials of one format only", "statement": "filterFormat returns the credentials (in order) whose proof type/alg is allowed by the first format, in the fixed priority ldp, ldp_vc, ldp_vp, jwt, jwt_vc, jwt_vp, that has a match, together with that format's name; empty when none matches.", "quantifier": "every format object and credential list", "why_tests_cant": "all credential lists", "anchors": ["presexch/definition.go: filterFormat, credByProof, algMatch"]}
{"id": "C17", "title": "SD-JWT combined formats round-trip", "statement": "Parsing a serialized combined format for issuance/presentation returns the same SD-JWT, disclosures (in order) and holder-verification JWT, for all parts not containing '~'.", "quantifier": "every number of disclosures and every string without the separator", "why_tests_cant": "unbounded lists; empty-string and missing-part corner cases", "anchors": ["sdjwt/common/common.go: Serialize, ParseCombinedFormatForIssuance, ParseCombinedFormatForPresentation"]}
{"id": "C18", "title": "No disclosure is accepted unless its digest is committed", "statement": "If VerifyDisclosuresInSDJWT (hence holder.Parse and verifier.Parse) accepts, every supplied disclosure's digest occurs in the issuer-signed payload or, recursively, in the value of an accepted disclosure.", "quantifier": "every payload, disclosure list and hash function", "why_tests_cant": "recursion depth and placement unbounded", "anchors": ["sdjwt/common/verification.go: VerifyDisclosuresInSDJWT, discloseClaimValue"]}
{"id": "C19", "title": "A digest occurring in two places is rejected", "statement": "If the same digest is encountered twice while processing the payload and the referenced disclosures, processing fails.", "quantifier": "every payload and disclosure list", "why_tests_cant": "all placements of the two occurrences", "anchors": ["sdjwt/common/verification.go: discloseClaimValue"]}
{"id": "C20", "title": "Disclosure processing terminates on every input", "statement": "discloseClaimValue / GetDisclosureClaims terminate for every payload and every (possibly cyclic) disclosure graph.", "quantifier": "every payload and disclosure map, including adversarial reference cycles", "why_tests_cant": "cyclic references need hash collisions a test cannot build", "anchors": ["sdjwt/common/verification.go: discloseClaimValue, setDisclosureClaimValue"]}
{"id": "C21", "title": "Disclosure processing does not depend on map iteration order", "statement": "Whether verification succeeds, and the resulting claims, are the same for every iteration order Go may choose for payload maps and disclosure maps.", "quantifier": "every payload and every permutation of every map", "why_tests_cant": "Go randomises order; a test sees a few orders", "anchors": ["sdjwt/common/verification.go: discloseClaimValue, GetDisclosureClaims"]}
{"id": "C22", "title": "Issue then verify returns the disclosed claims (SD-JWT v2)", "statement": "For every claims object without '_sd' keys, issuing with v2 options and verifying with any subset of the disclosures yields exactly: the always-visible claims plus the claims whose disclosures were supplied (same names, same values, same nesting), and nothing about the others.", "quantifier": "every claims object, option set and subset of disclosures", "why_tests_cant": "unbounded objects and 2^n subsets", "anchors": ["sdjwt/issuer/v2.go: CreateDisclosuresAndDigests", "sdjwt/common/verification.go", "sdjwt/verifier/verifier.go: Parse"]}
{"id": "C23", "title": "Issue then verify returns the disclosed claims (SD-JWT v5)", "statement": "The same for v5: recursive, structured, always-include and array-element disclosures, without decoys (C77), null (C78) or empty-named (C79) claims: a selection of disclosures is accepted iff it contains the parent of each nested disclosure, and then yields exactly the selected claims; with all disclosures the original claims.", "quantifier": "every claims object, option set", "why_tests_cant": "unbounded objects and option combinations", "anchors": ["sdjwt/issuer/v5.go: createDisclosuresAndDigestsInternal, processArrayElements"]}
{"id": "C24", "title": "Undisclosed claims do not leak", "statement": "The verified output contains no claim value that is neither clear-text in the signed payload nor in a supplied disclosure, and (with cleanup) no digest remains.", "quantifier": "every payload and disclosure list", "why_tests_cant": "arbitrary nesting", "anchors": ["sdjwt/common/common.go: GetDisclosedClaims", "sdjwt/common/verification.go"]}
{"id": "C25", "title": "Holder presentation reveals exactly the selected disclosures", "statement": "CreatePresentation succeeds only if each selected disclosure is part of the issued SD-JWT, and its output contains the unchanged issuer JWT, exactly the selected disclosures in order and the holder-verification JWT if requested.", "quantifier": "every combined format and selection", "why_tests_cant": "unbounded lists", "anchors": ["sdjwt/holder/holder.go: CreatePresentation"]}
{"id": "C26", "title": "Holder binding is enforced when required", "statement": "verifier.Parse with holder verification required succeeds only if a holder JWT is present whose signature verifies under the cnf.jwk of the issuer-signed payload, whose alg is in the allowed list and not none, whose times are valid, and whose nonce/aud equal the expected ones when configured.", "quantifier": "every presentation and option set, every proof-checker behaviour", "why_tests_cant": "all header/payload combinations", "anchors": ["sdjwt/verifier/verifier.go: Parse, runHolderVerification, verifyHolderVerificationJWT"]}
{"id": "C27", "title": "alg none and unlisted algorithms are never accepted", "statement": "verifier.Parse never succeeds on an SD-JWT whose alg header is missing, 'none' or outside the configured list, whatever the proof checker answers.", "quantifier": "every token and option set", "why_tests_cant": "all headers", "anchors": ["sdjwt/common/verification.go: VerifySigningAlg", "sdjwt/verifier/verifier.go: validateIssuerSignedSDJWT"]}
{"id": "C28", "title": "Duplicate disclosures are rejected by the verifier", "statement": "verifier.Parse rejects every presentation that carries the same disclosure string twice and no other presentation for that reason.", "quantifier": "every list of disclosures", "why_tests_cant": "all lists", "anchors": ["sdjwt/verifier/verifier.go: checkForDuplicates"]}
{"id": "C29", "title": "A verified JWT was checked against its own issuer and exact bytes", "statement": "If ParseAndCheckProof with issuer check (and claims decoding into the token, the default) returns a token, then the proof checker accepted exactly the token's signing input and signature for exactly the issuer claim found in that same payload, and the returned headers/payload are those of the checked bytes.", "quantifier": "every compact JWS string and proof checker", "why_tests_cant": "all strings; parse happens twice", "anchors": ["jwt/jwt.go: ParseAndCheckProof, CheckProof", "jwt/jose_wrappers.go"]}
{"id": "C30", "title": "JWT header policy", "statement": "A parsed JWT always has an alg header, its typ if present is JWT or an explicit type p+jwt / p+sd-jwt (any case), and cty is not JWT; every header map outside this policy is rejected (types with several + signs: C60).", "quantifier": "every header map", "why_tests_cant": "all strings, case variants, number of '+' signs", "anchors": ["jwt/jwt.go: CheckHeaders, checkTypHeader"]}
{"id": "C31", "title": "Algorithm, key type and verifier always agree", "statement": "If CheckJWTProof succeeds then the key was resolved for the header's kid and the expected issuer, the header's alg is supported, the resolved key's JWK type and curve are the ones of that alg, and the signature was verified by a verifier for that key type over exactly the given message.", "quantifier": "every header, key, issuer, message, signature, checker configuration", "why_tests_cant": "confusion attacks are combinations tests do not enumerate", "anchors": ["proof/checker/checker.go: CheckJWTProof, convertToPublicKey, getSignatureVerifier", "proof/jwtproofs", "crypto-ext/verifiers"]}
{"id": "C32", "title": "Keys are taken only from the expected controller's document", "statement": "VDRResolver returns a verification method only if it occurs, with that exact id and a relationship other than keyAgreement, in the DID document resolved for the expected controller.", "quantifier": "every DID document and resolver", "why_tests_cant": "all documents", "anchors": ["vermethod/vdrkeyresolver.go: ResolveVerificationMethod"]}
{"id": "C33", "title": "Data integrity: proofs are verified with the method they name", "statement": "If VerifyProof returns nil for options not used before, on a document whose proofs agree on method, suite, created and presence of expires (in particular: one proof), then the document has a proof member and each proof was verified by its suite, against the method this proof names under the expected purpose, over the document without proof and this proof's configuration (sets of differing proofs: C86; empty sets: C85).", "quantifier": "every document, number of proofs, options, registry of the two suites and resolver", "why_tests_cant": "proof sets of any size, state carried between proofs", "anchors": ["dataintegrity/verifier.go: VerifyProof, verifyProof", "dataintegrity/signer.go: resolveVM", "dataintegrity/suite/ecdsa2019", "dataintegrity/suite/eddsa2022"]}
{"id": "C34", "title": "Data integrity: policy fields are enforced", "statement": "VerifyProof returns nil only if each proof is of type DataIntegrityProof, its purpose equals the expected one, domain and challenge equal the expected ones (when given), it is not expired and its suite is registered.", "quantifier": "every document and options", "why_tests_cant": "all combinations", "anchors": ["dataintegrity/verifier.go: verifyProof"]}
{"id": "C35", "title": "Data integrity verification is independent of earlier verifications", "statement": "Among documents whose proofs all agree on method, suite, created and presence of expires, the outcome of VerifyProof is not changed by any history of earlier VerifyProof calls with the same options value (in general: C87).", "quantifier": "every history of calls", "why_tests_cant": "history dependence", "anchors": ["dataintegrity/verifier.go: verifyProof", "dataintegrity/signer.go: resolveVM"]}
{"id": "C36", "title": "Verification method is chosen by purpose", "statement": "A verification method is used for a purpose only if, and one is found whenever, the DID document lists it under that relationship (or, for assertionMethod only, under the general section) with the same fragment; the method a new proof names was chosen this way.", "quantifier": "every DID document, purpose and id", "why_tests_cant": "all documents", "anchors": ["dataintegrity/signer.go: getVMByPurpose, getVM, vmIDFragmentOnly"]}
{"id": "C37", "title": "Domain linkage is accepted only with a valid, matching credential", "statement": "VerifyDIDAndDomain succeeds only if the configuration has exactly the allowed properties and some linked credential was issued by the DID, is a DomainLinkageCredential without id and with issuance and expiration dates, has the DID as its single subject and an origin equal to the domain's origin, and verifies with proof checking.", "quantifier": "every configuration document, DID, domain", "why_tests_cant": "all documents", "anchors": ["didconfig/verifier/didconfig.go: VerifyDIDAndDomain"]}
{"id": "C38", "title": "Status bits follow the W3C bit order", "statement": "The status bit of index i is the i-th bit counted from the most significant bit of the first byte, as Bitstring Status List / StatusList2021 prescribe.", "quantifier": "every byte slice and index", "why_tests_cant": "all bytes; palindromic bytes hide the difference", "anchors": ["status/internal/bitstring/bitstring.go: BitAt"]}
{"id": "C39", "title": "The status list's own purpose is honoured", "statement": "A credential is reported revoked (suspended) only on the strength of a list whose credentialSubject.statusPurpose includes revocation (suspension).", "quantifier": "every entry and status list credential", "why_tests_cant": "combinations of entry and list purpose", "anchors": ["status/status.go: verifyStatus"]}
{"id": "C40", "title": "Status verification never panics", "statement": "VerifyStatus returns nil or an error, never a run-time panic, whatever the status entries contain and whatever list credentials with a credentialSubject are fetched.", "quantifier": "every entry list and resolver answer", "why_tests_cant": "remote input", "anchors": ["status/status.go: verifyStatus"]}
{"id": "C41", "title": "Schema filter keeps exactly the credentials offering the required schemas", "statement": "filterSchema keeps, in order, the credentials for which every required schema id (and at least one listed schema id) is defined by one of their contexts for one of their types; it fails iff some context cannot be loaded; caching contexts across credentials does not change the outcome.", "quantifier": "every schema list, credential list and loader", "why_tests_cant": "cache histories and list lengths unbounded", "anchors": ["presexch/definition.go: filterSchema, typeFoundInContext, getContext"]}
{"id": "C42", "title": "Array paths are compacted without collisions", "statement": "For all evaluated JSONPaths over a document (no array directly inside an array, keys without dots and not numeric), compactArrayPaths renumbers the mentioned elements of every array bijectively onto 0..k-1, consistently across all paths.", "quantifier": "every list of evaluated paths", "why_tests_cant": "shared mutable counter keyed by joined strings; collisions appear only for some path sets", "anchors": ["presexch/definition.go: compactArrayPaths, getPath"]}
{"id": "C43", "title": "JWT path rewriting removes exactly one leading vc step", "statement": "For every path with one root and at most one leading vc step, rewriting a JWT credential's path yields the path without that step, in whatever order Go iterates over the replacement table.", "quantifier": "every path, every map iteration order", "why_tests_cant": "map order is random per run", "anchors": ["presexch/definition.go: checkPathValue"]}
{"id": "C44", "title": "Match does not panic", "statement": "If the descriptor map contains no null entry and the plugged-in parsers do not panic, Match returns a result or an error.", "quantifier": "every definition, presentation list and submission", "why_tests_cant": "remote input", "anchors": ["presexch/api.go: Match, getMatchedCreds"]}
{"id": "C45", "title": "Match never accepts a credential for a descriptor without schemas unless schema validation is disabled", "statement": "With schema validation enabled every returned credential belongs to a descriptor that lists at least one schema (so v2 definitions, which have none, are never matched).", "quantifier": "every definition and submission", "why_tests_cant": "all definitions", "anchors": ["presexch/api.go: getMatchedCreds", "presexch/definition.go: filterSchema"]}
{"id": "C46", "title": "Limited disclosure discloses only what was requested", "statement": "Under limit_disclosure the disclosures kept on an SD-JWT credential are a subset of its disclosures, each one named by the last step of a requested path with its digest in the parent object, or an array element below that parent object.", "quantifier": "every constraint object, credential and disclosure list", "why_tests_cant": "all disclosure lists", "anchors": ["presexch/definition.go: getLimitedDisclosures, limitDisclosure"]}
{"id": "C47", "title": "Limiting disclosure for one descriptor does not affect the others", "statement": "If each of two descriptors with limit_disclosure is satisfied by a wallet credential, then both together are, and each receives its requested claims.", "quantifier": "every pair of descriptors and SD-JWT credential", "why_tests_cant": "in-place mutation of a shared credential during the search", "anchors": ["presexch/definition.go: limitDisclosure, applyRequirement", "verifiable/credential.go: SetSDJWTDisclosures"]}
{"id": "C48", "title": "date-time minimum filters work on string dates of LDP credentials", "statement": "A field filter {type: string, format: date-time, minimum: T} accepts a non-JWT credential whose date is at or after T.", "quantifier": "every date", "why_tests_cant": "all dates", "anchors": ["presexch/definition.go: filterField, validatePath"]}
{"id": "C49", "title": "Credentials sharing an id are submitted individually", "statement": "Two different matched credentials with the same (or no) id are both present in the created presentation, each pointed at by its own descriptor map entry.", "quantifier": "every match table", "why_tests_cant": "collisions", "anchors": ["presexch/definition.go: merge"]}
{"id": "C50", "title": "Match honours submission requirements", "statement": "A submission that satisfies the definition's submission requirements (e.g. pick 1 of 2) is accepted by Match.", "quantifier": "every definition with submission requirements", "why_tests_cant": "composition over all definitions", "anchors": ["presexch/api.go: evalSubmissionRequirements"]}
{"id": "C51", "title": "A constraints object without fields imposes only its other rules", "statement": "filterConstraints with no fields keeps the credentials that satisfy subject_is_issuer (all of them when it is not required).", "quantifier": "every credential list", "why_tests_cant": "all lists", "anchors": ["presexch/definition.go: filterConstraints"]}
{"id": "C52", "title": "A filter with allOf enforces its other keywords too", "statement": "A field filter that has both allOf and other keywords accepts a value only if it satisfies all of them.", "quantifier": "every filter and value", "why_tests_cant": "all filters", "anchors": ["presexch/definition.go: validatePath"]}
{"id": "C53", "title": "Array paths are compacted without collisions also for nested arrays", "statement": "C42 for documents with arrays directly inside arrays.", "quantifier": "every list of evaluated paths", "why_tests_cant": "as C42", "anchors": ["presexch/definition.go: getPath"]}
{"id": "C54", "title": "JWT path rewriting does not depend on map order", "statement": "The rewritten path of a JWT credential is the same for every iteration order of the replacement table, for every path.", "quantifier": "every path, every map iteration order", "why_tests_cant": "map order is random per run", "anchors": ["presexch/definition.go: checkPathValue"]}
{"id": "C55", "title": "Malformed definitions and submissions are errors, not panics", "statement": "A filter without type, or a null descriptor_map entry, yields an error.", "quantifier": "every credential", "why_tests_cant": "remote input", "anchors": ["presexch/definition.go: filterField", "presexch/api.go: getMatchedCreds"]}
{"id": "C56", "title": "`all` with max keeps its meaning", "statement": "A submission requirement `all` that also carries max (which the definition schema permits) is satisfied by the whole group.", "quantifier": "every definition", "why_tests_cant": "all definitions", "anchors": ["presexch/definition.go: toRequirement, toLogic"]}
{"id": "C57", "title": "Duplicate descriptor ids are handled", "statement": "A definition whose input descriptors repeat an id is processed or rejected with an error.", "quantifier": "every definition", "why_tests_cant": "all definitions", "anchors": ["presexch/internal/requirementlogic/requirementlogic.go: Iterator"]}
{"id": "C58", "title": "Multi-bit status entries read the position they occupy", "statement": "With statusSize n the status of entry i is read from bits i*n .. i*n+n-1.", "quantifier": "every list and index", "why_tests_cant": "all lists", "anchors": ["status/status.go: verifyStatus"]}
{"id": "C59", "title": "A status list credential without subject is an error", "statement": "If the fetched status list credential has no credentialSubject, VerifyStatus returns an error.", "quantifier": "every entry", "why_tests_cant": "remote input", "anchors": ["status/status.go: verifyStatus"]}
{"id": "C60", "title": "Explicit JWT types are judged by their ending", "statement": "A typ with several + signs is accepted only if its last part is jwt or sd-jwt.", "quantifier": "every typ", "why_tests_cant": "all strings", "anchors": ["jwt/jwt.go: checkTypHeader"]}
{"id": "C61", "title": "Linked-data proofs: proof type, key and scheme agree", "statement": "If CheckLDProof accepts, the key was resolved for the proof's verification method and the expected issuer, and the signature verifies over exactly the given message under a scheme that the proof type stands for, with a key of that scheme.", "quantifier": "every proof type, key, message and signature", "why_tests_cant": "confusion attacks are combinations tests do not enumerate", "anchors": ["proof/checker/checker.go: CheckLDProof", "proof/ldproofs", "crypto-ext/verifiers"]}
{"id": "C62", "title": "CWT proofs: COSE algorithm, key and scheme agree", "statement": "If CheckCWTProof accepts, the signature verifies over exactly the given message under the scheme of the COSE algorithm with a key of that scheme, resolved for the key id and the expected issuer, or taken from the COSE_Key only if no key id is given and no issuer is expected.", "quantifier": "every request, issuer, message and signature", "why_tests_cant": "all combinations", "anchors": ["proof/checker/checker.go: CheckCWTProof, checkCWTProofByKeyID, checkCWTProofByCOSEKey"]}
{"id": "C63", "title": "ECDSA signature framing", "statement": "An ECDSA signature is read as two big-endian field elements iff its length is exactly two field sizes, as DER iff it is longer, and rejected iff shorter; two different raw signatures never denote the same pair.", "quantifier": "every signature string and curve", "why_tests_cant": "all byte strings", "anchors": ["crypto-ext/verifiers/ecdsa/verifier.go: Verify"]}
{"id": "C64", "title": "DER signatures are not extensible", "statement": "An accepted DER signature with bytes appended is rejected.", "quantifier": "every signature", "why_tests_cant": "all byte strings", "anchors": ["crypto-ext/verifiers/ecdsa/verifier.go: Verify"]}
{"id": "C65", "title": "Keys are used only for the relationship they are listed under", "statement": "A JWT credential proof made with a key the issuer's DID document lists for authentication only is rejected.", "quantifier": "every DID document and proof", "why_tests_cant": "all documents", "anchors": ["vermethod/vdrkeyresolver.go: ResolveVerificationMethod"]}
{"id": "C66", "title": "Blank node placeholders are transformed back", "statement": "The BBS+ proof verifier's row transformation never panics, replaces the first <urn:bnid:_:c14nK> of a row by _:c14nK and leaves all other text (and rows without placeholder) unchanged.", "quantifier": "every row", "why_tests_cant": "all strings; slice arithmetic", "anchors": ["crypto-ext/verifiers/bbs/verifier.go: transformFromBlankNode"]}
{"id": "C67", "title": "Every blank node placeholder of a row is transformed back", "statement": "A row with two placeholders (subject and object) has both replaced.", "quantifier": "every row", "why_tests_cant": "all strings", "anchors": ["crypto-ext/verifiers/bbs/verifier.go: transformFromBlankNode"]}
{"id": "C68", "title": "Without an expected issuer the key belongs to the DID in kid", "statement": "If CheckProof without expected issuer accepts a JWT, the header's kid is did or did#fragment, and the signature verifies with a key listed under exactly that id in the DID document of did.", "quantifier": "every token and DID resolver", "why_tests_cant": "all strings", "anchors": ["jwt/jwt.go: CheckProof", "jwt/jose_wrappers.go: joseVerifier.Verify"]}
{"id": "C69", "title": "Reserved names cannot be disclosed", "statement": "A disclosure whose claim name is _sd or ... is rejected.", "quantifier": "every disclosure and payload", "why_tests_cant": "disclosures are attacker-chosen", "anchors": ["sdjwt/common/verification.go: getDisclosureClaim, discloseClaimValue"]}
{"id": "C70", "title": "Digests inside objects that are array elements are processed", "statement": "Verification resolves or removes the _sd digests of an object that is a plain element of an array.", "quantifier": "every payload", "why_tests_cant": "unbounded nesting", "anchors": ["sdjwt/common/verification.go: discloseClaimValue"]}
{"id": "C71", "title": "Clear-text claims survive verification", "statement": "Every clear-text claim of the signed payload, null and empty arrays included, is in the verified output.", "quantifier": "every payload", "why_tests_cant": "all values", "anchors": ["sdjwt/common/verification.go: discloseClaimValue"]}
{"id": "C72", "title": "Verifier without signature verifier", "statement": "verifier.Parse returns an error when no signature verifier was configured.", "quantifier": "every token", "why_tests_cant": "all tokens", "anchors": ["sdjwt/verifier/verifier.go: Parse", "jwt/jwt.go: CheckProof"]}
{"id": "C73", "title": "Presentable subsets", "statement": "Of a list of disclosures that verifies against a payload, a sublist verifies iff each of its disclosures is committed to by the payload or by another selected disclosure (a nested disclosure needs its parent).", "quantifier": "every payload, disclosure list and sublist", "why_tests_cant": "2^n subsets, unbounded nesting", "anchors": ["sdjwt/common/verification.go: VerifyDisclosuresInSDJWT", "sdjwt/holder/holder.go: CreatePresentation"]}
{"id": "C74", "title": "Holder sees every claim", "statement": "holder.Parse returns exactly one claim per disclosure, carrying that disclosure, its name and its value with all nested disclosures resolved.", "quantifier": "every issued SD-JWT", "why_tests_cant": "unbounded nesting", "anchors": ["sdjwt/holder/holder.go: Parse, getClaims"]}
{"id": "C75", "title": "Issuance format carries no key binding", "statement": "With SD-JWT V5 validation holder.Parse rejects every input whose last part is a JWT (signed or unsecured).", "quantifier": "every input", "why_tests_cant": "all strings", "anchors": ["sdjwt/holder/holder.go: applySDJWTV5Validation", "jwt/jwt.go: IsJWS, IsJWTUnsecured"]}
{"id": "C76", "title": "The signed payload shows hidden claims as digests only", "statement": "Outside the registered fields, every scalar and every member name of the payload New signs is one of a claim (or array element) the options leave in clear text, or a digest of a returned disclosure or decoy, or SD-JWT bookkeeping.", "quantifier": "every claims object and option set", "why_tests_cant": "all nestings", "anchors": ["sdjwt/issuer/issuer.go: New", "sdjwt/issuer/v2.go", "sdjwt/issuer/v5.go"]}
{"id": "C77", "title": "Decoy digests (v5)", "statement": "An SD-JWT issued with v5 and decoy digests is accepted with all its disclosures; decoy salts are not handed out.", "quantifier": "every claims object", "why_tests_cant": "all claims", "anchors": ["sdjwt/issuer/v5.go: createDisclosuresAndDigestsInternal", "sdjwt/issuer/issuer.go: createDecoyDisclosures"]}
{"id": "C78", "title": "Null claims (v5)", "statement": "Issuing claims with a null value with v5 returns a token or an error.", "quantifier": "every claims object", "why_tests_cant": "all values", "anchors": ["sdjwt/issuer/v5.go: createDisclosuresAndDigestsInternal"]}
{"id": "C79", "title": "Empty claim name (v5)", "statement": "A claim whose name is the empty string survives issuing and verifying with v5.", "quantifier": "every claims object", "why_tests_cant": "all names", "anchors": ["sdjwt/issuer/v5.go: createDisclosure"]}
{"id": "C80", "title": "Hidden claims named like registered fields", "statement": "A hidden claim whose name is a registered field present in the payload (iss, sub, exp, ...) can be disclosed, or issuing is refused.", "quantifier": "every claims object and option set", "why_tests_cant": "all names", "anchors": ["sdjwt/issuer/issuer.go: New, createPayload"]}
{"id": "C81", "title": "Credentials: subject claims hidden, all else unchanged", "statement": "For every credential (as claims with a vc object, or with v5 the credential itself) NewFromVC hides the subject's claims as New does, and verifying with a selection of disclosures returns the original credential with the holder key added and the subject showing exactly the registered options, the clear-text and the selected claims.", "quantifier": "every credential, option set and selection", "why_tests_cant": "unbounded credentials, 2^n selections", "anchors": ["sdjwt/issuer/issuer.go: NewFromVC", "sdjwt/issuer/v2.go: ExtractCredentialClaims", "sdjwt/issuer/v5.go: ExtractCredentialClaims"]}
{"id": "C82", "title": "No clear-text copy of the subject", "statement": "The credential NewFromVC signs does not contain the original credentialSubject in clear text.", "quantifier": "every credential", "why_tests_cant": "all credentials", "anchors": ["sdjwt/issuer/issuer.go: NewFromVC", "sdjwt/common/common.go: GetKeyFromVC"]}
{"id": "C83", "title": "Reserved name _sd refused", "statement": "New refuses claims that use the name _sd at any depth of nested objects.", "quantifier": "every claims object", "why_tests_cant": "all nestings", "anchors": ["sdjwt/issuer/issuer.go: New", "sdjwt/common/common.go: KeyExistsInMap"]}
{"id": "C84", "title": "Reserved names refused inside arrays, and all of them", "statement": "New refuses claims that use _sd inside arrays, or the name ... .", "quantifier": "every claims object", "why_tests_cant": "all nestings", "anchors": ["sdjwt/issuer/issuer.go: New", "sdjwt/common/common.go: KeyExistsInMap"]}
{"id": "C85", "title": "Data integrity: at least one proof", "statement": "A document VerifyProof accepts carries at least one proof.", "quantifier": "every document and options", "why_tests_cant": "all documents", "anchors": ["dataintegrity/verifier.go: VerifyProof"]}
{"id": "C86", "title": "Data integrity: proof sets", "statement": "Each proof of an accepted set was verified against the method it names itself.", "quantifier": "every set of proofs", "why_tests_cant": "state carried between proofs", "anchors": ["dataintegrity/verifier.go: VerifyProof", "dataintegrity/signer.go: resolveVM"]}
{"id": "C87", "title": "Data integrity: reused options", "statement": "An options value can be reused for documents with different proofs without changing outcomes.", "quantifier": "every history of calls", "why_tests_cant": "history dependence", "anchors": ["dataintegrity/verifier.go: verifyProof", "dataintegrity/models/types.go: ProofOptions"]}
{"id": "C88", "title": "Data integrity: sign then verify", "statement": "A proof AddProof makes for a document without proof is accepted by VerifyProof with fresh options of the same purpose, domain and challenge until it expires (suite names other than the alias eddsa-2022).", "quantifier": "every document, suite, method, options", "why_tests_cant": "all documents and options", "anchors": ["dataintegrity/signer.go: AddProof", "dataintegrity/verifier.go: VerifyProof", "dataintegrity/suite"]}
{"id": "C89", "title": "Data integrity: every AddProof output verifies", "statement": "The output of AddProof verifies also when the document already carried a proof, and for every registered suite name.", "quantifier": "every document", "why_tests_cant": "all documents", "anchors": ["dataintegrity/signer.go: AddProof", "dataintegrity/suite/eddsa2022/eddsa2022.go"]}
{"id": "C90", "title": "Data integrity: accepted documents were signed", "statement": "If keys verify only what their owner signed, a document accepted by VerifyProof has the canonical form of a document signed by the owner of the named method together with a configuration of the same canonical form, or there is a hash collision.", "quantifier": "every document and tampering", "why_tests_cant": "all tamperings", "anchors": ["dataintegrity/verifier.go: VerifyProof", "dataintegrity/suite"]}
{"id": "C91", "title": "Data integrity: domain and challenge are covered", "statement": "The signature of an accepted proof covers the domain and challenge the proof states.", "quantifier": "every document and options", "why_tests_cant": "all documents", "anchors": ["dataintegrity/suite/ecdsa2019/ecdsa2019.go: proofConfig", "dataintegrity/verifier.go: verifyProof"]}
{"id": "C92", "title": "Data integrity: effect of AddProof", "statement": "AddProof keeps every other member of the document and sets the proof member to one new proof of the requested purpose, domain and challenge, with non-empty type and method.", "quantifier": "every document and options", "why_tests_cant": "all documents", "anchors": ["dataintegrity/signer.go: AddProof"]}
{"id": "C93", "title": "Data integrity: method id", "statement": "The method used to check a proof has the id the proof names.", "quantifier": "every DID document", "why_tests_cant": "all documents", "anchors": ["dataintegrity/signer.go: getVM, vmIDFragmentOnly"]}
{"id": "C94", "title": "Data integrity: suite registry", "statement": "For each suite name the first initializer listing it serves it; later ones never replace it; unlisted names have no suite.", "quantifier": "every list of initializers", "why_tests_cant": "all lists", "anchors": ["dataintegrity/verifier.go: NewVerifier", "dataintegrity/signer.go: NewSigner"]}
{"id": "C95", "title": "Credential JSON round trip", "statement": "Parsing the JSON of a credential made by CreateCredential gives back the same contents and the same JSON object, with no proofs and no envelope.", "quantifier": "every expressible contents, extra members, member order of the text", "why_tests_cant": "all contents and member orders", "anchors": ["verifiable/credential.go: CreateCredential, ParseCredential, ParseCredentialJSON, serializeCredentialContents, parseCredentialContents"]}
{"id": "C96", "title": "Typed contents agree with the JSON", "statement": "After a successful parse, Contents() says exactly what ToRawJSON() says: id, types, contexts, issuer, subjects, dates, status, schemas, terms, evidence, refresh service and related resources.", "quantifier": "every accepted input in any form (JSON, JWT, SD-JWT, CWT, enveloped)", "why_tests_cant": "all inputs", "anchors": ["verifiable/credential.go: parseCredentialContents", "verifiable/common.go"]}
{"id": "C97", "title": "ToRawJSON of a parsed JSON credential", "statement": "ToRawJSON of a parsed JSON credential has the members that were parsed and the same list of proofs.", "quantifier": "every JSON credential", "why_tests_cant": "all inputs", "anchors": ["verifiable/credential.go: ToRawJSON, parseLDProof"]}
{"id": "C98", "title": "Proof arrays are kept as arrays", "statement": "ToRawJSON gives the proof member back exactly as it was parsed.", "quantifier": "every JSON credential", "why_tests_cant": "all inputs", "anchors": ["verifiable/credential.go: ToRawJSON", "verifiable/linked_data_proof.go"]}
{"id": "C99", "title": "WithModified functions change one thing", "statement": "Each WithModified\u2026 function changes exactly the named part, both in Contents() and in ToRawJSON(), drops proofs, and the two stay consistent.", "quantifier": "every credential and value", "why_tests_cant": "all credentials and values", "anchors": ["verifiable/credential.go: WithModifiedID, WithModifiedContext, WithModifiedStatus, WithModifiedIssuer, WithModifiedSubject"]}
{"id": "C100", "title": "WithModifiedValidFrom/Until are seen by readers", "statement": "After WithModifiedValidFrom (ValidUntil) a reader of the JSON sees the new date.", "quantifier": "every credential and date", "why_tests_cant": "all credentials", "anchors": ["verifiable/credential.go: WithModifiedValidFrom, WithModifiedValidUntil, parseCredentialContents"]}
{"id": "C101", "title": "Data URLs", "statement": "ParseDataURL inverts NewDataURL, and whatever it accepts has the shape data:media[;encoding],data.", "quantifier": "every media type, encoding and data", "why_tests_cant": "all strings", "anchors": ["verifiable/common.go: NewDataURL, ParseDataURL"]}
{"id": "C102", "title": "Times keep their text", "statement": "A time read from text is the instant the text denotes (UTC if no zone) and is written back as the same text; exactly the texts that denote an instant are accepted.", "quantifier": "every text", "why_tests_cant": "all texts", "anchors": ["util/time/time.go: ParseTimeWrapper, FormatToString"]}
{"id": "C103", "title": "Accepted credentials were checked", "statement": "Unless proof checking was disabled, ParseCredential returns a credential only if it has an issuer and its JWS, COSE signature, linked-data proofs or data-integrity proof was accepted by the configured checker over exactly the returned contents, for that issuer.", "quantifier": "every input, option set, checker", "why_tests_cant": "all inputs in all formats", "anchors": ["verifiable/credential.go: ParseCredential, checkProof", "verifiable/jwt.go", "verifiable/cwt.go", "verifiable/embedded_proof.go"]}
{"id": "C104", "title": "Accepted credentials were signed with a key of the issuer", "statement": "With the default checkers, a credential ParseCredential accepts (JWS, COSE or linked-data proofs) verifies under an assertion key that the issuer's DID document publishes, with an algorithm that fits the key.", "quantifier": "every input and every DID document", "why_tests_cant": "all inputs and documents", "anchors": ["verifiable/credential.go: ParseCredential", "proof/checker/checker.go: ProofChecker", "vermethod/vdr_resolver.go"]}
{"id": "C105", "title": "A failed proof check is final", "statement": "When a JSON text or token parses as a credential but its proof does not check, ParseCredential does not succeed by any other route.", "quantifier": "every input", "why_tests_cant": "all inputs", "anchors": ["verifiable/credential.go: ParseCredential"]}
{"id": "C106", "title": "ParseCredentialJSON checks proofs", "statement": "ParseCredentialJSON applies the proof options it is given.", "quantifier": "every JSON object and option set", "why_tests_cant": "all inputs", "anchors": ["verifiable/credential.go: ParseCredentialJSON"]}
{"id": "C107", "title": "Data-integrity proofs are by the issuer", "statement": "A credential accepted on a data-integrity proof was signed with a method of its issuer.", "quantifier": "every credential", "why_tests_cant": "all credentials", "anchors": ["verifiable/data_integrity_proof.go: checkDataIntegrityProof", "verifiable/embedded_proof.go"]}
{"id": "C108", "title": "At least one proof", "statement": "A credential ParseCredential accepts with proof checking carries at least one proof.", "quantifier": "every input", "why_tests_cant": "all inputs", "anchors": ["verifiable/embedded_proof.go: checkEmbeddedProof", "verifiable/linked_data_proof.go: checkLinkedDataProof"]}
{"id": "C109", "title": "JWT credentials carry the registered claims", "statement": "The object of a parsed JWT credential is its vc claim (or the unregistered claims when there is none) with issuer, id and dates overwritten by iss, jti, nbf/iat and exp.", "quantifier": "every JWT credential", "why_tests_cant": "all payloads", "anchors": ["verifiable/credential_jwt.go: refineFromJWTClaims, UnmarshalJSON"]}
{"id": "C110", "title": "DID issuers of a JWT credential agree", "statement": "When iss and the issuer inside the vc claim of an accepted JWT credential are both DIDs, they are equal.", "quantifier": "every JWT credential", "why_tests_cant": "all payloads", "anchors": ["verifiable/credential_jwt.go: refineVCIssuerFromJWTClaims"]}
{"id": "C111", "title": "Issuers of a JWT credential agree", "statement": "The iss claim and the issuer inside the vc claim of an accepted JWT credential are equal.", "quantifier": "every JWT credential", "why_tests_cant": "all payloads", "anchors": ["verifiable/credential_jwt.go: refineVCIssuerFromJWTClaims"]}
{"id": "C112", "title": "Validity reported is the one claimed", "statement": "The validity period that Contents() reports for a JWT credential is the one given by nbf/iat and exp.", "quantifier": "every JWT credential", "why_tests_cant": "all payloads", "anchors": ["verifiable/credential_jwt.go: refineFromJWTClaims", "verifiable/credential.go: parseCredentialContents"]}
{"id": "C113", "title": "ParseCredential does not panic", "statement": "ParseCredential returns a credential or an error, given calm libraries and checkers and JWT payloads with both registered and unregistered claims.", "quantifier": "every input", "why_tests_cant": "all inputs", "anchors": ["verifiable/credential.go: ParseCredential"]}
{"id": "C114", "title": "Any JWT payload is handled", "statement": "ParseCredential returns a credential or an error for every JWT payload.", "quantifier": "every payload", "why_tests_cant": "all payloads", "anchors": ["verifiable/credential_jwt.go: refineFromJWTClaims"]}
{"id": "C115", "title": "Sign as JWT, parse back", "statement": "CreateSignedJWTVC (minimised or not) followed by ParseCredential of the token gives back the contents (dates to the second), every other member, the token and its headers.", "quantifier": "every credential with one identified subject and an issuer, both minimisation modes, every algorithm", "why_tests_cant": "all credentials and payload member orders", "anchors": ["verifiable/credential.go: CreateSignedJWTVC", "verifiable/credential_jwt.go: newJWTCredClaims", "verifiable/jws.go"]}
{"id": "C116", "title": "Sign as CWT, parse back", "statement": "CreateSignedCOSEVC followed by ParseCredential of the hex text gives back exactly the same JSON object and the same contents.", "quantifier": "every credential with one identified subject, issuer and issuance date", "why_tests_cant": "all credentials", "anchors": ["verifiable/credential.go: CreateSignedCOSEVC", "verifiable/credential_cwt.go", "verifiable/credential_parser.go: CredentialCBORParser"]}
{"id": "C117", "title": "CWT claims agree with the credential", "statement": "The issuer that a parsed CWT credential reports is the iss claim of the token.", "quantifier": "every CWT credential", "why_tests_cant": "all payloads", "anchors": ["verifiable/credential_parser.go: CredentialCBORParser"]}
{"id": "C118", "title": "Universal form parses back", "statement": "The JSON text of ToUniversalForm of a JWT or CWT credential (a string for data model 1.1, an enveloping object with a data URL otherwise) parses to the same credential as the bare token.", "quantifier": "every JWT or CWT credential without selective disclosure", "why_tests_cant": "all credentials and texts", "anchors": ["verifiable/credential.go: ToUniversalForm, toEnvelopedForm", "verifiable/credential_parser.go: EnvelopedCredentialParser"]}
{"id": "C119", "title": "Validation is enforced", "statement": "With validation on, an accepted credential that is not a JWT satisfies the selected mode: its schema (option, builder, first supported credentialSchema or the default of its data model) and/or JSON-LD, or the base/extended context and type restrictions.", "quantifier": "every input, mode and schema source", "why_tests_cant": "all inputs and options", "anchors": ["verifiable/credential.go: validateCredential, validateBaseContext, validateBaseContextWithExtendedValidation, getSchemaLoader"]}
{"id": "C120", "title": "JWT credentials are validated", "statement": "With validation on, every accepted credential satisfies the selected validation.", "quantifier": "every input", "why_tests_cant": "all inputs", "anchors": ["verifiable/credential_parser.go: CredentialJSONParser"]}
{"id": "C121", "title": "Every listed schema is enforced", "statement": "Every credentialSchema of a supported type accepts the accepted credential.", "quantifier": "every credential", "why_tests_cant": "all credentials", "anchors": ["verifiable/credential.go: getSchemaLoader"]}
{"id": "C122", "title": "Data URL encodings are honoured", "statement": "An accepted enveloping credential has a data URL without an encoding parameter (none is implemented).", "quantifier": "every enveloping credential", "why_tests_cant": "all data URLs", "anchors": ["verifiable/credential.go: parseCredentialDataURL"]}
{"id": "C123", "title": "Unsecured JWT credentials", "statement": "CreateUnsecuredJWTVC and ParseCredential of its token agree on whether the credential is a JWT credential.", "quantifier": "every credential", "why_tests_cant": "all credentials", "anchors": ["verifiable/credential.go: CreateUnsecuredJWTVC", "verifiable/credential_parser.go: CredentialJSONParser"]}
{"id": "C124", "title": "Parsing does not depend on the clock", "statement": "Without a data integrity suite, ParseCredential gives the same result at any time; in particular expiry is not checked.", "quantifier": "every input and two times", "why_tests_cant": "all inputs and times", "anchors": ["verifiable/credential.go: ParseCredential"]}
{"id": "C125", "title": "Base-context validation does not panic", "statement": "ParseCredential with base-context validation returns a credential or an error.", "quantifier": "every JSON credential", "why_tests_cant": "all inputs", "anchors": ["verifiable/credential.go: validateBaseContext"]}
{"id": "C126", "title": "Extra members do not change a credential", "statement": "A JSON credential keeps its meaning whatever extra members it has.", "quantifier": "every JSON credential", "why_tests_cant": "all member names", "anchors": ["verifiable/credential.go: unwrapStringVC, externalJWTVC"]}
{"id": "C127", "title": "Parsing keeps the JSON form", "statement": "ToRawJSON of a parsed JSON credential equals what was parsed, also with external contexts.", "quantifier": "every JSON credential and option set", "why_tests_cant": "all inputs", "anchors": ["verifiable/embedded_proof.go: checkEmbeddedProof"]}
{"id": "C128", "title": "Exactly the requested disclosures are presented", "statement": "MarshalWithDisclosure of a parsed SD-JWT credential writes the token unchanged, exactly the disclosures whose claim names were asked for (all with DiscloseAll) and the holder binding; a missing required claim is an error.", "quantifier": "every parsed SD-JWT credential, every option set whose names are unambiguous in it", "why_tests_cant": "all credentials, option sets and map orders", "anchors": ["verifiable/credential_sdjwt.go: MarshalWithDisclosure, filterDisclosures, getDisclosureCodes"]}
{"id": "C129", "title": "A presented SD-JWT credential parses back", "statement": "What MarshalWithDisclosure writes is accepted by ParseCredential exactly when every disclosure sent is committed to by the token or by a disclosure sent with it; the credential read back is the same one with those disclosures.", "quantifier": "every parsed SD-JWT credential and option set", "why_tests_cant": "all selections of disclosures", "anchors": ["verifiable/credential_sdjwt.go: MarshalWithDisclosure", "verifiable/credential.go: ParseCredential"]}
{"id": "C130", "title": "All disclosures of a name are presented", "statement": "Every disclosure whose claim name was asked for is sent.", "quantifier": "every parsed SD-JWT credential and option set", "why_tests_cant": "all credentials", "anchors": ["verifiable/credential_sdjwt.go: filterDisclosures"]}
{"id": "C131", "title": "A presentation of an SD-JWT credential is one", "statement": "What MarshalWithDisclosure writes is read as an SD-JWT credential again.", "quantifier": "every parsed SD-JWT credential and option set", "why_tests_cant": "all selections", "anchors": ["verifiable/credential_sdjwt.go: MarshalWithDisclosure"]}
{"id": "C132", "title": "Holder bindings of credentials are checked", "statement": "With proof checking on, ParseCredential accepts a credential with a holder binding only if that is a JWT and the credential names a holder key.", "quantifier": "every input", "why_tests_cant": "all texts", "anchors": ["verifiable/credential.go: ParseCredential", "verifiable/credential_sdjwt.go"]}
{"id": "C133", "title": "The well-known address is used", "statement": "The did-configuration client succeeds exactly when GET domain/.well-known/did-configuration.json answers 200 with a configuration that verifies.", "quantifier": "every domain, DID and server", "why_tests_cant": "all servers", "anchors": ["didconfig/client/didconfig.go: VerifyDIDAndDomain"]}
{"id": "C134", "title": "A DID configuration cannot crash its verifier", "statement": "VerifyDIDAndDomain returns for every published configuration.", "quantifier": "every configuration", "why_tests_cant": "all documents", "anchors": ["didconfig/verifier/didconfig.go: getCredentials"]}
{"id": "C135", "title": "Expired domain linkage credentials are rejected", "statement": "VerifyDIDAndDomain does not accept a credential after its expiration date.", "quantifier": "every configuration and time", "why_tests_cant": "all times", "anchors": ["didconfig/verifier/didconfig.go: VerifyDIDAndDomain"]}
{"id": "C136", "title": "The origin names the domain", "statement": "An accepted domain linkage credential names the host of the requested domain.", "quantifier": "every configuration and domain", "why_tests_cant": "all domains", "anchors": ["didconfig/verifier/didconfig.go: validateOrigin"]}
{"id": "C137", "title": "The sub claim is the DID", "statement": "The sub claim of an accepted domain linkage JWT is the DID.", "quantifier": "every configuration", "why_tests_cant": "all payloads", "anchors": ["didconfig/verifier/didconfig.go: validateJWTClaims"]}
{"id": "C138", "title": "Accepted presentations are checked", "statement": "With proof checking on, the object of a JSON or JWT presentation that ParsePresentation accepts is covered by a proof that a configured checker accepted, and the presentation returned says what that object says.", "quantifier": "every input and option set (CWT presentations: next property)", "why_tests_cant": "all inputs", "anchors": ["verifiable/presentation.go: ParsePresentation, newPresentation", "verifiable/presentation_parser.go: PresentationJSONParser, presentationEnvelopedParser", "verifiable/embedded_proof.go: checkEmbeddedProofBytes"]}
{"id": "C139", "title": "CWT presentations are checked", "statement": "With proof checking on, a CWT presentation is accepted only if its signature was.", "quantifier": "every CWT presentation", "why_tests_cant": "all inputs", "anchors": ["verifiable/presentation_parser.go: PresentationCWTParser"]}
{"id": "C140", "title": "Enclosed tokens are checked", "statement": "With proof checking on, every credential that a presentation encloses as a text (JWT, SD-JWT or CWT), accepted by ParsePresentation, has an issuer and was accepted by the proof checker for that issuer.", "quantifier": "every presentation and enclosed token", "why_tests_cant": "all inputs", "anchors": ["verifiable/presentation.go: decodeCredentials, newPresentation"]}
{"id": "C141", "title": "Enclosed objects are checked", "statement": "With proof checking on, every credential enclosed in an accepted presentation is covered by an accepted proof.", "quantifier": "every presentation and enclosed credential", "why_tests_cant": "all inputs", "anchors": ["verifiable/presentation.go: decodeCredentials"]}
{"id": "C142", "title": "The holder check", "statement": "With the holder check on, a presentation is accepted only if, when its credentials speak of exactly one subject, every credential secured by a key of the same DID as a proof of the presentation was issued by the holder; the check refuses nothing else.", "quantifier": "every presentation whose proofs name verification methods", "why_tests_cant": "all presentations", "anchors": ["verifiable/presentation.go: validateHolder, executeChecks"]}
{"id": "C143", "title": "The holder signed", "statement": "With the holder check on, an accepted JWT presentation was signed with a key of its holder.", "quantifier": "every JWT presentation", "why_tests_cant": "all presentations", "anchors": ["verifiable/presentation.go: validateHolder", "verifiable/presentation_jws.go: unmarshalPresJWSClaims"]}
{"id": "C144", "title": "JWT presentations carry the registered claims", "statement": "The object of a parsed JWT presentation is its vp claim with a non-empty iss as holder and a non-empty jti as id; nothing else differs.", "quantifier": "every JWT presentation", "why_tests_cant": "all payloads", "anchors": ["verifiable/presentation_jwt.go: refineFromJWTClaims"]}
{"id": "C145", "title": "Presentations are validated", "statement": "Every accepted presentation satisfies the JSON schema of the data model named by its first context, JSON-LD validation unless disabled, and has a credential when one is required.", "quantifier": "every input and option set", "why_tests_cant": "all inputs", "anchors": ["verifiable/presentation.go: validateVP, validateVPJSONSchema, validateVPJSONLD"]}
{"id": "C146", "title": "ParsePresentation does not panic", "statement": "ParsePresentation returns a presentation or an error, given calm libraries and checkers and usable JWT payloads.", "quantifier": "every input", "why_tests_cant": "all inputs", "anchors": ["verifiable/presentation.go: ParsePresentation"]}
{"id": "C147", "title": "Any presentation payload is handled", "statement": "ParsePresentation returns a presentation or an error for every JWT payload.", "quantifier": "every payload", "why_tests_cant": "all payloads", "anchors": ["verifiable/presentation_jwt.go: refineFromJWTClaims", "verifiable/presentation_jwt_unsecured.go"]}
{"id": "C148", "title": "Every member of a presentation is covered", "statement": "The embedded proof of an accepted JSON presentation covers every member of it.", "quantifier": "every JSON presentation", "why_tests_cant": "all members", "anchors": ["verifiable/embedded_proof.go: checkEmbeddedProofBytes"]}
{"id": "C149", "title": "Expired presentations are refused", "statement": "ParsePresentation refuses a JWT presentation whose exp has passed.", "quantifier": "every JWT presentation and time", "why_tests_cant": "all times", "anchors": ["verifiable/presentation_jws.go: unmarshalPresJWSClaims"]}
{"id": "C150", "title": "Signing a presentation as a JWT and parsing it", "statement": "What CreateJWTVP signs, minimised or not, given as the token, as a JSON string or in the envelope that MarshalJSON writes, is parsed back to the same presentation with the credentials it encloses (when it has a holder, an id or an audience).", "quantifier": "every presentation with string contexts, every signer, checker that accepts the token, and text of the token", "why_tests_cant": "all presentations", "anchors": ["verifiable/presentation_jwt.go: newJWTPresClaims, refineFromJWTClaims", "verifiable/presentation.go: MarshalJSON, CreateJWTVP, ParsePresentation"]}
{"id": "C151", "title": "Every signed JWT presentation can be parsed", "statement": "ParsePresentation returns for every token that CreateJWTVP produces.", "quantifier": "every presentation", "why_tests_cant": "all presentations", "anchors": ["verifiable/presentation_jwt.go: refineFromJWTClaims"]}
{"id": "C152", "title": "Signing a presentation as a CWT and parsing it", "statement": "What CreateCWTVP signs (not minimised), in hexadecimal or in the envelope, is parsed back to the same presentation.", "quantifier": "every presentation with string contexts and every signer", "why_tests_cant": "all presentations", "anchors": ["verifiable/presentation.go: CreateCWTVP, MarshalJSON", "verifiable/presentation_parser.go: PresentationCWTParser"]}
{"id": "C153", "title": "Minimised CWT presentations", "statement": "A minimised CWT presentation is parsed back with its holder and id, as a minimised JWT presentation is.", "quantifier": "every presentation with a holder or an id", "why_tests_cant": "all presentations", "anchors": ["verifiable/presentation_parser.go: PresentationCWTParser"]}
{"id": "C154", "title": "Marshalling a JSON presentation and parsing it", "statement": "The JSON text of a presentation that is neither JWT nor CWT is parsed back to the same presentation.", "quantifier": "every such presentation and every member order", "why_tests_cant": "all presentations", "anchors": ["verifiable/presentation.go: MarshalJSON, raw, ParsePresentation, newPresentation"]}
{"id": "C155", "title": "A CWT presentation is marshalled with its signature", "statement": "MarshalJSON of a CWT presentation writes its token.", "quantifier": "every CWT presentation", "why_tests_cant": "all presentations", "anchors": ["verifiable/presentation.go: MarshalJSON"]}
{"id": "C156", "title": "Contexts are kept", "statement": "Parsing a presentation and marshalling it keeps its contexts.", "quantifier": "every presentation", "why_tests_cant": "all contexts", "anchors": ["verifiable/presentation.go: raw, newPresentation"]}
{"id": "C157", "title": "An added data integrity proof is accepted", "statement": "AddDataIntegrityProof of a JSON credential without proofs gives a credential whose JSON text ParseCredential accepts with proof checking on (same purpose, domain, challenge, before expiry): same contents, exactly that proof, other members unchanged.", "quantifier": "every credential, signing context, fitting signer and verifier, and member order of the text", "why_tests_cant": "all credentials and contexts", "anchors": ["verifiable/data_integrity_proof.go: AddDataIntegrityProof, addDataIntegrityProof, checkDataIntegrityProof", "verifiable/embedded_proof.go", "dataintegrity/signer.go", "dataintegrity/verifier.go"]}
{"id": "C158", "title": "Adding a proof keeps the others", "statement": "AddDataIntegrityProof of a credential that already has proofs keeps them and adds one that is accepted.", "quantifier": "every credential with proofs", "why_tests_cant": "all credentials", "anchors": ["verifiable/data_integrity_proof.go: AddDataIntegrityProof"]}
{"id": "C159", "title": "An added proof of a presentation is accepted", "statement": "AddDataIntegrityProof of a JSON presentation without proofs gives a presentation whose JSON text ParsePresentation accepts with proof checking on, with exactly that proof and nothing else changed.", "quantifier": "every presentation with string contexts, signing context, fitting signer and verifier, and member order", "why_tests_cant": "all presentations", "anchors": ["verifiable/data_integrity_proof.go: AddDataIntegrityProof", "verifiable/presentation.go: MarshalJSON, ParsePresentation", "verifiable/presentation_parser.go"]}
{"id": "C160", "title": "An added proof is marshalled", "statement": "After AddDataIntegrityProof, MarshalJSON writes the proof.", "quantifier": "every JWT or CWT credential, every JWT presentation", "why_tests_cant": "all credentials and presentations", "anchors": ["verifiable/data_integrity_proof.go: AddDataIntegrityProof", "verifiable/credential.go: ToUniversalForm", "verifiable/presentation.go: MarshalJSON"]}
{"id": "C161", "title": "Related resources are checked against their digests", "statement": "When the related-resource validator accepts credentials, the bytes received (status 200, not empty) from every related resource's URL at some time hash to the digest the credential gives, under the algorithm it names.", "quantifier": "every list of credentials, schedule of the goroutines, cache history (evictions, additions by other concurrent users) and server behaviour", "why_tests_cant": "schedules and cache histories cannot be enumerated", "anchors": ["verifiable/related_resource.go: Validate, Fetch, validateSingleResource, validateHash, calculateHashes"]}
{"id": "C162", "title": "The validator's verdict does not depend on the schedule", "statement": "With servers that always answer the same, the related-resource validator accepts if and only if every related resource can be fetched and matches its digest, whatever the interleaving and the cache.", "quantifier": "every schedule, cache history and list of resources", "why_tests_cant": "all interleavings", "anchors": ["verifiable/related_resource.go: Validate, Fetch"]}
{"id": "C163", "title": "The related-resource validator terminates", "statement": "Validate needs at most five steps per related resource and is never stuck: whenever it has not returned, some goroutine or the caller can proceed, and no goroutine panics (when every base64url digest has at least two bytes and every request is answered).", "quantifier": "every schedule and reachable state", "why_tests_cant": "deadlock freedom ranges over all interleavings", "anchors": ["verifiable/related_resource.go: Validate, Fetch"]}
{"id": "C164", "title": "A digest cannot end the process", "statement": "Whatever digest a credential carries, validating related resources returns a verdict.", "quantifier": "every digest", "why_tests_cant": "all digests", "anchors": ["verifiable/related_resource.go: validateHash"]}
{"id": "C165", "title": "Right digests are accepted and wrongly labelled ones refused", "statement": "A digestSRI or digestMultibase that encodes the resource's hash in base64url is accepted; one whose multihash header names another algorithm is refused.", "quantifier": "every hash value", "why_tests_cant": "depends on the value of the hash", "anchors": ["verifiable/related_resource.go: validateSingleResource, validateHash"]}
{"id": "C166", "title": "A changed resource is refused", "statement": "If a resource no longer matches its digest when Validate is called, Validate fails.", "quantifier": "every cache history", "why_tests_cant": "needs the cache's history", "anchors": ["verifiable/related_resource.go: Fetch"]}
{"id": "C167", "title": "The in-memory store is linearizable", "statement": "Every concurrent history of Put, Get, GetTags, GetBulk, Delete, Batch and single-tag Query on one in-memory store has a sequential order of the calls that respects real time and in which each call does what the store's documentation says: reads return the last write, a batch takes effect at once, errors change nothing, a query returns exactly the matching entries.", "quantifier": "every initial contents, number of concurrent calls and interleaving of their accesses to the map and the lock", "why_tests_cant": "interleavings cannot be enumerated", "anchors": ["legacy/mem/mem.go: memStore.Put, Get, GetTags, GetBulk, Query, Delete, Batch, getMatchingKeysAndDBEntries, commonDBEntries"]}
{"id": "C168", "title": "The in-memory store does not deadlock", "statement": "Whenever a call on the store has not returned, some call can proceed without a new one being made.", "quantifier": "every reachable state", "why_tests_cant": "all interleavings", "anchors": ["legacy/mem/mem.go: memStore"]}
{"id": "C169", "title": "A query of several tags is atomic", "statement": "The result of a query of several tags joined by && is right for some moment during the query.", "quantifier": "every interleaving", "why_tests_cant": "all interleavings", "anchors": ["legacy/mem/mem.go: Query"]}
{"id": "C170", "title": "Queries return exactly the matching entries", "statement": "Without concurrent writes, Query returns each entry that carries every tag (name, or name and value) asked for exactly once, and nothing else; a well-formed expression with distinct tag names is never refused.", "quantifier": "every store contents, expression, map iteration order and number of concurrent readers", "why_tests_cant": "all contents and iteration orders", "anchors": ["legacy/mem/mem.go: Query, getMatchingKeysAndDBEntries, commonDBEntries"]}
{"id": "C171", "title": "A tag asked for twice", "statement": "A query for two values of one tag returns only entries that have both.", "quantifier": "every expression", "why_tests_cant": "all expressions", "anchors": ["legacy/mem/mem.go: Query"]}
{"id": "C172", "title": "Batch checks tags as Put does", "statement": "Batch refuses tags that Put refuses.", "quantifier": "every batch", "why_tests_cant": "all batches", "anchors": ["legacy/mem/mem.go: Put, Batch"]}
{"id": "C173", "title": "The iterator gives each result once", "statement": "Reading the iterator to the end with Next, Key, Value and Tags gives the results of the query in order, once; afterwards Next stays false, Key, Value and Tags fail; TotalItems is the number of results throughout.", "quantifier": "every list of results", "why_tests_cant": "all results", "anchors": ["legacy/mem/mem.go: memIterator"]}
{"id": "C174", "title": "Stores are found by name and separate", "statement": "Opening a store twice under names equal up to case gives the same store, under different names different ones; opening loses no data; writing through one handle changes only that store.", "quantifier": "every history of opening, closing, configuring and writing", "why_tests_cant": "histories", "anchors": ["legacy/mem/mem.go: OpenStore, SetStoreConfig, Close, removeStore"]}
{"id": "C175", "title": "Closing a store affects this store only", "statement": "Closing a store deletes its data, and closing a handle does not affect a store opened later.", "quantifier": "every history", "why_tests_cant": "histories", "anchors": ["legacy/mem/mem.go: memStore.Close, removeStore"]}
{"id": "C176", "title": "Resolving a status list returns what was delivered", "statement": "Resolve succeeds exactly when the list credential was delivered and parses: for an http URL, in the body of a 200 answer to the GET of that URL; for a DID URL, as the data of the first entry with the requested object id in an all-200 answer of that DID's identity hub to the first collections query in the URL. What is delivered is determined by the URL and the world.", "quantifier": "every URL, token, DID document, hub answer and server behaviour", "why_tests_cant": "all URLs and answers", "anchors": ["status/resolver/resolver.go: Resolve, resolveDIDRelativeURL, sendHTTPRequest, getQueries", "status/internal/identityhub/identityhub.go: GetRequest, ServiceEndpoint, CheckStatus, GetMessageData"]}
{"id": "C177", "title": "One request, to the right place", "statement": "A Resolve makes at most one HTTP request: the GET of the URL, or one POST to the identity hub of the DID before the '?', with one message, the first collections query of the URL; a non-empty bearer token, and only that, is attached.", "quantifier": "every URL, token and DID document", "why_tests_cant": "all URLs and documents", "anchors": ["status/resolver/resolver.go: Resolve, resolveDIDRelativeURL, sendHTTPRequest, getQueries", "status/internal/identityhub/identityhub.go: GetRequest, ServiceEndpoint, CheckStatus, GetMessageData"]}
{"id": "C178", "title": "Failed exchanges give no credential", "statement": "Any HTTP status but 200, an unreadable body, a request-level or message-level hub status but 200, or no entry with the object id makes Resolve fail.", "quantifier": "every answer", "why_tests_cant": "all answers and nestings", "anchors": ["status/resolver/resolver.go: Resolve, resolveDIDRelativeURL, sendHTTPRequest, getQueries", "status/internal/identityhub/identityhub.go: GetRequest, ServiceEndpoint, CheckStatus, GetMessageData"]}
{"id": "C179", "title": "Status list DID URLs round-trip", "statement": "A DID URL made with standard base64 and query escaping of any JSON query text makes the hub be asked exactly the first collections query of that text.", "quantifier": "every text (any bytes), DID and hub", "why_tests_cant": "all byte strings", "anchors": ["status/resolver/resolver.go: Resolve, resolveDIDRelativeURL, sendHTTPRequest, getQueries", "status/internal/identityhub/identityhub.go: GetRequest, ServiceEndpoint, CheckStatus, GetMessageData"]}
{"id": "C180", "title": "Status verification end to end", "statement": "When VerifyStatus with this resolver accepts, every status entry's bit is clear in the list delivered for its URL, and that list names the credential's issuer.", "quantifier": "every credential, list of entries and delivered lists", "why_tests_cant": "all lists and indices", "anchors": ["status/status.go: VerifyStatus, verifyStatus", "status/resolver/resolver.go: Resolve"]}
{"id": "C181", "title": "The status list is authenticated", "statement": "A list credential used for a status check carries a valid proof of its issuer.", "quantifier": "every delivered list", "why_tests_cant": "all deliveries", "anchors": ["status/resolver/resolver.go: Resolve"]}
{"id": "C182", "title": "The hub's answer is for the question", "statement": "Data returned for a DID URL is for exactly the object asked for, in the answer to that very request.", "quantifier": "every hub answer", "why_tests_cant": "all answers", "anchors": ["status/internal/identityhub/identityhub.go: GetMessageData, CheckStatus", "status/resolver/resolver.go: resolveDIDRelativeURL"]}
{"id": "C183", "title": "The hub address is determined by the document", "statement": "If the hub service has a plain endpoint or an endpoint object all of whose usable members name one address, that address is asked.", "quantifier": "every DID document and map iteration order", "why_tests_cant": "map order is random", "anchors": ["status/internal/identityhub/identityhub.go: ServiceEndpoint, getDIDCoreServiceEndpoint"]}
{"id": "C184", "title": "The hub address does not depend on map order", "statement": "For every DID document the address asked is the same on every call.", "quantifier": "every DID document and iteration order", "why_tests_cant": "map order is random", "anchors": ["status/internal/identityhub/identityhub.go: getDIDCoreServiceEndpoint"]}
{"id": "C185", "title": "Resolving a status list does not panic", "statement": "Resolve returns when DID resolution delivers documents and parsing the delivered bytes does not panic.", "quantifier": "every URL and answer", "why_tests_cant": "all inputs", "anchors": ["status/resolver/resolver.go: Resolve, resolveDIDRelativeURL, sendHTTPRequest, getQueries", "status/internal/identityhub/identityhub.go: GetRequest, ServiceEndpoint, CheckStatus, GetMessageData"]}
{"id": "C186", "title": "A missing DID document is an error", "statement": "A DID resolution without a document makes Resolve fail with an error.", "quantifier": "every resolution result", "why_tests_cant": "all results", "anchors": ["status/resolver/resolver.go: resolveDIDRelativeURL"]}
{"id": "C187", "title": "Displaying an SD-JWT credential", "statement": "CreateDisplayCredentialMap of a parsed SD-JWT credential returns its document in which the digests of exactly the chosen disclosures (all, or those with a given claim name) are replaced by what they disclose, all other digests and _sd, _sd_alg members are gone, and objects of the subject with nothing in them are left out.", "quantifier": "every token, set of disclosures (nested, in objects and arrays) and choice", "why_tests_cant": "all nestings and choices", "anchors": ["verifiable/credential_sdjwt.go: CreateDisplayCredential, CreateDisplayCredentialMap, filterDisclosureList, clearEmpty", "sdjwt/common/common.go: GetDisclosedClaims"]}
{"id": "C188", "title": "Displaying all disclosures", "statement": "With DisplayAllDisclosures the result is the fully resolved credential, and no digest is left in it.", "quantifier": "every token and set of disclosures", "why_tests_cant": "all nestings", "anchors": ["verifiable/credential_sdjwt.go: CreateDisplayCredential, CreateDisplayCredentialMap, filterDisclosureList, clearEmpty", "sdjwt/common/common.go: GetDisclosedClaims"]}
{"id": "C189", "title": "Displaying shows nothing else", "statement": "Every value and member name displayed is in the token in clear or belongs to a chosen disclosure.", "quantifier": "every token, set of disclosures and choice", "why_tests_cant": "all values", "anchors": ["verifiable/credential_sdjwt.go: CreateDisplayCredential, CreateDisplayCredentialMap, filterDisclosureList, clearEmpty", "sdjwt/common/common.go: GetDisclosedClaims"]}
{"id": "C190", "title": "CreateDisplayCredential agrees with the map", "statement": "CreateDisplayCredential returns a credential with the same document as CreateDisplayCredentialMap without its proof, with no envelope and no proofs, and fails only if that document is not a credential.", "quantifier": "every token and choice", "why_tests_cant": "all documents", "anchors": ["verifiable/credential_sdjwt.go: CreateDisplayCredential, CreateDisplayCredentialMap, filterDisclosureList, clearEmpty", "sdjwt/common/common.go: GetDisclosedClaims"]}
{"id": "C191", "title": "Displaying other credentials", "statement": "A credential that is not an SD-JWT credential is displayed unchanged; asking for all and for given disclosures at once is refused.", "quantifier": "every credential and options", "why_tests_cant": "all credentials", "anchors": ["verifiable/credential_sdjwt.go: CreateDisplayCredential, CreateDisplayCredentialMap, filterDisclosureList, clearEmpty", "sdjwt/common/common.go: GetDisclosedClaims"]}
{"id": "C192", "title": "Only given names are displayed", "statement": "With DisplayGivenDisclosures, a selectively disclosable claim whose name was not given is not shown.", "quantifier": "every token and list of names", "why_tests_cant": "all nestings", "anchors": ["verifiable/credential_sdjwt.go: CreateDisplayCredential, CreateDisplayCredentialMap, filterDisclosureList, clearEmpty", "sdjwt/common/common.go: GetDisclosedClaims"]}
{"id": "C193", "title": "What was parsed can be displayed", "statement": "Every SD-JWT credential accepted by ParseCredential can be displayed.", "quantifier": "every token", "why_tests_cant": "all tokens", "anchors": ["verifiable/credential_sdjwt.go: CreateDisplayCredential, CreateDisplayCredentialMap, filterDisclosureList, clearEmpty", "sdjwt/common/common.go: GetDisclosedClaims"]}
{"id": "C194", "title": "Making, presenting and displaying an SD-JWT credential", "statement": "MakeSDJWT of a credential and presenting the token with any of its disclosures gives a text ParseCredential accepts; its contents are the credential's (dates to the second), and the displayed document is the credential's with, as subject, the identifier, the claims listed as not selectively disclosable and exactly the claims whose disclosures were presented.", "quantifier": "every credential, list of clear claims, subset of disclosures, salt and shuffle", "why_tests_cant": "all credentials and subsets", "anchors": ["verifiable/credential_sdjwt.go: MakeSDJWT, makeSDJWT, CreateDisplayCredentialMap", "sdjwt/issuer/issuer.go: NewFromVC", "verifiable/credential.go: ParseCredential"]}
{"id": "C195", "title": "Making, presenting and displaying an SD-JWT credential in the v5 format", "statement": "The same with the v5 format, whose claims can be hidden inside hidden claims: every set of disclosures that contains, with each disclosure, those it is inside of, is accepted, and exactly what it reveals is displayed.", "quantifier": "every credential, options (clear, always included, recursive), closed set of disclosures", "why_tests_cant": "all credentials and nestings", "anchors": ["verifiable/credential_sdjwt.go: MakeSDJWT, makeSDJWT", "verifiable/credential_jwt.go: ToSDJWTV5CredentialPayload, UnmarshalJSON", "sdjwt/issuer/v5.go"]}
{"id": "C196", "title": "A proof creator signs with the first fitting registration", "statement": "SignLinkedDocument succeeds exactly when the first registration for the proof's type takes keys of the given type and its signer succeeds, and returns that signer's signature; SignJWT and SignCWT sign with the first registration for the algorithm and refuse unregistered ones.", "quantifier": "every list of registrations, proof type, algorithm, key type and message", "why_tests_cant": "all configurations", "anchors": ["proof/creator/creator.go: New, WithLDProofType, WithJWTAlg, SignLinkedDocument, SignJWT, SignCWT, LDPJWTAlg, CreateJWTHeaders", "proof/jwtproofs", "proof/ldproofs"]}
{"id": "C197", "title": "The JWS algorithm named in a linked-data proof", "statement": "LDPJWTAlg returns an algorithm only if the proof type takes keys of the given type, and then the non-empty algorithm of the first JWT registration taking them; with the library's own descriptors the algorithm is fixed by the key type, whatever the order of registration.", "quantifier": "every list of registrations and key type; every order of the default descriptors", "why_tests_cant": "all configurations and orders", "anchors": ["proof/creator/creator.go: New, WithLDProofType, WithJWTAlg, SignLinkedDocument, SignJWT, SignCWT, LDPJWTAlg, CreateJWTHeaders", "proof/jwtproofs", "proof/ldproofs"]}
{"id": "C198", "title": "Each algorithm is signed with by its own signer", "statement": "When the registered JWT algorithms are distinct, signing for one of them uses the signer registered with it (JWT); the same holds for CWT with the library's descriptors.", "quantifier": "every list of registrations", "why_tests_cant": "all configurations", "anchors": ["proof/creator/creator.go: New, WithLDProofType, WithJWTAlg, SignLinkedDocument, SignJWT, SignCWT, LDPJWTAlg, CreateJWTHeaders", "proof/jwtproofs", "proof/ldproofs"]}
{"id": "C199", "title": "AddLinkedDataProof appends exactly one proof", "statement": "A successful AddLinkedDataProof keeps every earlier proof and every other member, and appends one proof with exactly the context's type, key id, domain, challenge, capability chain, purpose (default assertionMethod) and time (default now), signed by the context's creator over the document; a failed call leaves the credential unchanged.", "quantifier": "every credential, context, creator and earlier proofs", "why_tests_cant": "all credentials and contexts", "anchors": ["verifiable/linked_data_proof.go: addLinkedDataProof, mapContext", "verifiable/lddocument/signer.go: DocumentSigner.Sign", "verifiable/credential_ldp.go: AddLinkedDataProof", "verifiable/presentation_ldp.go: AddLinkedDataProof"]}
{"id": "C200", "title": "A linked-data proof added to a credential is accepted", "statement": "After AddLinkedDataProof, the JSON text of the credential is accepted by ParseCredential with proof checking on: same contents, earlier proofs and the new one.", "quantifier": "every credential, context and fitting creator/checker pair", "why_tests_cant": "all credentials", "anchors": ["verifiable/linked_data_proof.go: addLinkedDataProof, mapContext", "verifiable/lddocument/signer.go: DocumentSigner.Sign", "verifiable/credential_ldp.go: AddLinkedDataProof", "verifiable/presentation_ldp.go: AddLinkedDataProof"]}
{"id": "C201", "title": "A linked-data proof added to a presentation is accepted", "statement": "The same for presentations and ParsePresentation, the expected issuer being the DID in the proof's key id.", "quantifier": "every presentation, context and fitting creator/checker pair", "why_tests_cant": "all presentations", "anchors": ["verifiable/linked_data_proof.go: addLinkedDataProof, mapContext", "verifiable/lddocument/signer.go: DocumentSigner.Sign", "verifiable/credential_ldp.go: AddLinkedDataProof", "verifiable/presentation_ldp.go: AddLinkedDataProof"]}
{"id": "C202", "title": "Verifying DID document proofs", "statement": "VerifyDIDProof accepts a document with linked-data proofs only if every proof verifies over it with a key that the DID named in the proof's key id has in its document, outside key agreement, fitting the proof's type; a proof added by AddDIDLinkedDataProof is accepted.", "quantifier": "every DID document, options, resolver and context", "why_tests_cant": "all documents", "anchors": ["verifiable/did_ldp.go: AddDIDLinkedDataProof, VerifyDIDProof", "verifiable/did_data_integrity.go: AddDIDDataIntegrityProof", "verifiable/embedded_proof.go: checkEmbeddedProof", "verifiable/lddocument/verifier.go: VerifyObject"]}
{"id": "C203", "title": "An accepted DID document is signed by its own DID", "statement": "A DID document accepted by VerifyDIDProof is signed with a key of the DID it describes.", "quantifier": "every document", "why_tests_cant": "all documents", "anchors": ["verifiable/did_ldp.go: AddDIDLinkedDataProof, VerifyDIDProof", "verifiable/did_data_integrity.go: AddDIDDataIntegrityProof", "verifiable/embedded_proof.go: checkEmbeddedProof", "verifiable/lddocument/verifier.go: VerifyObject"]}
{"id": "C204", "title": "A data integrity proof added to a DID document is accepted", "statement": "AddDIDDataIntegrityProof changes nothing but the proof member, and its result is accepted by VerifyDIDProof configured with the matching verifier, purpose, domain and challenge.", "quantifier": "every DID document without a proof, context and fitting signer/verifier pair", "why_tests_cant": "all documents", "anchors": ["verifiable/did_ldp.go: AddDIDLinkedDataProof, VerifyDIDProof", "verifiable/did_data_integrity.go: AddDIDDataIntegrityProof", "verifiable/embedded_proof.go: checkEmbeddedProof", "verifiable/lddocument/verifier.go: VerifyObject"]}
{"id": "C205", "title": "A linked-data proof added to a JWT credential is marshalled", "statement": "A proof added with AddLinkedDataProof to a JWT or CWT credential is part of its marshalled form.", "quantifier": "every credential", "why_tests_cant": "all credentials", "anchors": ["verifiable/linked_data_proof.go: addLinkedDataProof, mapContext", "verifiable/lddocument/signer.go: DocumentSigner.Sign", "verifiable/credential_ldp.go: AddLinkedDataProof", "verifiable/presentation_ldp.go: AddLinkedDataProof"]}
{"id": "C206", "title": "JWT headers of a proof creator", "statement": "CreateJWTHeaders writes exactly the algorithm and, when non-empty, the key id; a JWT signed by a creator and checked by a checker with the fitting registrations is accepted.", "quantifier": "every algorithm, key id, message, list of registrations", "why_tests_cant": "all configurations", "anchors": ["proof/creator/creator.go: CreateJWTHeaders, SignJWT", "proof/checker/checker.go: CheckJWTProof"]}
{"id": "C207", "title": "The shape of a BBS+ disclosure", "statement": "BBSSelectiveDisclosure returns the framed document with, as proof, an array with one derived proof for each BBS+ proof of the document, in their order; each derived proof carries the key id, purpose and creation time of its original, the nonce given and nothing else.", "quantifier": "every document, frame, nonce, creator and JSON-LD processor", "why_tests_cant": "all documents and frames", "anchors": ["verifiable/bbs_selective_disclosure.go: BBSSelectiveDisclosure, buildDocVerificationData, buildProofVerificationData, generateSignatureProof, getBlsProofs", "verifiable/credential_bbs.go: GenerateBBSSelectiveDisclosure", "proof/ldproofs/bbsblssignatureproof2020/proof.go: GetCanonicalDocument", "crypto-ext/verifiers/bbs/verifier.go"]}
{"id": "C208", "title": "A BBS+ disclosure reveals what the frame asks for", "statement": "The derivation reveals, in ascending order, all statements of the original proof's options and exactly the statements of the framed document, and no other statement of the credential.", "quantifier": "every document whose statements are distinct and frame whose statements are among the document's", "why_tests_cant": "all documents and frames", "anchors": ["verifiable/bbs_selective_disclosure.go: BBSSelectiveDisclosure, buildDocVerificationData, buildProofVerificationData, generateSignatureProof, getBlsProofs", "verifiable/credential_bbs.go: GenerateBBSSelectiveDisclosure", "proof/ldproofs/bbsblssignatureproof2020/proof.go: GetCanonicalDocument", "crypto-ext/verifiers/bbs/verifier.go"]}
{"id": "C209", "title": "A frame never reveals statements outside it", "statement": "A statement in the framed document that is not in the document is reported, and nothing outside the framed document is revealed.", "quantifier": "every document and frame", "why_tests_cant": "all documents and frames", "anchors": ["verifiable/bbs_selective_disclosure.go: BBSSelectiveDisclosure, buildDocVerificationData, buildProofVerificationData, generateSignatureProof, getBlsProofs", "verifiable/credential_bbs.go: GenerateBBSSelectiveDisclosure", "proof/ldproofs/bbsblssignatureproof2020/proof.go: GetCanonicalDocument", "crypto-ext/verifiers/bbs/verifier.go"]}
{"id": "C210", "title": "A derived BBS+ proof verifies", "statement": "For a document with a valid BBS+ proof, the proof derived for any frame is accepted by a proof checker set up for BBS+ derived proofs with the issuer's key.", "quantifier": "every document, frame, nonce, correct BBS+ scheme and canonicalisation", "why_tests_cant": "all documents and frames", "anchors": ["verifiable/bbs_selective_disclosure.go: BBSSelectiveDisclosure, buildDocVerificationData, buildProofVerificationData, generateSignatureProof, getBlsProofs", "verifiable/credential_bbs.go: GenerateBBSSelectiveDisclosure", "proof/ldproofs/bbsblssignatureproof2020/proof.go: GetCanonicalDocument", "crypto-ext/verifiers/bbs/verifier.go"]}
{"id": "C211", "title": "Derived proofs verify under keys published as JWK", "statement": "A derived proof verifies under the issuer's key whatever the form in which the key is published.", "quantifier": "every key", "why_tests_cant": "all keys", "anchors": ["verifiable/bbs_selective_disclosure.go: BBSSelectiveDisclosure, buildDocVerificationData, buildProofVerificationData, generateSignatureProof, getBlsProofs", "verifiable/credential_bbs.go: GenerateBBSSelectiveDisclosure", "proof/ldproofs/bbsblssignatureproof2020/proof.go: GetCanonicalDocument", "crypto-ext/verifiers/bbs/verifier.go"]}
{"id": "C212", "title": "No BBS+ proof, no disclosure", "statement": "A document without a BBS+ proof is refused; what was disclosed is not disclosed again.", "quantifier": "every document and frame", "why_tests_cant": "all documents", "anchors": ["verifiable/bbs_selective_disclosure.go: BBSSelectiveDisclosure, buildDocVerificationData, buildProofVerificationData, generateSignatureProof, getBlsProofs", "verifiable/credential_bbs.go: GenerateBBSSelectiveDisclosure", "proof/ldproofs/bbsblssignatureproof2020/proof.go: GetCanonicalDocument", "crypto-ext/verifiers/bbs/verifier.go"]}
{"id": "C213", "title": "BBS+ disclosure does not crash", "statement": "With a proof creator, BBSSelectiveDisclosure returns a document or an error for every document and frame.", "quantifier": "every document (of any JSON shape), frame and nonce", "why_tests_cant": "all documents", "anchors": ["verifiable/bbs_selective_disclosure.go: BBSSelectiveDisclosure, buildDocVerificationData, buildProofVerificationData, generateSignatureProof, getBlsProofs", "verifiable/credential_bbs.go: GenerateBBSSelectiveDisclosure", "proof/ldproofs/bbsblssignatureproof2020/proof.go: GetCanonicalDocument", "crypto-ext/verifiers/bbs/verifier.go"]}
{"id": "C214", "title": "A missing BBS+ proof creator is reported", "statement": "Disclosure without a proof creator returns an error.", "quantifier": "every document", "why_tests_cant": "all documents", "anchors": ["verifiable/bbs_selective_disclosure.go: BBSSelectiveDisclosure, buildDocVerificationData, buildProofVerificationData, generateSignatureProof, getBlsProofs", "verifiable/credential_bbs.go: GenerateBBSSelectiveDisclosure", "proof/ldproofs/bbsblssignatureproof2020/proof.go: GetCanonicalDocument", "crypto-ext/verifiers/bbs/verifier.go"]}
{"id": "C215", "title": "A disclosed credential is the parsed disclosure", "statement": "GenerateBBSSelectiveDisclosure succeeds only for a credential with proofs, and its result is the credential parsed from the disclosure of its JSON document, with the derived proofs as proofs.", "quantifier": "every credential, frame and nonce", "why_tests_cant": "all credentials", "anchors": ["verifiable/bbs_selective_disclosure.go: BBSSelectiveDisclosure, buildDocVerificationData, buildProofVerificationData, generateSignatureProof, getBlsProofs", "verifiable/credential_bbs.go: GenerateBBSSelectiveDisclosure", "proof/ldproofs/bbsblssignatureproof2020/proof.go: GetCanonicalDocument", "crypto-ext/verifiers/bbs/verifier.go"]}
{"id": "C216", "title": "A derived proof is checked with the options that were signed", "statement": "The proof options a verifier rebuilds from a derived proof are those of the original proof, which the issuer signed.", "quantifier": "every original proof", "why_tests_cant": "all proofs", "anchors": ["verifiable/bbs_selective_disclosure.go: BBSSelectiveDisclosure, buildDocVerificationData, buildProofVerificationData, generateSignatureProof, getBlsProofs", "verifiable/credential_bbs.go: GenerateBBSSelectiveDisclosure", "proof/ldproofs/bbsblssignatureproof2020/proof.go: GetCanonicalDocument", "crypto-ext/verifiers/bbs/verifier.go"]}
{"id": "C217", "title": "The bytes a CWT signature covers", "statement": "Parse accepts exactly the tagged COSE_Sign1 arrays of a protected header, an unprotected header, a payload and a non-empty signature, and GetProofValue of the message is the RFC 9052 Sig_structure of the protected header's content and the payload, with context Signature1 and no external data.", "quantifier": "every byte string", "why_tests_cant": "all byte strings", "anchors": ["verifiable/cwt/cbor.go: deterministicBinaryString", "verifiable/cwt/cwt.go: GetProofValue", "cwt/cwt.go: ParseAndCheckProof, Parse, CheckProof", "cwt/wrappers.go: Verify"]}
{"id": "C218", "title": "CWT signed bytes are unambiguous", "statement": "Two messages with the same to-be-signed bytes have the same protected header and the same payload (or both none).", "quantifier": "every pair of messages", "why_tests_cant": "all pairs of messages", "anchors": ["verifiable/cwt/cbor.go: deterministicBinaryString", "verifiable/cwt/cwt.go: GetProofValue", "cwt/cwt.go: ParseAndCheckProof, Parse, CheckProof", "cwt/wrappers.go: Verify"]}
{"id": "C219", "title": "The protected header is normalised", "statement": "Whatever form the length of the protected header's byte string has, the to-be-signed bytes contain its shortest form; a text is accepted there exactly when it is one byte string.", "quantifier": "every byte string", "why_tests_cant": "all byte strings", "anchors": ["verifiable/cwt/cbor.go: deterministicBinaryString", "verifiable/cwt/cwt.go: GetProofValue", "cwt/cwt.go: ParseAndCheckProof, Parse, CheckProof", "cwt/wrappers.go: Verify"]}
{"id": "C220", "title": "GetProofValue does not crash", "statement": "GetProofValue returns bytes or an error for every message, whatever bytes its raw protected header holds.", "quantifier": "every message", "why_tests_cant": "all messages", "anchors": ["verifiable/cwt/cbor.go: deterministicBinaryString", "verifiable/cwt/cwt.go: GetProofValue", "cwt/cwt.go: ParseAndCheckProof, Parse, CheckProof", "cwt/wrappers.go: Verify"]}
{"id": "C221", "title": "What ParseAndCheckProof accepts", "statement": "ParseAndCheckProof succeeds exactly for COSE_Sign1 messages with an algorithm and a COSE_Key text in the protected header and, when the issuer is to be checked, a text issuer claim, for which the checker accepts the Sig_structure and the signature with the header's key id, key material and algorithm, and with that issuer (or the DID of the key id); it returns the message and its payload.", "quantifier": "every byte string, checker and setting", "why_tests_cant": "all byte strings", "anchors": ["verifiable/cwt/cbor.go: deterministicBinaryString", "verifiable/cwt/cwt.go: GetProofValue", "cwt/cwt.go: ParseAndCheckProof, Parse, CheckProof", "cwt/wrappers.go: Verify"]}
{"id": "C222", "title": "Only signed content matters to a CWT check", "statement": "Two messages with the same to-be-signed bytes and signature get the same verdict and payload from ParseAndCheckProof.", "quantifier": "every pair of messages, checker and setting", "why_tests_cant": "all pairs of messages", "anchors": ["verifiable/cwt/cbor.go: deterministicBinaryString", "verifiable/cwt/cwt.go: GetProofValue", "cwt/cwt.go: ParseAndCheckProof, Parse, CheckProof", "cwt/wrappers.go: Verify"]}
{"id": "C223", "title": "A checked CWT is signed by a key of its issuer", "statement": "With the default checker, a DID resolver and the issuer check, an accepted message with a non-empty issuer claim is signed by a key of that issuer's DID document, found under the header's key id, fitting the algorithm.", "quantifier": "every byte string and DID resolver", "why_tests_cant": "all byte strings", "anchors": ["verifiable/cwt/cbor.go: deterministicBinaryString", "verifiable/cwt/cwt.go: GetProofValue", "cwt/cwt.go: ParseAndCheckProof, Parse, CheckProof", "cwt/wrappers.go: Verify"]}
{"id": "C224", "title": "The issuer check binds the key to the issuer claim", "statement": "With the issuer check, the key that verified belongs to the issuer claim of the message, whatever that claim is.", "quantifier": "every byte string", "why_tests_cant": "all byte strings", "anchors": ["verifiable/cwt/cbor.go: deterministicBinaryString", "verifiable/cwt/cwt.go: GetProofValue", "cwt/cwt.go: ParseAndCheckProof, Parse, CheckProof", "cwt/wrappers.go: Verify"]}
{"id": "C225", "title": "marshalCOSE then Parse", "statement": "marshalCOSE signs the Sig_structure of its header and payload, and Parse of its bytes gives the same payload, algorithm, key id, signature and to-be-signed bytes.", "quantifier": "every payload, algorithm, key id and signer", "why_tests_cant": "all payloads", "anchors": ["verifiable/cose.go: marshalCOSE", "verifiable/credential.go: CreateSignedCOSEVC", "verifiable/credential_parser.go: CredentialCBORParser.Parse", "verifiable/cwt/cbor.go: deterministicBinaryString", "verifiable/cwt/cwt.go: GetProofValue", "cwt/cwt.go: ParseAndCheckProof, Parse, CheckProof", "cwt/wrappers.go: Verify"]}
{"id": "C226", "title": "ParseAndCheckProof verifies what the library signs", "statement": "A message made by marshalCOSE is accepted by cwt.ParseAndCheckProof with a checker that accepts its signature.", "quantifier": "every payload and signer", "why_tests_cant": "all payloads", "anchors": ["verifiable/cose.go: marshalCOSE", "verifiable/credential.go: CreateSignedCOSEVC", "verifiable/credential_parser.go: CredentialCBORParser.Parse", "verifiable/cwt/cbor.go: deterministicBinaryString", "verifiable/cwt/cwt.go: GetProofValue", "cwt/cwt.go: ParseAndCheckProof, Parse, CheckProof", "cwt/wrappers.go: Verify"]}
{"id": "C227", "title": "A CWT credential survives down to the bytes", "statement": "Parsing the hex text of a credential signed with CreateSignedCOSEVC gives the same JSON object, contents and envelope, for credentials whose values survive CBOR.", "quantifier": "every credential with UTF-8 texts, float64 numbers and at most 31 levels", "why_tests_cant": "all credentials", "anchors": ["verifiable/cose.go: marshalCOSE", "verifiable/credential.go: CreateSignedCOSEVC", "verifiable/credential_parser.go: CredentialCBORParser.Parse"]}
{"id": "C228", "title": "Every signed CWT credential can be parsed", "statement": "What CreateSignedCOSEVC returns for a credential, ParseCredential reads.", "quantifier": "every credential, of any depth", "why_tests_cant": "all credentials", "anchors": ["verifiable/cose.go: marshalCOSE", "verifiable/credential.go: CreateSignedCOSEVC", "verifiable/credential_parser.go: CredentialCBORParser.Parse"]}
{"id": "C229", "title": "CWT and JWT signatures are not interchangeable", "statement": "The to-be-signed bytes of a CWT are never the signing input of a compact JWS.", "quantifier": "every header and payload on either side", "why_tests_cant": "all headers and payloads", "anchors": ["verifiable/cwt/cbor.go: deterministicBinaryString", "verifiable/cwt/cwt.go: GetProofValue", "cwt/cwt.go: ParseAndCheckProof, Parse, CheckProof", "cwt/wrappers.go: Verify"]}
{"id": "C230", "title": "Converting CBOR maps is independent of map order", "statement": "The JSON object made from a decoded CBOR map does not depend on the order in which the map is visited, and has one member per entry, when the key texts are distinct.", "quantifier": "every decoded map and visiting order", "why_tests_cant": "all maps and orders", "anchors": ["verifiable/credential_parser.go: convertToStringMap, convertElement"]}
{"id": "C231", "title": "Converting CBOR maps gives one result", "statement": "The JSON object made from a decoded CBOR map does not depend on the order in which the map is visited.", "quantifier": "every decoded map and visiting order", "why_tests_cant": "all maps and orders", "anchors": ["verifiable/credential_parser.go: convertToStringMap, convertElement"]}
{"id": "C232", "title": "An accepted CWT has one byte form", "statement": "Of the byte strings with a given signed content and signature, at most one is accepted.", "quantifier": "every accepted message", "why_tests_cant": "all messages", "anchors": ["verifiable/cwt/cbor.go: deterministicBinaryString", "verifiable/cwt/cwt.go: GetProofValue", "cwt/cwt.go: ParseAndCheckProof, Parse, CheckProof", "cwt/wrappers.go: Verify"]}
{"id": "C233", "title": "A CWT presentation survives down to the bytes", "statement": "Parsing the token text of a presentation signed as CWT (bare, quoted or enveloped) gives the same presentation, for claims that survive CBOR.", "quantifier": "every presentation with UTF-8 texts, float64 numbers and at most 31 levels", "why_tests_cant": "all presentations", "anchors": ["verifiable/presentation.go: CreateCWTVP", "verifiable/cose.go: marshalCOSE"]}
{"id": "C234", "title": "A limited credential says what was asked for and nothing else", "statement": "When limit_disclosure is required, the credential that CreateVP puts in place of one that is neither SD-JWT nor BBS+ signed contains only the members id, type, @context, issuer and issuanceDate, the ids of the subjects, and the values (or, for predicates, the value true) at the paths that were asked for, arrays compacted to the mentioned elements; and when no array is entered by two fields and no requested value contains another, it contains all of them.", "quantifier": "every credential, constraints and evaluation of the paths to plain member names", "why_tests_cant": "all credentials and constraints", "anchors": ["presexch/definition.go: limitDisclosure, createNewCredential, copyOnlySubjectIDs, compactArrayPaths", "util/json/json.go: Select"]}
{"id": "C235", "title": "Members nobody asked for", "statement": "Of the members no requested path starts with, a limited credential has exactly the five kept ones (null when the original has none); in particular expiry, status, and proof are gone.", "quantifier": "every credential, constraints and member name", "why_tests_cant": "all credentials", "anchors": ["presexch/definition.go: limitDisclosure, createNewCredential, copyOnlySubjectIDs, compactArrayPaths", "util/json/json.go: Select"]}
{"id": "C236", "title": "Which credentials are limited", "statement": "Without constraints, or with neither limits nor predicates, a credential is handed over unchanged; with required limits and no predicate it is left out exactly when it is not an SD-JWT, has no BBS+ proof and is not issued by one of its subjects; at most one credential results from one.", "quantifier": "every credential and constraints", "why_tests_cant": "all credentials and constraints", "anchors": ["presexch/definition.go: limitDisclosure, createNewCredential, copyOnlySubjectIDs, compactArrayPaths", "util/json/json.go: Select"]}
{"id": "C237", "title": "The limited document exists", "statement": "When the requested paths are plain, separate, present in the credential and do not enter an array of the template by name, building the limited document does not fail.", "quantifier": "every credential and set of fields", "why_tests_cant": "all credentials and fields", "anchors": ["presexch/definition.go: limitDisclosure, createNewCredential, copyOnlySubjectIDs, compactArrayPaths", "util/json/json.go: Select"]}
{"id": "C238", "title": "The frame of a BBS+ derivation", "statement": "For requests of members inside objects, the frame given to the BBS+ derivation consists of exactly: the template, the requested values, the mark @explicit at the root and at every ancestor of a requested value, and the types and contexts of those ancestors - whatever the iteration order of Go's maps.", "quantifier": "every credential, set of fields and map iteration order", "why_tests_cant": "all credentials and iteration orders", "anchors": ["presexch/definition.go: createNewCredential, enhanceRevealDoc, enhanceRevealField"]}
{"id": "C239", "title": "Predicates without limits", "statement": "When only predicates are required, the resulting credential has the value true at the requested places and everything nobody asked for unchanged.", "quantifier": "every credential and set of fields", "why_tests_cant": "all credentials and fields", "anchors": ["presexch/definition.go: limitDisclosure, createNewCredential, copyOnlySubjectIDs, compactArrayPaths", "util/json/json.go: Select"]}
{"id": "C240", "title": "Claims stay with their subject", "statement": "In a limited credential with several subjects, every claim next to a subject id was made about that subject.", "quantifier": "every credential with several subjects", "why_tests_cant": "all credentials", "anchors": ["presexch/definition.go: limitDisclosure, createNewCredential, copyOnlySubjectIDs, compactArrayPaths", "util/json/json.go: Select"]}
{"id": "C241", "title": "Fields selecting from one array are all answered", "statement": "Two fields that select different elements of one array both find their values in the limited credential.", "quantifier": "every credential and set of fields", "why_tests_cant": "all credentials and fields", "anchors": ["presexch/definition.go: limitDisclosure, createNewCredential, copyOnlySubjectIDs, compactArrayPaths", "util/json/json.go: Select"]}
{"id": "C242", "title": "The value a predicate is about is not handed over", "statement": "After a predicate, the original value is not at its place any more.", "quantifier": "every credential and predicate", "why_tests_cant": "all credentials and predicates", "anchors": ["presexch/definition.go: limitDisclosure, createNewCredential, copyOnlySubjectIDs, compactArrayPaths", "util/json/json.go: Select"]}
{"id": "C243", "title": "Members with dotted names can be asked for", "statement": "A value whose path has a member name with dots is in the limited credential.", "quantifier": "every credential and path", "why_tests_cant": "all credentials and paths", "anchors": ["presexch/definition.go: limitDisclosure, createNewCredential, copyOnlySubjectIDs, compactArrayPaths", "util/json/json.go: Select"]}
{"id": "C244", "title": "Only the first alternative path is disclosed", "statement": "Of several paths of a field, only the first that has a value is disclosed.", "quantifier": "every credential and field", "why_tests_cant": "all credentials and fields", "anchors": ["presexch/definition.go: limitDisclosure, createNewCredential, copyOnlySubjectIDs, compactArrayPaths", "util/json/json.go: Select"]}
{"id": "C245", "title": "Only credential schemas are withheld", "statement": "Every requested value that is not below a member called credentialSchema is in the limited credential.", "quantifier": "every credential and path", "why_tests_cant": "all credentials and paths", "anchors": ["presexch/definition.go: limitDisclosure, createNewCredential, copyOnlySubjectIDs, compactArrayPaths", "util/json/json.go: Select"]}
{"id": "C246", "title": "BBS+ credentials can be limited to array elements", "statement": "Limiting a BBS+ signed credential to values inside arrays succeeds whenever the derivation does.", "quantifier": "every BBS+ signed credential and set of fields", "why_tests_cant": "all credentials and fields", "anchors": ["presexch/definition.go: createNewCredential, enhanceRevealDoc, enhanceRevealField"]}
{"id": "C247", "title": "The frame has members of the credential", "statement": "Every member of the frame of a BBS+ derivation is @explicit or a member of the credential.", "quantifier": "every BBS+ signed credential and set of fields", "why_tests_cant": "all credentials and fields", "anchors": ["presexch/definition.go: createNewCredential, enhanceRevealDoc, enhanceRevealField"]}
{"id": "C248", "title": "No stale proofs", "statement": "A credential whose claims were replaced by predicates does not carry the proofs of the original.", "quantifier": "every credential and constraints", "why_tests_cant": "all credentials", "anchors": ["presexch/definition.go: limitDisclosure, createNewCredential, copyOnlySubjectIDs, compactArrayPaths", "util/json/json.go: Select"]}
{"id": "C249", "title": "MatchSubmissionRequirement lists exactly the matching credentials", "statement": "Without selective disclosure, the answer has the shape of the definition's submission requirements (names, purposes, rules, bounds, groups, nesting), and for every input descriptor it lists exactly those credentials of the wallet, in order, that have the first applicable claim format the wallet has, offer the schemas and satisfy the constraints; the wallet is unchanged.", "quantifier": "every definition (constraints with fields, filters with types), wallet, document loader and JSON path evaluator", "why_tests_cant": "all definitions and wallets", "anchors": ["presexch/definition.go: MatchSubmissionRequirement, makeRequirementsForMatch, matchRequirement, filterCredentialsThatMatchDescriptor"]}
{"id": "C250", "title": "When MatchSubmissionRequirement fails", "statement": "It fails only for an invalid definition, a requirement naming a group no descriptor has, a credential with a context that cannot be loaded (when a descriptor lists schemas) or a field all of whose paths are malformed; it never panics.", "quantifier": "every definition and wallet", "why_tests_cant": "all definitions and wallets", "anchors": ["presexch/definition.go: MatchSubmissionRequirement, makeRequirementsForMatch, matchRequirement, filterCredentialsThatMatchDescriptor"]}
{"id": "C251", "title": "With selective disclosure the limited credentials are listed", "statement": "With selective disclosure, and no SD-JWT credential asked for with limited disclosure, every descriptor lists what framing, matching and limiting make of the wallet's credentials, in order; the wallet's credentials are unchanged.", "quantifier": "every definition, wallet, framing and limiting", "why_tests_cant": "all definitions and wallets", "anchors": ["presexch/definition.go: MatchSubmissionRequirement, makeRequirementsForMatch, matchRequirement, filterCredentialsThatMatchDescriptor", "presexch/definition.go: frameCreds, limitDisclosure"]}
{"id": "C252", "title": "MatchSubmissionRequirement foretells CreateVP", "statement": "CreateVP's search succeeds exactly when some set of listed descriptors with non-empty lists meets the submission requirements; it then submits only credentials listed for the descriptors of such a set, the descriptor map names exactly that set, and (identifiers being distinct) every listed credential of the set is present at the place the map says.", "quantifier": "every definition with distinct descriptor ids, and every wallet", "why_tests_cant": "all definitions and wallets", "anchors": ["presexch/definition.go: MatchSubmissionRequirement, makeRequirementsForMatch, matchRequirement, filterCredentialsThatMatchDescriptor", "presexch/definition.go: CreateVP, CreateVPArray, presentationData, presentation, getBaseContext, applyRequirement"]}
{"id": "C253", "title": "Every listed credential can be submitted", "statement": "A credential that MatchSubmissionRequirement lists for a descriptor can be submitted for it by CreateVP.", "quantifier": "every definition and wallet", "why_tests_cant": "all definitions and wallets", "anchors": ["presexch/definition.go: MatchSubmissionRequirement, makeRequirementsForMatch, matchRequirement, filterCredentialsThatMatchDescriptor", "presexch/definition.go: CreateVP, CreateVPArray, presentationData, presentation, getBaseContext, applyRequirement"]}
{"id": "C254", "title": "A bigger wallet matches at least as much", "statement": "Adding a credential to the wallet does not take matches away.", "quantifier": "every definition, wallet and credential", "why_tests_cant": "all wallets", "anchors": ["presexch/definition.go: MatchSubmissionRequirement, makeRequirementsForMatch, matchRequirement, filterCredentialsThatMatchDescriptor", "presexch/definition.go: filterFormat"]}
{"id": "C255", "title": "Without formats credentials match one by one", "statement": "When neither descriptor nor definition names a claim format, whether a credential matches depends on that credential and the descriptor only; adding credentials to the wallet adds matches and takes none away.", "quantifier": "every definition without formats, and all wallets", "why_tests_cant": "all wallets", "anchors": ["presexch/definition.go: MatchSubmissionRequirement, makeRequirementsForMatch, matchRequirement, filterCredentialsThatMatchDescriptor"]}
{"id": "C256", "title": "A credential that does not match does no harm", "statement": "Other credentials in the wallet do not make matching fail.", "quantifier": "every definition and wallet", "why_tests_cant": "all wallets", "anchors": ["presexch/definition.go: MatchSubmissionRequirement, makeRequirementsForMatch, matchRequirement, filterCredentialsThatMatchDescriptor", "presexch/definition.go: filterSchema, getContext"]}
{"id": "C257", "title": "A query leaves the wallet as it is", "statement": "MatchSubmissionRequirement does not change the credentials of the wallet.", "quantifier": "every definition and wallet", "why_tests_cant": "all wallets", "anchors": ["presexch/definition.go: MatchSubmissionRequirement, makeRequirementsForMatch, matchRequirement, filterCredentialsThatMatchDescriptor", "presexch/definition.go: limitDisclosure"]}
{"id": "C258", "title": "What a definition asks for is enforced", "statement": "is_holder constraints of a descriptor restrict the matching credentials.", "quantifier": "every definition", "why_tests_cant": "all definitions", "anchors": ["presexch/definition.go: MatchSubmissionRequirement, makeRequirementsForMatch, matchRequirement, filterCredentialsThatMatchDescriptor", "presexch/definition.go: filterConstraints, Holder"]}
{"id": "C259", "title": "An empty schema list is no restriction", "statement": "A descriptor with an empty list of schemas matches like one without schemas.", "quantifier": "every definition", "why_tests_cant": "all definitions", "anchors": ["presexch/definition.go: MatchSubmissionRequirement, makeRequirementsForMatch, matchRequirement, filterCredentialsThatMatchDescriptor", "presexch/definition.go: filterSchema"]}
{"id": "C260", "title": "The presentations CreateVP and CreateVPArray make", "statement": "They succeed exactly when the search does and all selected credentials (of one presentation) start with the same base context, v1 or v2; the presentation has that context followed by the presentation submission context, the types VerifiablePresentation and PresentationSubmission, the selected credentials in order, and (CreateVP) the submission with the definition's id and the descriptor map; CreateVPArray makes one presentation per credential.", "quantifier": "every definition and wallet", "why_tests_cant": "all definitions and wallets", "anchors": ["presexch/definition.go: CreateVP, CreateVPArray, presentationData, presentation, getBaseContext, applyRequirement"]}
{"id": "C261", "title": "CreateVP succeeds whenever the wallet satisfies the definition", "statement": "When the search finds credentials, CreateVP makes a presentation of them.", "quantifier": "every definition and wallet", "why_tests_cant": "all definitions and wallets", "anchors": ["presexch/definition.go: CreateVP, CreateVPArray, presentationData, presentation, getBaseContext, applyRequirement"]}
{"id": "C262", "title": "The 1.1 credential schema says what it should", "statement": "JSONSchemaLoaderV1 accepts exactly the objects with a context list that starts with the 1.1 context (or is empty) and has no repetitions, a type that is or contains VerifiableCredential, issuer a URI or an object with a URI id, date-times, typed identifiers and proofs of the described shape; WithDisableRequiredField removes exactly the named fields from type, credentialSubject, issuer, issuanceDate; @context stays required.", "quantifier": "every JSON object, list of disabled fields, URI, date-time and pattern checker", "why_tests_cant": "all JSON objects", "anchors": ["verifiable/credential.go: SchemaTemplateV1, SchemaTemplateV2, JSONSchemaLoaderV1, JSONSchemaLoaderV2, WithDisableRequiredField, validateCredentialUsingJSONSchema"]}
{"id": "C263", "title": "The 2.0 credential schema says what it should", "statement": "JSONSchemaLoaderV2 accepts exactly the objects with a context list that contains the 2.0 context, a type that is or contains VerifiableCredential, non-empty subjects, issuer a text or an object with an id, dates of the pattern, typed statuses, schemas, services, terms, evidence and proofs of the described shape; the required fields are type, credentialSubject, issuer minus the disabled ones.", "quantifier": "every JSON object, list of disabled fields, URI, date-time and pattern checker", "why_tests_cant": "all JSON objects", "anchors": ["verifiable/credential.go: SchemaTemplateV1, SchemaTemplateV2, JSONSchemaLoaderV1, JSONSchemaLoaderV2, WithDisableRequiredField, validateCredentialUsingJSONSchema"]}
{"id": "C264", "title": "The presentation schemas say what they should", "statement": "The 1.1 and 2.0 presentation schemas accept exactly the objects of the shapes of their data models.", "quantifier": "every JSON object and checkers", "why_tests_cant": "all JSON objects", "anchors": ["verifiable/presentation.go: v1BasePresentationSchema, v2BasePresentationSchema, validateVPJSONSchema"]}
{"id": "C265", "title": "Accepted credentials have the shape of their data model", "statement": "A credential that ParseCredential accepts as JSON with schema validation and without a custom schema is an object of the 2.0 shape if the 2.0 context comes first, and of the 1.1 shape otherwise.", "quantifier": "every document, options and environment", "why_tests_cant": "all documents", "anchors": ["verifiable/credential.go: SchemaTemplateV1, SchemaTemplateV2, JSONSchemaLoaderV1, JSONSchemaLoaderV2, WithDisableRequiredField, validateCredentialUsingJSONSchema", "verifiable/credential.go: ParseCredential, getSchemaLoader"]}
{"id": "C266", "title": "Accepted presentations have the shape of their data model", "statement": "A presentation that ParsePresentation accepts, as JSON, JWT or CWT, is an object whose first context is the 1.1 or 2.0 one, and has the shape of that data model.", "quantifier": "every document, options and environment", "why_tests_cant": "all documents", "anchors": ["verifiable/presentation.go: v1BasePresentationSchema, v2BasePresentationSchema, validateVPJSONSchema", "verifiable/presentation.go: ParsePresentation"]}
{"id": "C267", "title": "Created 1.1 credentials pass the default schema", "statement": "A credential made with CreateCredential or CreateCredentialWithProofs from contents with the 1.1 context first, distinct contexts, the base type, a subject, a URI issuer, an issuance date, at most one status and typed identifiers with URIs passes the default 1.1 schema.", "quantifier": "all contents, extra members and proofs", "why_tests_cant": "all contents", "anchors": ["verifiable/credential.go: SchemaTemplateV1, SchemaTemplateV2, JSONSchemaLoaderV1, JSONSchemaLoaderV2, WithDisableRequiredField, validateCredentialUsingJSONSchema", "verifiable/credential.go: CreateCredential, CreateCredentialWithProofs, serializeCredentialContents"]}
{"id": "C268", "title": "Created 2.0 credentials pass the default schema", "statement": "A credential made from contents with the 2.0 context first, the base type, non-empty subjects, an issuer and dates of the pattern passes the default 2.0 schema.", "quantifier": "all contents, extra members and proofs", "why_tests_cant": "all contents", "anchors": ["verifiable/credential.go: SchemaTemplateV1, SchemaTemplateV2, JSONSchemaLoaderV1, JSONSchemaLoaderV2, WithDisableRequiredField, validateCredentialUsingJSONSchema", "verifiable/credential.go: CreateCredential, CreateCredentialWithProofs, serializeCredentialContents"]}
{"id": "C269", "title": "A 1.1 credential may have several statuses", "statement": "A 1.1 credential made from contents with several statuses passes the default schema.", "quantifier": "all contents", "why_tests_cant": "all contents", "anchors": ["verifiable/credential.go: SchemaTemplateV1, SchemaTemplateV2, JSONSchemaLoaderV1, JSONSchemaLoaderV2, WithDisableRequiredField, validateCredentialUsingJSONSchema"]}
{"id": "C270", "title": "An accepted credential names the base context", "statement": "With validation on, an accepted JSON credential has the base context.", "quantifier": "every document and validation mode", "why_tests_cant": "all documents", "anchors": ["verifiable/credential.go: SchemaTemplateV1, SchemaTemplateV2, JSONSchemaLoaderV1, JSONSchemaLoaderV2, WithDisableRequiredField, validateCredentialUsingJSONSchema", "verifiable/credential.go: validateBaseContextWithExtendedValidation"]}
{"id": "C271", "title": "Every proof of an accepted 1.1 presentation is a proof", "statement": "All proofs of a 1.1 presentation have a type.", "quantifier": "every presentation", "why_tests_cant": "all presentations", "anchors": ["verifiable/presentation.go: v1BasePresentationSchema, v2BasePresentationSchema, validateVPJSONSchema"]}
{"id": "C272", "title": "ValidateSchema accepts exactly the definitions of the two versions", "statement": "ValidateSchema returns nil exactly for definitions of the shape of Presentation Exchange 1.0 or of 2.0: an id, at least one descriptor with an id, no nil pointers, fields with paths, predicates required or preferred and with a filter, directives required or preferred, submission requirements that at every depth have rule all or pick, no negative bounds and either a group or nested requirements, no CBOR formats, no locale; 1.0: schemas with URIs in every descriptor, typed filters, non-empty format lists, no frame, descriptor formats, optional fields; 2.0: no schemas, filters that are JSON schemas. A nil definition is refused; there is no panic.", "quantifier": "every presentation definition (any numbers and nesting), any regular expression matcher, format checkers and meta-schema", "why_tests_cant": "all definitions, with requirements nested to any depth", "anchors": ["presexch/definition.go: ValidateSchema, PresentationDefinition, InputDescriptor, Constraints, Field, Filter, Format, SubmissionRequirement", "presexch/schema.go: DefinitionJSONSchemaV1, DefinitionJSONSchemaV2"]}
{"id": "C273", "title": "An accepted definition can be matched", "statement": "A definition that ValidateSchema accepts can be read by MatchSubmissionRequirement and CreateVP without meeting a nil pointer; it has descriptors, its fields have paths, its submission requirements are well formed at every depth, it has no CBOR formats, and its descriptors all have schemas (then filters have types) or none has.", "quantifier": "every accepted definition", "why_tests_cant": "all definitions", "anchors": ["presexch/definition.go: ValidateSchema, PresentationDefinition, InputDescriptor, Constraints, Field, Filter, Format, SubmissionRequirement", "presexch/schema.go: DefinitionJSONSchemaV1, DefinitionJSONSchemaV2", "presexch/definition.go: MatchSubmissionRequirement, CreateVP"]}
{"id": "C274", "title": "Everything the definition types express can be asked for", "statement": "cwt_vc and cwt_vp formats, locale, descriptor metadata and optional predicate fields can be used in a definition.", "quantifier": "every definition with one of these", "why_tests_cant": "all definitions", "anchors": ["presexch/definition.go: ValidateSchema, PresentationDefinition, InputDescriptor, Constraints, Field, Filter, Format, SubmissionRequirement", "presexch/schema.go: DefinitionJSONSchemaV1, DefinitionJSONSchemaV2"]}
{"id": "C275", "title": "Features of definitions can be combined", "statement": "A definition with schemas can also have a frame, descriptors with formats or without schemas, optional fields or intent_to_retain.", "quantifier": "every definition with schemas", "why_tests_cant": "all definitions", "anchors": ["presexch/definition.go: ValidateSchema, PresentationDefinition, InputDescriptor, Constraints, Field, Filter, Format, SubmissionRequirement", "presexch/schema.go: DefinitionJSONSchemaV1, DefinitionJSONSchemaV2"]}
{"id": "C276", "title": "Accepted definitions are consistent", "statement": "A definition that ValidateSchema accepts has descriptors with different ids, groups that exist and bounds that can be met.", "quantifier": "every accepted definition", "why_tests_cant": "all definitions", "anchors": ["presexch/definition.go: ValidateSchema, PresentationDefinition, InputDescriptor, Constraints, Field, Filter, Format, SubmissionRequirement", "presexch/schema.go: DefinitionJSONSchemaV1, DefinitionJSONSchemaV2"]}
{"id": "C277", "title": "Custom schemas come from the cache or the server", "statement": "A sequence of custom-schema requests on one loader is answered by the remembered schema of the address while that is good (in whole seconds), without asking the server; otherwise by what the server delivers with status 200, which is then remembered; failures are reported and not remembered; nothing panics. Without a cache the server is asked every time.", "quantifier": "every sequence of requests, addresses, times (also running backwards), lifetimes and server answers whose expiry fits 64 bits", "why_tests_cant": "all histories and clocks", "anchors": ["verifiable/credential.go: ExpirableSchemaCache.Put, ExpirableSchemaCache.Get, CredentialSchemaLoader, getJSONSchema, loadJSONSchema"]}
{"id": "C278", "title": "A cached schema is reused within its lifetime, and only what was delivered is", "statement": "After a schema was loaded, all requests for its address within the lifetime get it without asking the server, whatever else is requested; and a schema returned without asking was delivered with status 200 to an earlier request for the same address less than the lifetime and a second ago.", "quantifier": "every sequence of requests, times, lifetimes and answers", "why_tests_cant": "all histories and clocks", "anchors": ["verifiable/credential.go: ExpirableSchemaCache.Put, ExpirableSchemaCache.Get, CredentialSchemaLoader, getJSONSchema, loadJSONSchema"]}
{"id": "C279", "title": "Concurrent requests get schemas of their own address", "statement": "When any number of requests interleave on one loader, with the cache forgetting or declining entries and the clock jumping, no request panics, a returned schema was delivered with status 200 for that address, and one from the cache was stored under that address and still good.", "quantifier": "every number of requests, interleaving, clock and server behaviour", "why_tests_cant": "all schedules", "anchors": ["verifiable/credential.go: ExpirableSchemaCache.Put, ExpirableSchemaCache.Get, CredentialSchemaLoader, getJSONSchema, loadJSONSchema"]}
{"id": "C280", "title": "A cached schema is not served after its lifetime", "statement": "A schema is served from the cache at most for the configured expiration.", "quantifier": "every history", "why_tests_cant": "all histories and clocks", "anchors": ["verifiable/credential.go: ExpirableSchemaCache.Put, ExpirableSchemaCache.Get, CredentialSchemaLoader, getJSONSchema, loadJSONSchema"]}
{"id": "C281", "title": "Descriptor maps survive their JSON form", "statement": "A presentation submission put into a presentation, or given to Match as a map, in its JSON form is read back with exactly its descriptor map: identifiers, formats, paths and nested mappings.", "quantifier": "every submission, with mappings nested to any depth", "why_tests_cant": "all descriptor maps and nesting depths", "anchors": ["presexch/api.go: Match, WithMergedSubmission, WithMergedSubmissionMap, selectVC, getMatchedCreds, parseDescriptorMap, getDescriptorMapping, getTypelessVP, checkJSONLDContextType"]}
{"id": "C282", "title": "Match takes the value a mapping's paths lead to", "statement": "For a mapping whose paths are $ followed by member names and indices, the selected value is the one each path leads to, starting from the value of the path before it; a path that starts with a member name and leads nowhere is tried once more inside the member vp; otherwise there is an error, never a panic.", "quantifier": "every plain mapping (any number of steps and nesting) and every document", "why_tests_cant": "all paths and documents", "anchors": ["presexch/api.go: Match, WithMergedSubmission, WithMergedSubmissionMap, selectVC, getMatchedCreds, parseDescriptorMap, getDescriptorMapping, getTypelessVP, checkJSONLDContextType"]}
{"id": "C283", "title": "A presentation that carries the credentials is matched", "statement": "The descriptor map made for a table of matches, sent with a presentation that carries the credentials as JSON or in the claims of a JWT or CWT (or with one presentation for each credential and a merged submission as a value or a map) is accepted by Match and yields exactly the table; with several presentations every credential comes from its own.", "quantifier": "every table of matches, order of the descriptor map, carrier format and number of credentials", "why_tests_cant": "all tables, orders and formats", "anchors": ["presexch/api.go: Match, WithMergedSubmission, WithMergedSubmissionMap, selectVC, getMatchedCreds, parseDescriptorMap, getDescriptorMapping, getTypelessVP, checkJSONLDContextType"]}
{"id": "C284", "title": "What CreateVP makes, Match accepts", "statement": "For a definition in which nothing has to be limited or framed, with credentials told apart by their ids, the presentation of CreateVP (or the array and submission of CreateVPArray), sent as JSON, JWT or CWT, is accepted by Match for that definition once every descriptor is answered (always without submission requirements); every descriptor gets a credential and every credential was submitted, from the wallet.", "quantifier": "every such definition, wallet and format", "why_tests_cant": "all definitions and wallets", "anchors": ["presexch/api.go: Match, WithMergedSubmission, WithMergedSubmissionMap, selectVC, getMatchedCreds, parseDescriptorMap, getDescriptorMapping, getTypelessVP, checkJSONLDContextType", "presexch/definition.go: CreateVP, CreateVPArray"]}
{"id": "C285", "title": "The credential of a mapping is the one its path names", "statement": "The credential that Match takes for a mapping is the one its path names in the presentation.", "quantifier": "every mapping and presentation", "why_tests_cant": "all documents", "anchors": ["presexch/api.go: Match, WithMergedSubmission, WithMergedSubmissionMap, selectVC, getMatchedCreds, parseDescriptorMap, getDescriptorMapping, getTypelessVP, checkJSONLDContextType"]}
{"id": "C286", "title": "The last option about a thing counts, and nothing else about the order", "statement": "Two lists of options that for every setting have the same last option about it parse every credential, presentation and DID document alike; neighbouring options about different things can change places.", "quantifier": "every list of options, environment and text", "why_tests_cant": "all option lists, of any length and order", "anchors": ["verifiable/credential.go: WithDisabledProofCheck, WithProofChecker, WithJWTProofChecker, WithLDProofChecker, WithCWTProofChecker, WithBaseContextValidation, WithBaseContextExtendedValidation, WithDataIntegrityVerifier, WithExpectedDataIntegrityFields, WithCredentialSchemaLoader, getCredentialOpts, ParseCredential, ParseCredentialJSON", "verifiable/presentation.go: WithPresProofChecker, WithPresDisabledProofCheck, WithPresHolderCheck, getPresentationOpts, ParsePresentation", "verifiable/did_ldp.go: WithDIDProofChecker, VerifyDIDProof"]}
{"id": "C287", "title": "Turning a check off never makes a credential refused", "statement": "A credential accepted without WithDisabledProofCheck, WithDisabledRelatedResourceCheck or WithCredDisableValidation is accepted with it anywhere in the list, as the same credential but for contexts added by WithExternalJSONLDContext.", "quantifier": "every list of options, position and text", "why_tests_cant": "all option lists", "anchors": ["verifiable/credential.go: WithDisabledProofCheck, WithProofChecker, WithJWTProofChecker, WithLDProofChecker, WithCWTProofChecker, WithBaseContextValidation, WithBaseContextExtendedValidation, WithDataIntegrityVerifier, WithExpectedDataIntegrityFields, WithCredentialSchemaLoader, getCredentialOpts, ParseCredential, ParseCredentialJSON", "verifiable/presentation.go: WithPresProofChecker, WithPresDisabledProofCheck, WithPresHolderCheck, getPresentationOpts, ParsePresentation", "verifiable/did_ldp.go: WithDIDProofChecker, VerifyDIDProof"]}
{"id": "C288", "title": "Turning a check off never makes a presentation refused", "statement": "A presentation accepted without WithPresDisabledProofCheck, WithDisabledJSONLDChecks, WithPresHolderCheck(false) or WithPresRelatedResourceCheck(false) is accepted with it, as the same presentation (texts of one kind).", "quantifier": "every list of options, position and text", "why_tests_cant": "all option lists", "anchors": ["verifiable/credential.go: WithDisabledProofCheck, WithProofChecker, WithJWTProofChecker, WithLDProofChecker, WithCWTProofChecker, WithBaseContextValidation, WithBaseContextExtendedValidation, WithDataIntegrityVerifier, WithExpectedDataIntegrityFields, WithCredentialSchemaLoader, getCredentialOpts, ParseCredential, ParseCredentialJSON", "verifiable/presentation.go: WithPresProofChecker, WithPresDisabledProofCheck, WithPresHolderCheck, getPresentationOpts, ParsePresentation", "verifiable/did_ldp.go: WithDIDProofChecker, VerifyDIDProof"]}
{"id": "C289", "title": "The checker that is used is the last one given", "statement": "Unless proof checks are turned off, an accepted credential has an issuer, and its proof was accepted for that issuer by the checker that the last option for its kind of proof gives, with the purpose, domain and challenge of the last WithExpectedDataIntegrityFields; without such an option nothing is accepted.", "quantifier": "every list of options and text", "why_tests_cant": "all option lists", "anchors": ["verifiable/credential.go: WithDisabledProofCheck, WithProofChecker, WithJWTProofChecker, WithLDProofChecker, WithCWTProofChecker, WithBaseContextValidation, WithBaseContextExtendedValidation, WithDataIntegrityVerifier, WithExpectedDataIntegrityFields, WithCredentialSchemaLoader, getCredentialOpts, ParseCredential, ParseCredentialJSON", "verifiable/presentation.go: WithPresProofChecker, WithPresDisabledProofCheck, WithPresHolderCheck, getPresentationOpts, ParsePresentation", "verifiable/did_ldp.go: WithDIDProofChecker, VerifyDIDProof"]}
{"id": "C290", "title": "A proof checker that is given is used", "statement": "After WithProofChecker(c), an accepted credential was accepted by c.", "quantifier": "every list of options", "why_tests_cant": "all option lists", "anchors": ["verifiable/credential.go: WithDisabledProofCheck, WithProofChecker, WithJWTProofChecker, WithLDProofChecker, WithCWTProofChecker, WithBaseContextValidation, WithBaseContextExtendedValidation, WithDataIntegrityVerifier, WithExpectedDataIntegrityFields, WithCredentialSchemaLoader, getCredentialOpts, ParseCredential, ParseCredentialJSON", "verifiable/presentation.go: WithPresProofChecker, WithPresDisabledProofCheck, WithPresHolderCheck, getPresentationOpts, ParsePresentation", "verifiable/did_ldp.go: WithDIDProofChecker, VerifyDIDProof"]}
{"id": "C291", "title": "An accepted enveloped presentation is the one in its envelope", "statement": "A presentation of type EnvelopedVerifiablePresentation that is accepted is the one in its data URL.", "quantifier": "every enveloped presentation", "why_tests_cant": "all presentations", "anchors": ["verifiable/presentation.go: ParsePresentation", "verifiable/presentation_parser.go: presentationEnvelopedParser.parse"]}
{"id": "C292", "title": "Credentials in memory are values", "statement": "When the caller writes only at the top of its own maps and gives a map to ParseCredentialJSON at most once (not using it afterwards), every credential shows the document, contents, proofs and envelope it would have if nothing were shared, and so does every map still owned by the caller.", "quantifier": "every sequence of creating, parsing, modifying, signing, proving and reading calls on any number of credentials", "why_tests_cant": "all histories and object graphs", "anchors": ["verifiable/credential.go: CreateCredential, ParseCredentialJSON, WithModifiedContext, WithModifiedTypes, WithModifiedIssuer, WithModifiedSubject, WithModifiedStatus, WithModifiedID, SetCustomField, ToRawJSON, CreateUnsecuredJWTVC, CreateSignedJWTVC, CreateSignedCOSEVC", "verifiable/credential_ldp.go: AddLinkedDataProof, ResetProofs", "verifiable/data_integrity_proof.go: AddDataIntegrityProof", "verifiable/common.go: proofsToRaw, parseLDProof", "util/json/json.go: ShallowCopyObj, CopyExcept"]}
{"id": "C293", "title": "A credential changes only by calls made on it", "statement": "For such callers, a credential is not changed by calls on credentials made from it (modified, signed), nor by the caller's writes to the maps it got from ToRawJSON.", "quantifier": "every history before and every continuation", "why_tests_cant": "all histories", "anchors": ["verifiable/credential.go: CreateCredential, ParseCredentialJSON, WithModifiedContext, WithModifiedTypes, WithModifiedIssuer, WithModifiedSubject, WithModifiedStatus, WithModifiedID, SetCustomField, ToRawJSON, CreateUnsecuredJWTVC, CreateSignedJWTVC, CreateSignedCOSEVC", "verifiable/credential_ldp.go: AddLinkedDataProof, ResetProofs", "verifiable/data_integrity_proof.go: AddDataIntegrityProof", "verifiable/common.go: proofsToRaw, parseLDProof", "util/json/json.go: ShallowCopyObj, CopyExcept"]}
{"id": "C294", "title": "A map from ToRawJSON does not follow the credential", "statement": "For such callers, a map changes only when the caller writes it.", "quantifier": "every history before and every continuation", "why_tests_cant": "all histories", "anchors": ["verifiable/credential.go: CreateCredential, ParseCredentialJSON, WithModifiedContext, WithModifiedTypes, WithModifiedIssuer, WithModifiedSubject, WithModifiedStatus, WithModifiedID, SetCustomField, ToRawJSON, CreateUnsecuredJWTVC, CreateSignedJWTVC, CreateSignedCOSEVC", "verifiable/credential_ldp.go: AddLinkedDataProof, ResetProofs", "verifiable/data_integrity_proof.go: AddDataIntegrityProof", "verifiable/common.go: proofsToRaw, parseLDProof", "util/json/json.go: ShallowCopyObj, CopyExcept"]}
{"id": "C295", "title": "A parsed credential is its own", "statement": "Writing the map that was given to ParseCredentialJSON, or changing another credential parsed from it, does not change the credential.", "quantifier": "every history", "why_tests_cant": "all histories", "anchors": ["verifiable/credential.go: CreateCredential, ParseCredentialJSON, WithModifiedContext, WithModifiedTypes, WithModifiedIssuer, WithModifiedSubject, WithModifiedStatus, WithModifiedID, SetCustomField, ToRawJSON, CreateUnsecuredJWTVC, CreateSignedJWTVC, CreateSignedCOSEVC"]}
{"id": "C296", "title": "Nested parts of a raw credential are the caller's", "statement": "Writing an object inside the map returned by ToRawJSON does not change the credential.", "quantifier": "every history", "why_tests_cant": "all histories", "anchors": ["verifiable/credential.go: CreateCredential, ParseCredentialJSON, WithModifiedContext, WithModifiedTypes, WithModifiedIssuer, WithModifiedSubject, WithModifiedStatus, WithModifiedID, SetCustomField, ToRawJSON, CreateUnsecuredJWTVC, CreateSignedJWTVC, CreateSignedCOSEVC"]}
{"id": "C297", "title": "A display map is the caller's", "statement": "Writing the map returned by CreateDisplayCredentialMap does not change the credential.", "quantifier": "every history", "why_tests_cant": "all histories", "anchors": ["verifiable/credential_sdjwt.go: CreateDisplayCredentialMap"]}
{"id": "C298", "title": "Presentations keep their credentials", "statement": "While only one of a presentation and its clones is added to, and SD-JWTs are made with whole claim slices, every presentation has exactly the credentials it was given, every slice of the caller keeps its claims, and an SD-JWT leaves exactly the given claims and id disclosed.", "quantifier": "every sequence of calls and every growth policy of slices", "why_tests_cant": "all histories and capacities", "anchors": ["verifiable/presentation.go: WithCredentials, AddCredentials, Clone", "verifiable/presentation_jwt.go: CreateJWTVP", "verifiable/presentation_cwt.go: CreateCWTVP", "verifiable/credential_sdjwt.go: makeSDJWT, MakeSDJWTWithNonSelectivelyDisclosableClaims"]}
{"id": "C299", "title": "Adding to a clone leaves the original", "statement": "Adding credentials to a presentation and to its clone gives each its own.", "quantifier": "every history", "why_tests_cant": "all histories", "anchors": ["verifiable/presentation.go: WithCredentials, AddCredentials, Clone", "verifiable/presentation_jwt.go: CreateJWTVP", "verifiable/presentation_cwt.go: CreateCWTVP"]}
{"id": "C300", "title": "Making an SD-JWT does not write the caller's claims", "statement": "The slices of the caller read the same after MakeSDJWT.", "quantifier": "every slice", "why_tests_cant": "all slices", "anchors": ["verifiable/credential_sdjwt.go: makeSDJWT, MakeSDJWTWithNonSelectivelyDisclosableClaims"]}
{"id": "C301", "title": "The order of disclosures carries no meaning", "statement": "Two presentations with the same issuer-signed JWT, the same holder JWT and the same disclosures in different orders are both accepted with the same claims or both refused (if no two disclosures collide under the hash).", "quantifier": "every presentation and every permutation of its disclosures", "why_tests_cant": "all permutations and payloads", "anchors": ["sdjwt/verifier/verifier.go: Parse, validateIssuerSignedSDJWT, runHolderVerification, getSignatureVerifier", "sdjwt/verifier/keybidning.go: verifyKeyBindingJWT", "sdjwt/verifier/holderbidning.go: verifyHolderBindingJWT", "sdjwt/common/common.go: ParseCombinedFormatForPresentation, GetCNF"]}
{"id": "C302", "title": "Holder binding only ever refuses", "statement": "A presentation accepted with its holder JWT is accepted with the same claims when the holder JWT is taken off and none is required.", "quantifier": "every presentation", "why_tests_cant": "all presentations and keys", "anchors": ["sdjwt/verifier/verifier.go: Parse, validateIssuerSignedSDJWT, runHolderVerification, getSignatureVerifier", "sdjwt/verifier/keybidning.go: verifyKeyBindingJWT", "sdjwt/verifier/holderbidning.go: verifyHolderBindingJWT", "sdjwt/common/common.go: ParseCombinedFormatForPresentation, GetCNF"]}
{"id": "C303", "title": "A key binding JWT is for one presentation", "statement": "A holder JWT that was accepted with one set of disclosures of one SD-JWT is not accepted with others.", "quantifier": "every pair of presentations with the same confirmation key", "why_tests_cant": "all presentations", "anchors": ["sdjwt/verifier/verifier.go: Parse, validateIssuerSignedSDJWT, runHolderVerification, getSignatureVerifier", "sdjwt/verifier/keybidning.go: verifyKeyBindingJWT", "sdjwt/verifier/holderbidning.go: verifyHolderBindingJWT", "sdjwt/common/common.go: ParseCombinedFormatForPresentation, GetCNF"]}
{"id": "C304", "title": "The JWS algorithm named for a key is one its signatures verify under", "statement": "KeyTypeToJWSAlgo names an algorithm for exactly the signing keys other than BBS; its Name stands for the key's scheme, and a token with that name and a valid signature of such a key is accepted by the default checker.", "quantifier": "every key type, key, token and signature", "why_tests_cant": "all keys and signatures", "anchors": ["verifiable/common.go: KeyTypeToJWSAlgo, KeyTypeToCWSAlgo, JWSAlgorithm.Name", "proof/defaults/all.go: NewDefaultProofChecker", "proof/checker/checker.go: CheckJWTProof, CheckCWTProof"]}
{"id": "C305", "title": "The COSE algorithm named for a key is one its signatures verify under", "statement": "The number KeyTypeToCWSAlgo gives stands for the key's scheme, and a CWT with it and a valid signature of such a key is accepted by the default checker.", "quantifier": "every key type, key, token and signature", "why_tests_cant": "all keys and signatures", "anchors": ["verifiable/common.go: KeyTypeToJWSAlgo, KeyTypeToCWSAlgo, JWSAlgorithm.Name", "proof/defaults/all.go: NewDefaultProofChecker", "proof/checker/checker.go: CheckJWTProof, CheckCWTProof"]}
{"id": "C306", "title": "Algorithms carry their registered names", "statement": "The algorithm name written for a key is the one registered in RFC 7518, 8037 and 8812, and tokens with registered names are understood.", "quantifier": "every key type and token", "why_tests_cant": "all tokens", "anchors": ["verifiable/common.go: KeyTypeToJWSAlgo, KeyTypeToCWSAlgo, JWSAlgorithm.Name", "proof/defaults/all.go: NewDefaultProofChecker", "proof/checker/checker.go: CheckJWTProof, CheckCWTProof"]}
{"id": "C307", "title": "Every JWT key works for CWT", "statement": "Every key with a JWS algorithm has a COSE algorithm.", "quantifier": "every key type and CWT", "why_tests_cant": "all tokens", "anchors": ["verifiable/common.go: KeyTypeToJWSAlgo, KeyTypeToCWSAlgo, JWSAlgorithm.Name", "proof/defaults/all.go: NewDefaultProofChecker", "proof/checker/checker.go: CheckJWTProof, CheckCWTProof"]}
{"id": "C308", "title": "The proof can be checked later", "statement": "A credential is accepted exactly if it is accepted with the check of proofs turned off and CheckProof, with the same options, then accepts it; the result is the credential that CheckProof leaves (without external contexts, or for a text that is not an envelope).", "quantifier": "every list of options, position and text", "why_tests_cant": "all option lists and texts", "anchors": ["verifiable/credential.go: ParseCredential, ParseCredentialJSON, parseCredential, CheckProof, checkProof, ValidateCredential, validateCredential, WithDisabledProofCheck, WithCredDisableValidation", "verifiable/credential_parser.go: CredentialJSONParser.Parse, CredentialCBORParser.Parse, EnvelopedCredentialParser.Parse"]}
{"id": "C309", "title": "Validation can be done later", "statement": "A credential is accepted exactly if it is accepted with WithCredDisableValidation and, unless it is a JWT, ValidateCredential with the same options then accepts it (without external contexts).", "quantifier": "every list of options, position, text and document", "why_tests_cant": "all option lists and texts", "anchors": ["verifiable/credential.go: ParseCredential, ParseCredentialJSON, parseCredential, CheckProof, checkProof, ValidateCredential, validateCredential, WithDisabledProofCheck, WithCredDisableValidation", "verifiable/credential_parser.go: CredentialJSONParser.Parse, CredentialCBORParser.Parse, EnvelopedCredentialParser.Parse"]}
{"id": "C310", "title": "JWTVCToJSON reads the document that ParseCredential returns", "statement": "For a JWT without disclosures, bare or as a JSON string, what JWTVCToJSON returns is the JSON document of the credential that ParseCredential accepts.", "quantifier": "every JWT and option", "why_tests_cant": "all JWTs", "anchors": ["verifiable/credential.go: JWTVCToJSON, ParseCredential, unwrapStringVC", "verifiable/credential_jwt.go: decodeCredJWT"]}
{"id": "C311", "title": "Giving a proof checker more never makes it refuse", "statement": "A JWT, CWT or linked data proof accepted by a checker made with some options is accepted by one made with the same options followed by others.", "quantifier": "every list of options, verification method resolver and proof", "why_tests_cant": "all option lists", "anchors": ["proof/checker/checker.go: New, NewEmbeddedVMProofChecker, NewEmbeddedJWKProofChecker, WithLDProofTypes, WithLDProofTypeEx, WithJWTAlg, WithCWTAlg, WithSignatureVerifiers, CheckJWTProof, CheckCWTProof, CheckLDProof, convertToPublicKey, getSupportedProof, getSupportedProofByAlg, getSupportedCWTProofByAlg, getSignatureVerifier", "proof/defaults/all.go: NewDefaultProofChecker"]}
{"id": "C312", "title": "A proof checker accepts exactly what it was given", "statement": "A checker accepts a proof exactly if the first descriptor given for its algorithm, COSE algorithm or proof type has a first method that fits the resolved (or embedded) verification method, and the first verifier given for that method's key type accepts the signature under the key; algorithms given for JWTs are not accepted for CWTs. The default checker is the one with the default lists.", "quantifier": "every list of options, verification method resolver and proof", "why_tests_cant": "all option lists", "anchors": ["proof/checker/checker.go: New, NewEmbeddedVMProofChecker, NewEmbeddedJWKProofChecker, WithLDProofTypes, WithLDProofTypeEx, WithJWTAlg, WithCWTAlg, WithSignatureVerifiers, CheckJWTProof, CheckCWTProof, CheckLDProof, convertToPublicKey, getSupportedProof, getSupportedProofByAlg, getSupportedCWTProofByAlg, getSignatureVerifier", "proof/defaults/all.go: NewDefaultProofChecker"]}
{"id": "C313", "title": "The first signer given for an algorithm signs", "statement": "SignJWT and SignCWT sign with the signer of the first option for the algorithm, and further options do not change that.", "quantifier": "every list of options and every text", "why_tests_cant": "all option lists", "anchors": ["proof/creator/creator.go: New, WithJWTAlg, SignJWT, SignCWT, CreateJWTHeaders, getSupportedProofByAlg, getSupportedProofByCwtAlg"]}
{"id": "C314", "title": "A token is signed by the key it names", "statement": "A creator that was given signers for several keys signs a token that names one of them with that one.", "quantifier": "every list of options", "why_tests_cant": "all option lists", "anchors": ["proof/creator/creator.go: New, WithJWTAlg, SignJWT, SignCWT, CreateJWTHeaders, getSupportedProofByAlg, getSupportedProofByCwtAlg"]}
{"id": "C315", "title": "Presentations behave as values", "statement": "In every history of creating, parsing, copying, signing and changing presentations in which lists are appended to only where no copy has grown longer, and only lists and maps without copies are written, every presentation and list shows what it would show if copies were copies of the contents.", "quantifier": "every history of calls and every way append chooses capacities", "why_tests_cant": "all histories", "anchors": ["verifiable/presentation.go: NewPresentation, WithCredentials, WithBaseContext, Credentials, AddCredentials, Clone, newPresentation", "verifiable/presentation_jwt.go: CreateJWTVP", "verifiable/presentation_cwt.go: CreateCWTVP", "verifiable/presentation_ldp.go: AddLinkedDataProof", "verifiable/common.go: mapSlice2"]}
{"id": "C316", "title": "Clone and CreateJWTVP copy everything", "statement": "The copy shows the same credentials, contexts, types, custom fields, id, holder and proofs as the original; the presentation CreateJWTVP returns has its token.", "quantifier": "every history of calls", "why_tests_cant": "all histories", "anchors": ["verifiable/presentation.go: NewPresentation, WithCredentials, WithBaseContext, Credentials, AddCredentials, Clone, newPresentation", "verifiable/presentation_jwt.go: CreateJWTVP", "verifiable/presentation_cwt.go: CreateCWTVP", "verifiable/presentation_ldp.go: AddLinkedDataProof", "verifiable/common.go: mapSlice2"]}
{"id": "C317", "title": "Changing one presentation does not change another", "statement": "Under the same conditions a call changes only the presentation it names; writing the list that was passed to NewPresentation or AddCredentials changes none.", "quantifier": "every history of calls and every further calls", "why_tests_cant": "all histories", "anchors": ["verifiable/presentation.go: NewPresentation, WithCredentials, WithBaseContext, Credentials, AddCredentials, Clone, newPresentation", "verifiable/presentation_jwt.go: CreateJWTVP", "verifiable/presentation_cwt.go: CreateCWTVP", "verifiable/presentation_ldp.go: AddLinkedDataProof", "verifiable/common.go: mapSlice2"]}
{"id": "C318", "title": "A copy of a presentation is independent of it", "statement": "Adding credentials to a copy leaves those added to the original alone.", "quantifier": "every history of calls", "why_tests_cant": "all histories", "anchors": ["verifiable/presentation.go: NewPresentation, WithCredentials, WithBaseContext, Credentials, AddCredentials, Clone, newPresentation", "verifiable/presentation_jwt.go: CreateJWTVP", "verifiable/presentation_cwt.go: CreateCWTVP", "verifiable/presentation_ldp.go: AddLinkedDataProof", "verifiable/common.go: mapSlice2"]}
{"id": "C319", "title": "Custom fields of a copy are its own", "statement": "Writing the custom fields of a copy leaves the original's alone.", "quantifier": "every history of calls", "why_tests_cant": "all histories", "anchors": ["verifiable/presentation.go: NewPresentation, WithCredentials, WithBaseContext, Credentials, AddCredentials, Clone, newPresentation", "verifiable/presentation_jwt.go: CreateJWTVP", "verifiable/presentation_cwt.go: CreateCWTVP", "verifiable/presentation_ldp.go: AddLinkedDataProof", "verifiable/common.go: mapSlice2"]}
{"id": "C320", "title": "Credentials() returns a list of the caller's own", "statement": "Writing the list that Credentials() returned changes no presentation, and AddCredentials does not change it.", "quantifier": "every history of calls", "why_tests_cant": "all histories", "anchors": ["verifiable/presentation.go: NewPresentation, WithCredentials, WithBaseContext, Credentials, AddCredentials, Clone, newPresentation", "verifiable/presentation_jwt.go: CreateJWTVP", "verifiable/presentation_cwt.go: CreateCWTVP", "verifiable/presentation_ldp.go: AddLinkedDataProof", "verifiable/common.go: mapSlice2"]}
{"id": "C321", "title": "A JWT that was made is accepted", "statement": "A JWT made by NewSigned with a proof creator and serialised, attached or detached, is accepted by ParseAndCheckProof with a proof checker that has a descriptor for the algorithm and accepts what the creator's first signer for it signs, provided the key id resolves under the issuer; claims and headers come back.", "quantifier": "all claims, signing parameters, options of creator and checker, resolvers, attached and detached, with and without the issuer check", "why_tests_cant": "all inputs", "anchors": ["jwt/jwt.go: NewSigned, NewUnsecured, NewJoseSigned, Serialize, PayloadToMap, ParseAndCheckProof, CheckProof, IsJWS, IsJWTUnsecured", "jwt/jose_wrappers.go: NewJOSESigner, JoseSigner, joseVerifier", "jwt/signer.go: SignParameters, ProofCreator", "proof/creator/creator.go: New, SignJWT, CreateJWTHeaders", "proof/checker/checker.go: New, CheckJWTProof"]}
{"id": "C322", "title": "Unsecured JWTs", "statement": "The text of a token made by NewUnsecured is recognised as unsecured and not as signed, parses back to the claims under alg none, and is accepted by no proof checker made with New, nor by an embedded one that has no descriptor for none.", "quantifier": "all claims, checkers, resolvers", "why_tests_cant": "all inputs", "anchors": ["jwt/jwt.go: NewSigned, NewUnsecured, NewJoseSigned, Serialize, PayloadToMap, ParseAndCheckProof, CheckProof, IsJWS, IsJWTUnsecured", "jwt/jose_wrappers.go: NewJOSESigner, JoseSigner, joseVerifier", "jwt/signer.go: SignParameters, ProofCreator", "proof/creator/creator.go: New, SignJWT, CreateJWTHeaders", "proof/checker/checker.go: New, CheckJWTProof"]}
{"id": "C323", "title": "What is signed determines the token", "statement": "Two tokens signed over the same bytes have the same headers and the same claims, whether the payload is encoded or not (b64).", "quantifier": "all pairs of tokens", "why_tests_cant": "all pairs", "anchors": ["jwt/jwt.go: NewSigned, NewUnsecured, NewJoseSigned, Serialize, PayloadToMap, ParseAndCheckProof, CheckProof, IsJWS, IsJWTUnsecured", "jwt/jose_wrappers.go: NewJOSESigner, JoseSigner, joseVerifier", "jwt/signer.go: SignParameters, ProofCreator", "proof/creator/creator.go: New, SignJWT, CreateJWTHeaders", "proof/checker/checker.go: New, CheckJWTProof"]}
{"id": "C324", "title": "A detached payload is bound by the signature", "statement": "Reading a detached token with another payload gives the verifier a message different from the one that was signed.", "quantifier": "all tokens and payloads", "why_tests_cant": "all payloads", "anchors": ["jwt/jwt.go: NewSigned, NewUnsecured, NewJoseSigned, Serialize, PayloadToMap, ParseAndCheckProof, CheckProof, IsJWS, IsJWTUnsecured", "jwt/jose_wrappers.go: NewJOSESigner, JoseSigner, joseVerifier", "jwt/signer.go: SignParameters, ProofCreator", "proof/creator/creator.go: New, SignJWT, CreateJWTHeaders", "proof/checker/checker.go: New, CheckJWTProof"]}
{"id": "C325", "title": "The headers of a token", "statement": "A token made with a proof creator has the added headers as they are, the algorithm, the key id if there is one, and no other header.", "quantifier": "all signing parameters", "why_tests_cant": "all inputs", "anchors": ["jwt/jwt.go: NewSigned, NewUnsecured, NewJoseSigned, Serialize, PayloadToMap, ParseAndCheckProof, CheckProof, IsJWS, IsJWTUnsecured", "jwt/jose_wrappers.go: NewJOSESigner, JoseSigner, joseVerifier", "jwt/signer.go: SignParameters, ProofCreator", "proof/creator/creator.go: New, SignJWT, CreateJWTHeaders", "proof/checker/checker.go: New, CheckJWTProof"]}
{"id": "C326", "title": "The algorithm that a token names is the one it was signed for", "statement": "The signature of a token was made by the creator's signer for the algorithm in its header.", "quantifier": "all signing parameters", "why_tests_cant": "all inputs", "anchors": ["jwt/jwt.go: NewSigned, NewUnsecured, NewJoseSigned, Serialize, PayloadToMap, ParseAndCheckProof, CheckProof, IsJWS, IsJWTUnsecured", "jwt/jose_wrappers.go: NewJOSESigner, JoseSigner, joseVerifier", "jwt/signer.go: SignParameters, ProofCreator", "proof/creator/creator.go: New, SignJWT, CreateJWTHeaders", "proof/checker/checker.go: New, CheckJWTProof"]}
{"id": "C327", "title": "The form of the claims does not matter", "statement": "The same claims handed over as a map, as JSON text or as another value give the same token; a text that repeats a member name gives no token.", "quantifier": "all claims and signing parameters", "why_tests_cant": "all inputs", "anchors": ["jwt/jwt.go: NewSigned, NewUnsecured, NewJoseSigned, Serialize, PayloadToMap, ParseAndCheckProof, CheckProof, IsJWS, IsJWTUnsecured", "jwt/jose_wrappers.go: NewJOSESigner, JoseSigner, joseVerifier", "jwt/signer.go: SignParameters, ProofCreator", "proof/creator/creator.go: New, SignJWT, CreateJWTHeaders", "proof/checker/checker.go: New, CheckJWTProof"]}
{"id": "C328", "title": "A credential that was signed is accepted and is the same", "statement": "A credential signed by CreateSignedJWTVC with a proof creator, minimised or not, is accepted by ParseCredential with a proof checker that has a descriptor for the algorithm and accepts what the creator's first signer for it signs, when the key id resolves under the credential's issuer; the parsed credential is the one that was signed.", "quantifier": "all credentials, options of creator, checker and parser, resolvers, key ids and algorithms", "why_tests_cant": "all inputs", "anchors": ["verifiable/credential.go: CreateSignedJWTVC, ParseCredential", "verifiable/jws.go: marshalJWS", "jwt/jwt.go: NewSigned, Serialize, Parse, CheckProof", "proof/creator/creator.go", "proof/checker/checker.go"]}
{"id": "C329", "title": "A presentation that was signed is accepted and is the same", "statement": "A presentation signed by CreateJWTVP with a proof creator and serialised is accepted by ParsePresentation with a proof checker that has a descriptor for the algorithm and accepts what the creator's first signer for it signs, when the key id resolves under the holder; the parsed presentation has the fields and credentials of the one that was signed.", "quantifier": "all presentations, options of creator, checker and parser, resolvers, key ids and algorithms", "why_tests_cant": "all inputs", "anchors": ["verifiable/presentation_jwt.go: CreateJWTVP, CreateJWTVPFromJSON", "verifiable/jws.go: marshalJWS", "verifiable/presentation.go: ParsePresentation", "jwt/jwt.go: NewSigned, Serialize, Parse, CheckProof", "proof/creator/creator.go", "proof/checker/checker.go"]}
{"id": "C330", "title": "A credential signed as a CWT is accepted and is the same", "statement": "A credential signed by CreateSignedCOSEVC with a proof creator is accepted by ParseCredential (as hex text) with a proof checker that has a descriptor for the COSE algorithm and accepts what the creator's first signer for it signs, when the key id resolves under the credential's issuer; the parsed credential has exactly the JSON object that was signed.", "quantifier": "all credentials whose values survive CBOR, options of creator, checker and parser, resolvers, key ids and algorithms", "why_tests_cant": "all inputs", "anchors": ["verifiable/credential.go: CreateSignedCOSEVC, ParseCredential", "verifiable/cose.go: marshalCOSE", "cwt/cwt.go: Parse, CheckProof", "proof/creator/creator.go: SignCWT", "proof/checker/checker.go: CheckCWTProof"]}
{"id": "C331", "title": "An SD-JWT credential that was made is accepted and shows what was disclosed", "statement": "The token MakeSDJWT (both formats) makes with a proof creator, presented with any of its disclosures, is accepted by ParseCredential with a proof checker that has a descriptor for the algorithm and accepts what the creator's first signer for it signs, when the key id resolves under the issuer; the credential comes back and its display shows exactly what is clear or disclosed.", "quantifier": "all credentials without nulls, empty arrays and reserved names, options of creator, checker and parser, resolvers, selections of disclosures", "why_tests_cant": "all inputs and selections", "anchors": ["verifiable/credential_sdjwt.go: MakeSDJWT, makeSDJWT, CreateDisplayCredentialMap", "sdjwt/issuer/issuer.go: NewFromVC", "jwt/jwt.go: NewJoseSigned, Serialize, Parse, CheckProof", "jwt/jose_wrappers.go", "verifiable/credential.go: ParseCredential", "proof/creator/creator.go", "proof/checker/checker.go"]}
{"id": "C332", "title": "Combinations are counted and complemented right", "statement": "The number of m-element combinations of n elements that is computed is the binomial coefficient and the number of combinations that are listed (n > 0); the complement of a combination is the combination of the other elements; two combinations match exactly if they are equal.", "quantifier": "all sizes and combinations (integers without overflow)", "why_tests_cant": "all sizes", "anchors": ["presexch/internal/requirementlogic/combinatorics.go: nChooseM, getMCombinationsOfN, complement, matchCombination"]}
