#!/usr/bin/env python3
"""Source of properties.jsonl: edit here, run `python3 tools/props.py`."""
import json, os
P = []
def p(title, statement, quantifier, why, anchors):
    P.append(dict(id="C%02d" % (len(P)+1), title=title, statement=statement,
                  quantifier=quantifier, why_tests_cant=why, anchors=anchors))

# ---------------- status ----------------
p("Bit lookup agrees with the LSB-first bit array",
  "bitstring.BitAt(bs, i) returns the i-th element of the LSB-first bit array of bs when 0 <= i < 8*len(bs), and an error (never a value, never a panic) for every other i, including negative i.",
  "every byte slice and every int index", "2^63 indices times all slices; boundary bytes/bits are sampled only",
  ["status/internal/bitstring/bitstring.go: BitAt"])
p("Status list encode/decode round-trip",
  "bitstring.Decode(bitstring.Encode(bs)) = bs for every byte slice, so that any bit set by an issuer is the bit read by a verifier.",
  "every byte slice", "unbounded input; base64 tail lengths 0,1,2 and byte values combine freely",
  ["status/internal/bitstring/bitstring.go: Encode, Decode"])
p("VerifyStatus accepts only if every status bit is clear",
  "If Client.VerifyStatus returns nil, then the credential has at least one status entry and for every one of them: its type is supported and well-formed, the resolved list VC has the credential's issuer, the list decodes and the bit at statusListIndex is 0.",
  "every credential, every list of status entries, every resolver behaviour", "arbitrary number of entries and arbitrary resolver answers",
  ["status/status.go: Client.VerifyStatus, verifyStatus", "status/validator"])
p("A revoked (suspended) entry is reported as such",
  "If all entries before entry k verify and entry k resolves to a list by the same issuer whose bit is set, VerifyStatus returns ErrRevoked exactly for purpose revocation, ErrSuspended exactly for suspension, and some other error for any other purpose; it never returns nil.",
  "every position k and every purpose string", "position in the list and content are unbounded",
  ["status/status.go: verifyStatus"])
p("statusListIndex parsing is exact",
  "GetStatusListIndex returns the integer denoted by a decimal string and fails on every string that does not denote an int64, so two different denoted indices never read the same bit.",
  "every string", "overflow boundary and sign handling over all strings",
  ["status/validator/*/: GetStatusListIndex"])
p("Multi-bit status entries are validated consistently",
  "A BitstringStatusListEntry with statusSize n>1 is accepted only with exactly 2^n-1 statusMessages, for every n including those where 2^n overflows int.",
  "every status size (float64) and message list", "overflow of 1<<n happens outside any tested range",
  ["status/validator/bitstringstatus/bitstringstatus.go: checkStatusSize"])
# ---------------- requirement logic ----------------
p("Combination generator enumerates exactly the m-subsets",
  "The internal combination generator terminates and returns every m-element subset of {0..n-1} exactly once, each in ascending order, in colexicographic order.",
  "every m and n", "number of combinations is unbounded; an off-by-one in the gap stack shows only at some (m,n)",
  ["presexch/internal/requirementlogic/combinatorics.go: getMCombinationsOfN, allCombinationsInLengthRange, nChooseM"])
p("Requirement satisfaction matches the submission-requirement semantics",
  "IsSatisfiedBy(S) holds iff the number of satisfied children (or distinct listed descriptors in S) lies in the count/min/max window at every level of nesting.",
  "every requirement tree of any depth and every descriptor set", "trees are unbounded",
  ["presexch/internal/requirementlogic/requirementlogic.go: IsSatisfiedBy, isLenApplicable, GetAllDescriptors"])
p("Solution iterator is sound, duplicate free and complete",
  "For distinct descriptor ids and every sequence of Next calls whose exclusions are descriptors of the last answer, each answer is a non-empty set of non-excluded descriptors satisfying the requirement, no answer repeats, and when Next returns nil every satisfying non-empty set that avoids all excluded descriptors has been returned.",
  "every requirement tree, descriptor list and history of exclusions", "2^n states times all exclusion histories",
  ["presexch/internal/requirementlogic/requirementlogic.go: BitsetSolutionIterator.Next, excludeDescriptors, incrementUntilValid"])
p("CreateVP finds a submission iff one exists",
  "Given per-descriptor matching results, the search behind CreateVP/CreateVPArray terminates and succeeds iff some non-empty set of input descriptors, each with at least one matching credential, satisfies the submission requirements; the result covers exactly such a set.",
  "every presentation definition, every credential list", "search space is exponential in descriptors; interplay of exclusion and memoisation",
  ["presexch/definition.go: applyRequirement, makeRequirement, toRequirement, requirement.toLogic"])
p("Submission requirement translation preserves meaning",
  "The requirement tree built from submission_requirements (or from plain input_descriptors when absent) is satisfied by a set S iff S satisfies the Presentation Exchange rules: `all` of a group/nested list, `pick` with count/min/max (bounds on `pick` only, as the specification defines them); translation fails exactly when a referenced group is empty.",
  "every list of submission requirements, nesting and groups", "unbounded nesting",
  ["presexch/definition.go: makeRequirement, toRequirement, toLogic"])
p("Descriptor map points at the credentials that matched",
  "When different matched credentials have different ids: in the presentation produced from matched credentials, every descriptor_map entry's path index selects a credential that matched that descriptor, every matched credential is present, and nothing else is included.",
  "every match table", "collisions of credential IDs, multiplicities and orders are unbounded",
  ["presexch/definition.go: merge, presentationData"])
p("Match accepts only if every input descriptor is satisfied by a submitted credential",
  "If PresentationDefinition.Match returns no error then every input descriptor has a matched credential, every returned credential passed the schema and constraint filters of the descriptor it is returned for, and every mapping id named an existing descriptor.",
  "every definition, list of presentations, submission, loader behaviour (including loader errors)", "error paths combine with list lengths",
  ["presexch/api.go: Match, getMatchedCreds, evalSubmissionRequirements"])
p("What CreateVP submits, Match accepts",
  "When every input descriptor has a match, the descriptor map and credentials that CreateVP (one presentation) or CreateVPArray (one presentation per credential plus merged submission) produce are accepted by Match for the same definition, and Match returns exactly the credentials that matched each descriptor, with the id of the presentation that carries them.",
  "every definition and match table covering it, every order of the descriptor map", "needs composition of both algorithms over all definitions",
  ["presexch/definition.go: CreateVP", "presexch/api.go: Match"])
p("Constraint filter keeps exactly the credentials satisfying every field",
  "filterConstraints keeps a credential iff subject_is_issuer (when required) holds and every field has at least one path accepted by its filter; order is preserved and no credential is altered. (Constraint objects with at least one field, fields with at least one path, typed filters without allOf; see C51, C52, C55 for the rest.)",
  "every constraint object and credential list", "list lengths and path alternatives unbounded",
  ["presexch/definition.go: filterConstraints, filterField, checkPathValue, validatePath"])
p("Format filter returns credentials of one format only",
  "filterFormat returns the credentials (in order) whose proof type/alg is allowed by the first format, in the fixed priority ldp, ldp_vc, ldp_vp, jwt, jwt_vc, jwt_vp, that has a match, together with that format's name; empty when none matches.",
  "every format object and credential list", "all credential lists",
  ["presexch/definition.go: filterFormat, credByProof, algMatch"])
# ---------------- sd-jwt ----------------
p("SD-JWT combined formats round-trip",
  "Parsing a serialized combined format for issuance/presentation returns the same SD-JWT, disclosures (in order) and holder-verification JWT, for all parts not containing '~'.",
  "every number of disclosures and every string without the separator", "unbounded lists; empty-string and missing-part corner cases",
  ["sdjwt/common/common.go: Serialize, ParseCombinedFormatForIssuance, ParseCombinedFormatForPresentation"])
p("No disclosure is accepted unless its digest is committed",
  "If VerifyDisclosuresInSDJWT (hence holder.Parse and verifier.Parse) accepts, every supplied disclosure's digest occurs in the issuer-signed payload or, recursively, in the value of an accepted disclosure.",
  "every payload, disclosure list and hash function", "recursion depth and placement unbounded",
  ["sdjwt/common/verification.go: VerifyDisclosuresInSDJWT, discloseClaimValue"])
p("A digest occurring in two places is rejected",
  "If the same digest is encountered twice while processing the payload and the referenced disclosures, processing fails.",
  "every payload and disclosure list", "all placements of the two occurrences",
  ["sdjwt/common/verification.go: discloseClaimValue"])
p("Disclosure processing terminates on every input",
  "discloseClaimValue / GetDisclosureClaims terminate for every payload and every (possibly cyclic) disclosure graph.",
  "every payload and disclosure map, including adversarial reference cycles", "cyclic references need hash collisions a test cannot build",
  ["sdjwt/common/verification.go: discloseClaimValue, setDisclosureClaimValue"])
p("Disclosure processing does not depend on map iteration order",
  "Whether verification succeeds, and the resulting claims, are the same for every iteration order Go may choose for payload maps and disclosure maps.",
  "every payload and every permutation of every map", "Go randomises order; a test sees a few orders",
  ["sdjwt/common/verification.go: discloseClaimValue, GetDisclosureClaims"])
p("Issue then verify returns the disclosed claims (SD-JWT v2)",
  "For every claims object without '_sd' keys, issuing with v2 options and verifying with any subset of the disclosures yields exactly: the always-visible claims plus the claims whose disclosures were supplied (same names, same values, same nesting), and nothing about the others.",
  "every claims object, option set and subset of disclosures", "unbounded objects and 2^n subsets",
  ["sdjwt/issuer/v2.go: CreateDisclosuresAndDigests", "sdjwt/common/verification.go", "sdjwt/verifier/verifier.go: Parse"])
p("Issue then verify returns the disclosed claims (SD-JWT v5)",
  "The same for v5: recursive, structured, always-include and array-element disclosures, without decoys (C77), null (C78) or empty-named (C79) claims: a selection of disclosures is accepted iff it contains the parent of each nested disclosure, and then yields exactly the selected claims; with all disclosures the original claims.",
  "every claims object, option set", "unbounded objects and option combinations",
  ["sdjwt/issuer/v5.go: createDisclosuresAndDigestsInternal, processArrayElements"])
p("Undisclosed claims do not leak",
  "The verified output contains no claim value that is neither clear-text in the signed payload nor in a supplied disclosure, and (with cleanup) no digest remains.",
  "every payload and disclosure list", "arbitrary nesting",
  ["sdjwt/common/common.go: GetDisclosedClaims", "sdjwt/common/verification.go"])
p("Holder presentation reveals exactly the selected disclosures",
  "CreatePresentation succeeds only if each selected disclosure is part of the issued SD-JWT, and its output contains the unchanged issuer JWT, exactly the selected disclosures in order and the holder-verification JWT if requested.",
  "every combined format and selection", "unbounded lists",
  ["sdjwt/holder/holder.go: CreatePresentation"])
p("Holder binding is enforced when required",
  "verifier.Parse with holder verification required succeeds only if a holder JWT is present whose signature verifies under the cnf.jwk of the issuer-signed payload, whose alg is in the allowed list and not none, whose times are valid, and whose nonce/aud equal the expected ones when configured.",
  "every presentation and option set, every proof-checker behaviour", "all header/payload combinations",
  ["sdjwt/verifier/verifier.go: Parse, runHolderVerification, verifyHolderVerificationJWT"])
p("alg none and unlisted algorithms are never accepted",
  "verifier.Parse never succeeds on an SD-JWT whose alg header is missing, 'none' or outside the configured list, whatever the proof checker answers.",
  "every token and option set", "all headers",
  ["sdjwt/common/verification.go: VerifySigningAlg", "sdjwt/verifier/verifier.go: validateIssuerSignedSDJWT"])
p("Duplicate disclosures are rejected by the verifier",
  "verifier.Parse rejects every presentation that carries the same disclosure string twice and no other presentation for that reason.",
  "every list of disclosures", "all lists", ["sdjwt/verifier/verifier.go: checkForDuplicates"])
# ---------------- jwt / proof ----------------
p("A verified JWT was checked against its own issuer and exact bytes",
  "If ParseAndCheckProof with issuer check (and claims decoding into the token, the default) returns a token, then the proof checker accepted exactly the token's signing input and signature for exactly the issuer claim found in that same payload, and the returned headers/payload are those of the checked bytes.",
  "every compact JWS string and proof checker", "all strings; parse happens twice",
  ["jwt/jwt.go: ParseAndCheckProof, CheckProof", "jwt/jose_wrappers.go"])
p("JWT header policy",
  "A parsed JWT always has an alg header, its typ if present is JWT or an explicit type p+jwt / p+sd-jwt (any case), and cty is not JWT; every header map outside this policy is rejected (types with several + signs: C60).",
  "every header map", "all strings, case variants, number of '+' signs",
  ["jwt/jwt.go: CheckHeaders, checkTypHeader"])
p("Algorithm, key type and verifier always agree",
  "If CheckJWTProof succeeds then the key was resolved for the header's kid and the expected issuer, the header's alg is supported, the resolved key's JWK type and curve are the ones of that alg, and the signature was verified by a verifier for that key type over exactly the given message.",
  "every header, key, issuer, message, signature, checker configuration", "confusion attacks are combinations tests do not enumerate",
  ["proof/checker/checker.go: CheckJWTProof, convertToPublicKey, getSignatureVerifier", "proof/jwtproofs", "crypto-ext/verifiers"])
p("Keys are taken only from the expected controller's document",
  "VDRResolver returns a verification method only if it occurs, with that exact id and a relationship other than keyAgreement, in the DID document resolved for the expected controller.",
  "every DID document and resolver", "all documents", ["vermethod/vdrkeyresolver.go: ResolveVerificationMethod"])
# ---------------- data integrity ----------------
p("Data integrity: proofs are verified with the method they name",
  "If VerifyProof returns nil for options not used before, on a document whose proofs agree on method, suite, created and presence of expires (in particular: one proof), then the document has a proof member and each proof was verified by its suite, against the method this proof names under the expected purpose, over the document without proof and this proof's configuration (sets of differing proofs: C86; empty sets: C85).",
  "every document, number of proofs, options, registry of the two suites and resolver", "proof sets of any size, state carried between proofs",
  ["dataintegrity/verifier.go: VerifyProof, verifyProof", "dataintegrity/signer.go: resolveVM", "dataintegrity/suite/ecdsa2019", "dataintegrity/suite/eddsa2022"])
p("Data integrity: policy fields are enforced",
  "VerifyProof returns nil only if each proof is of type DataIntegrityProof, its purpose equals the expected one, domain and challenge equal the expected ones (when given), it is not expired and its suite is registered.",
  "every document and options", "all combinations", ["dataintegrity/verifier.go: verifyProof"])
p("Data integrity verification is independent of earlier verifications",
  "Among documents whose proofs all agree on method, suite, created and presence of expires, the outcome of VerifyProof is not changed by any history of earlier VerifyProof calls with the same options value (in general: C87).",
  "every history of calls", "history dependence", ["dataintegrity/verifier.go: verifyProof", "dataintegrity/signer.go: resolveVM"])
p("Verification method is chosen by purpose",
  "A verification method is used for a purpose only if, and one is found whenever, the DID document lists it under that relationship (or, for assertionMethod only, under the general section) with the same fragment; the method a new proof names was chosen this way.",
  "every DID document, purpose and id", "all documents", ["dataintegrity/signer.go: getVMByPurpose, getVM, vmIDFragmentOnly"])
# ---------------- did config ----------------
p("Domain linkage is accepted only with a valid, matching credential",
  "VerifyDIDAndDomain succeeds only if the configuration has exactly the allowed properties and some linked credential was issued by the DID, is a DomainLinkageCredential without id and with issuance and expiration dates, has the DID as its single subject and an origin equal to the domain's origin, and verifies with proof checking.",
  "every configuration document, DID, domain", "all documents", ["didconfig/verifier/didconfig.go: VerifyDIDAndDomain"])
exec(open(os.path.join(os.path.dirname(__file__), "props_more.py")).read()) if os.path.exists(os.path.join(os.path.dirname(__file__), "props_more.py")) else None
with open(os.path.join(os.path.dirname(__file__), "..", "properties.jsonl"), "w") as f:
    for x in P: f.write(json.dumps(x) + "\n")
print(len(P))
