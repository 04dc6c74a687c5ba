# appended properties (C38...)
p("Status bits follow the W3C bit order",
  "The status bit of index i is the i-th bit counted from the most significant bit of the first byte, as Bitstring Status List / StatusList2021 prescribe.",
  "every byte slice and index", "all bytes; palindromic bytes hide the difference",
  ["status/internal/bitstring/bitstring.go: BitAt"])
p("The status list's own purpose is honoured",
  "A credential is reported revoked (suspended) only on the strength of a list whose credentialSubject.statusPurpose includes revocation (suspension).",
  "every entry and status list credential", "combinations of entry and list purpose",
  ["status/status.go: verifyStatus"])
p("Status verification never panics",
  "VerifyStatus returns nil or an error, never a run-time panic, whatever the status entries contain and whatever list credentials with a credentialSubject are fetched.",
  "every entry list and resolver answer", "remote input", ["status/status.go: verifyStatus"])

p("Schema filter keeps exactly the credentials offering the required schemas",
  "filterSchema keeps, in order, the credentials for which every required schema id (and at least one listed schema id) is defined by one of their contexts for one of their types; it fails iff some context cannot be loaded; caching contexts across credentials does not change the outcome.",
  "every schema list, credential list and loader", "cache histories and list lengths unbounded", ["presexch/definition.go: filterSchema, typeFoundInContext, getContext"])
p("Array paths are compacted without collisions",
  "For all evaluated JSONPaths over a document (no array directly inside an array, keys without dots and not numeric), compactArrayPaths renumbers the mentioned elements of every array bijectively onto 0..k-1, consistently across all paths.",
  "every list of evaluated paths", "shared mutable counter keyed by joined strings; collisions appear only for some path sets",
  ["presexch/definition.go: compactArrayPaths, getPath"])
p("JWT path rewriting removes exactly one leading vc step",
  "For every path with one root and at most one leading vc step, rewriting a JWT credential's path yields the path without that step, in whatever order Go iterates over the replacement table.",
  "every path, every map iteration order", "map order is random per run", ["presexch/definition.go: checkPathValue"])
p("Match does not panic",
  "If the descriptor map contains no null entry and the plugged-in parsers do not panic, Match returns a result or an error.",
  "every definition, presentation list and submission", "remote input", ["presexch/api.go: Match, getMatchedCreds"])
p("Match never accepts a credential for a descriptor without schemas unless schema validation is disabled",
  "With schema validation enabled every returned credential belongs to a descriptor that lists at least one schema (so v2 definitions, which have none, are never matched).",
  "every definition and submission", "all definitions", ["presexch/api.go: getMatchedCreds", "presexch/definition.go: filterSchema"])
p("Limited disclosure discloses only what was requested",
  "Under limit_disclosure the disclosures kept on an SD-JWT credential are a subset of its disclosures, each one named by the last step of a requested path with its digest in the parent object, or an array element below that parent object.",
  "every constraint object, credential and disclosure list", "all disclosure lists", ["presexch/definition.go: getLimitedDisclosures, limitDisclosure"])
p("Limiting disclosure for one descriptor does not affect the others",
  "If each of two descriptors with limit_disclosure is satisfied by a wallet credential, then both together are, and each receives its requested claims.",
  "every pair of descriptors and SD-JWT credential", "in-place mutation of a shared credential during the search", ["presexch/definition.go: limitDisclosure, applyRequirement", "verifiable/credential.go: SetSDJWTDisclosures"])
p("date-time minimum filters work on string dates of LDP credentials",
  "A field filter {type: string, format: date-time, minimum: T} accepts a non-JWT credential whose date is at or after T.",
  "every date", "all dates", ["presexch/definition.go: filterField, validatePath"])
p("Credentials sharing an id are submitted individually",
  "Two different matched credentials with the same (or no) id are both present in the created presentation, each pointed at by its own descriptor map entry.",
  "every match table", "collisions", ["presexch/definition.go: merge"])
p("Match honours submission requirements",
  "A submission that satisfies the definition's submission requirements (e.g. pick 1 of 2) is accepted by Match.",
  "every definition with submission requirements", "composition over all definitions", ["presexch/api.go: evalSubmissionRequirements"])
p("A constraints object without fields imposes only its other rules",
  "filterConstraints with no fields keeps the credentials that satisfy subject_is_issuer (all of them when it is not required).",
  "every credential list", "all lists", ["presexch/definition.go: filterConstraints"])
p("A filter with allOf enforces its other keywords too",
  "A field filter that has both allOf and other keywords accepts a value only if it satisfies all of them.",
  "every filter and value", "all filters", ["presexch/definition.go: validatePath"])
p("Array paths are compacted without collisions also for nested arrays",
  "C42 for documents with arrays directly inside arrays.", "every list of evaluated paths", "as C42", ["presexch/definition.go: getPath"])
p("JWT path rewriting does not depend on map order",
  "The rewritten path of a JWT credential is the same for every iteration order of the replacement table, for every path.",
  "every path, every map iteration order", "map order is random per run", ["presexch/definition.go: checkPathValue"])
p("Malformed definitions and submissions are errors, not panics",
  "A filter without type, or a null descriptor_map entry, yields an error.",
  "every credential", "remote input", ["presexch/definition.go: filterField", "presexch/api.go: getMatchedCreds"])
p("`all` with max keeps its meaning",
  "A submission requirement `all` that also carries max (which the definition schema permits) is satisfied by the whole group.",
  "every definition", "all definitions", ["presexch/definition.go: toRequirement, toLogic"])
p("Duplicate descriptor ids are handled",
  "A definition whose input descriptors repeat an id is processed or rejected with an error.",
  "every definition", "all definitions", ["presexch/internal/requirementlogic/requirementlogic.go: Iterator"])
p("Multi-bit status entries read the position they occupy",
  "With statusSize n the status of entry i is read from bits i*n .. i*n+n-1.",
  "every list and index", "all lists", ["status/status.go: verifyStatus"])
p("A status list credential without subject is an error",
  "If the fetched status list credential has no credentialSubject, VerifyStatus returns an error.",
  "every entry", "remote input", ["status/status.go: verifyStatus"])

# ---------------- jwt / proof, continued ----------------
p("Explicit JWT types are judged by their ending",
  "A typ with several + signs is accepted only if its last part is jwt or sd-jwt.",
  "every typ", "all strings", ["jwt/jwt.go: checkTypHeader"])
p("Linked-data proofs: proof type, key and scheme agree",
  "If CheckLDProof accepts, the key was resolved for the proof's verification method and the expected issuer, and the signature verifies over exactly the given message under a scheme that the proof type stands for, with a key of that scheme.",
  "every proof type, key, message and signature", "confusion attacks are combinations tests do not enumerate",
  ["proof/checker/checker.go: CheckLDProof", "proof/ldproofs", "crypto-ext/verifiers"])
p("CWT proofs: COSE algorithm, key and scheme agree",
  "If CheckCWTProof accepts, the signature verifies over exactly the given message under the scheme of the COSE algorithm with a key of that scheme, resolved for the key id and the expected issuer, or taken from the COSE_Key only if no key id is given and no issuer is expected.",
  "every request, issuer, message and signature", "all combinations", ["proof/checker/checker.go: CheckCWTProof, checkCWTProofByKeyID, checkCWTProofByCOSEKey"])
p("ECDSA signature framing",
  "An ECDSA signature is read as two big-endian field elements iff its length is exactly two field sizes, as DER iff it is longer, and rejected iff shorter; two different raw signatures never denote the same pair.",
  "every signature string and curve", "all byte strings", ["crypto-ext/verifiers/ecdsa/verifier.go: Verify"])
p("DER signatures are not extensible",
  "An accepted DER signature with bytes appended is rejected.", "every signature", "all byte strings", ["crypto-ext/verifiers/ecdsa/verifier.go: Verify"])
p("Keys are used only for the relationship they are listed under",
  "A JWT credential proof made with a key the issuer's DID document lists for authentication only is rejected.",
  "every DID document and proof", "all documents", ["vermethod/vdrkeyresolver.go: ResolveVerificationMethod"])
p("Blank node placeholders are transformed back",
  "The BBS+ proof verifier's row transformation never panics, replaces the first <urn:bnid:_:c14nK> of a row by _:c14nK and leaves all other text (and rows without placeholder) unchanged.",
  "every row", "all strings; slice arithmetic", ["crypto-ext/verifiers/bbs/verifier.go: transformFromBlankNode"])
p("Every blank node placeholder of a row is transformed back",
  "A row with two placeholders (subject and object) has both replaced.", "every row", "all strings", ["crypto-ext/verifiers/bbs/verifier.go: transformFromBlankNode"])
p("Without an expected issuer the key belongs to the DID in kid",
  "If CheckProof without expected issuer accepts a JWT, the header's kid is did or did#fragment, and the signature verifies with a key listed under exactly that id in the DID document of did.",
  "every token and DID resolver", "all strings", ["jwt/jwt.go: CheckProof", "jwt/jose_wrappers.go: joseVerifier.Verify"])

# ---------------- sdjwt, continued ----------------
p("Reserved names cannot be disclosed",
  "A disclosure whose claim name is _sd or ... is rejected.", "every disclosure and payload", "disclosures are attacker-chosen",
  ["sdjwt/common/verification.go: getDisclosureClaim, discloseClaimValue"])
p("Digests inside objects that are array elements are processed",
  "Verification resolves or removes the _sd digests of an object that is a plain element of an array.",
  "every payload", "unbounded nesting", ["sdjwt/common/verification.go: discloseClaimValue"])
p("Clear-text claims survive verification",
  "Every clear-text claim of the signed payload, null and empty arrays included, is in the verified output.",
  "every payload", "all values", ["sdjwt/common/verification.go: discloseClaimValue"])
p("Verifier without signature verifier",
  "verifier.Parse returns an error when no signature verifier was configured.", "every token", "all tokens",
  ["sdjwt/verifier/verifier.go: Parse", "jwt/jwt.go: CheckProof"])
p("Presentable subsets",
  "Of a list of disclosures that verifies against a payload, a sublist verifies iff each of its disclosures is committed to by the payload or by another selected disclosure (a nested disclosure needs its parent).",
  "every payload, disclosure list and sublist", "2^n subsets, unbounded nesting",
  ["sdjwt/common/verification.go: VerifyDisclosuresInSDJWT", "sdjwt/holder/holder.go: CreatePresentation"])
p("Holder sees every claim",
  "holder.Parse returns exactly one claim per disclosure, carrying that disclosure, its name and its value with all nested disclosures resolved.",
  "every issued SD-JWT", "unbounded nesting", ["sdjwt/holder/holder.go: Parse, getClaims"])
p("Issuance format carries no key binding",
  "With SD-JWT V5 validation holder.Parse rejects every input whose last part is a JWT (signed or unsecured).",
  "every input", "all strings", ["sdjwt/holder/holder.go: applySDJWTV5Validation", "jwt/jwt.go: IsJWS, IsJWTUnsecured"])

# ---------------- sdjwt issuers, continued ----------------
p("The signed payload shows hidden claims as digests only",
  "Outside the registered fields, every scalar and every member name of the payload New signs is one of a claim (or array element) the options leave in clear text, or a digest of a returned disclosure or decoy, or SD-JWT bookkeeping.",
  "every claims object and option set", "all nestings", ["sdjwt/issuer/issuer.go: New", "sdjwt/issuer/v2.go", "sdjwt/issuer/v5.go"])
p("Decoy digests (v5)",
  "An SD-JWT issued with v5 and decoy digests is accepted with all its disclosures; decoy salts are not handed out.",
  "every claims object", "all claims", ["sdjwt/issuer/v5.go: createDisclosuresAndDigestsInternal", "sdjwt/issuer/issuer.go: createDecoyDisclosures"])
p("Null claims (v5)", "Issuing claims with a null value with v5 returns a token or an error.",
  "every claims object", "all values", ["sdjwt/issuer/v5.go: createDisclosuresAndDigestsInternal"])
p("Empty claim name (v5)", "A claim whose name is the empty string survives issuing and verifying with v5.",
  "every claims object", "all names", ["sdjwt/issuer/v5.go: createDisclosure"])
p("Hidden claims named like registered fields",
  "A hidden claim whose name is a registered field present in the payload (iss, sub, exp, ...) can be disclosed, or issuing is refused.",
  "every claims object and option set", "all names", ["sdjwt/issuer/issuer.go: New, createPayload"])
p("Credentials: subject claims hidden, all else unchanged",
  "For every credential (as claims with a vc object, or with v5 the credential itself) NewFromVC hides the subject's claims as New does, and verifying with a selection of disclosures returns the original credential with the holder key added and the subject showing exactly the registered options, the clear-text and the selected claims.",
  "every credential, option set and selection", "unbounded credentials, 2^n selections", ["sdjwt/issuer/issuer.go: NewFromVC", "sdjwt/issuer/v2.go: ExtractCredentialClaims", "sdjwt/issuer/v5.go: ExtractCredentialClaims"])
p("No clear-text copy of the subject",
  "The credential NewFromVC signs does not contain the original credentialSubject in clear text.",
  "every credential", "all credentials", ["sdjwt/issuer/issuer.go: NewFromVC", "sdjwt/common/common.go: GetKeyFromVC"])
p("Reserved name _sd refused", "New refuses claims that use the name _sd at any depth of nested objects.",
  "every claims object", "all nestings", ["sdjwt/issuer/issuer.go: New", "sdjwt/common/common.go: KeyExistsInMap"])
p("Reserved names refused inside arrays, and all of them", "New refuses claims that use _sd inside arrays, or the name ... .",
  "every claims object", "all nestings", ["sdjwt/issuer/issuer.go: New", "sdjwt/common/common.go: KeyExistsInMap"])

# ---------------- data integrity, continued ----------------
p("Data integrity: at least one proof", "A document VerifyProof accepts carries at least one proof.",
  "every document and options", "all documents", ["dataintegrity/verifier.go: VerifyProof"])
p("Data integrity: proof sets", "Each proof of an accepted set was verified against the method it names itself.",
  "every set of proofs", "state carried between proofs", ["dataintegrity/verifier.go: VerifyProof", "dataintegrity/signer.go: resolveVM"])
p("Data integrity: reused options", "An options value can be reused for documents with different proofs without changing outcomes.",
  "every history of calls", "history dependence", ["dataintegrity/verifier.go: verifyProof", "dataintegrity/models/types.go: ProofOptions"])
p("Data integrity: sign then verify",
  "A proof AddProof makes for a document without proof is accepted by VerifyProof with fresh options of the same purpose, domain and challenge until it expires (suite names other than the alias eddsa-2022).",
  "every document, suite, method, options", "all documents and options", ["dataintegrity/signer.go: AddProof", "dataintegrity/verifier.go: VerifyProof", "dataintegrity/suite"])
p("Data integrity: every AddProof output verifies", "The output of AddProof verifies also when the document already carried a proof, and for every registered suite name.",
  "every document", "all documents", ["dataintegrity/signer.go: AddProof", "dataintegrity/suite/eddsa2022/eddsa2022.go"])
p("Data integrity: accepted documents were signed",
  "If keys verify only what their owner signed, a document accepted by VerifyProof has the canonical form of a document signed by the owner of the named method together with a configuration of the same canonical form, or there is a hash collision.",
  "every document and tampering", "all tamperings", ["dataintegrity/verifier.go: VerifyProof", "dataintegrity/suite"])
p("Data integrity: domain and challenge are covered", "The signature of an accepted proof covers the domain and challenge the proof states.",
  "every document and options", "all documents", ["dataintegrity/suite/ecdsa2019/ecdsa2019.go: proofConfig", "dataintegrity/verifier.go: verifyProof"])
p("Data integrity: effect of AddProof", "AddProof keeps every other member of the document and sets the proof member to one new proof of the requested purpose, domain and challenge, with non-empty type and method.",
  "every document and options", "all documents", ["dataintegrity/signer.go: AddProof"])
p("Data integrity: method id", "The method used to check a proof has the id the proof names.",
  "every DID document", "all documents", ["dataintegrity/signer.go: getVM, vmIDFragmentOnly"])
p("Data integrity: suite registry", "For each suite name the first initializer listing it serves it; later ones never replace it; unlisted names have no suite.",
  "every list of initializers", "all lists", ["dataintegrity/verifier.go: NewVerifier", "dataintegrity/signer.go: NewSigner"])

# ---------------- verifiable credentials ----------------
p("Credential JSON round trip", "Parsing the JSON of a credential made by CreateCredential gives back the same contents and the same JSON object, with no proofs and no envelope.",
  "every expressible contents, extra members, member order of the text", "all contents and member orders", ["verifiable/credential.go: CreateCredential, ParseCredential, ParseCredentialJSON, serializeCredentialContents, parseCredentialContents"])
p("Typed contents agree with the JSON", "After a successful parse, Contents() says exactly what ToRawJSON() says: id, types, contexts, issuer, subjects, dates, status, schemas, terms, evidence, refresh service and related resources.",
  "every accepted input in any form (JSON, JWT, SD-JWT, CWT, enveloped)", "all inputs", ["verifiable/credential.go: parseCredentialContents", "verifiable/common.go"])
p("ToRawJSON of a parsed JSON credential", "ToRawJSON of a parsed JSON credential has the members that were parsed and the same list of proofs.",
  "every JSON credential", "all inputs", ["verifiable/credential.go: ToRawJSON, parseLDProof"])
p("Proof arrays are kept as arrays", "ToRawJSON gives the proof member back exactly as it was parsed.",
  "every JSON credential", "all inputs", ["verifiable/credential.go: ToRawJSON", "verifiable/linked_data_proof.go"])
p("WithModified functions change one thing", "Each WithModified… function changes exactly the named part, both in Contents() and in ToRawJSON(), drops proofs, and the two stay consistent.",
  "every credential and value", "all credentials and values", ["verifiable/credential.go: WithModifiedID, WithModifiedContext, WithModifiedStatus, WithModifiedIssuer, WithModifiedSubject"])
p("WithModifiedValidFrom/Until are seen by readers", "After WithModifiedValidFrom (ValidUntil) a reader of the JSON sees the new date.",
  "every credential and date", "all credentials", ["verifiable/credential.go: WithModifiedValidFrom, WithModifiedValidUntil, parseCredentialContents"])
p("Data URLs", "ParseDataURL inverts NewDataURL, and whatever it accepts has the shape data:media[;encoding],data.",
  "every media type, encoding and data", "all strings", ["verifiable/common.go: NewDataURL, ParseDataURL"])
p("Times keep their text", "A time read from text is the instant the text denotes (UTC if no zone) and is written back as the same text; exactly the texts that denote an instant are accepted.",
  "every text", "all texts", ["util/time/time.go: ParseTimeWrapper, FormatToString"])
p("Accepted credentials were checked", "Unless proof checking was disabled, ParseCredential returns a credential only if it has an issuer and its JWS, COSE signature, linked-data proofs or data-integrity proof was accepted by the configured checker over exactly the returned contents, for that issuer.",
  "every input, option set, checker", "all inputs in all formats", ["verifiable/credential.go: ParseCredential, checkProof", "verifiable/jwt.go", "verifiable/cwt.go", "verifiable/embedded_proof.go"])
p("Accepted credentials were signed with a key of the issuer", "With the default checkers, a credential ParseCredential accepts (JWS, COSE or linked-data proofs) verifies under an assertion key that the issuer's DID document publishes, with an algorithm that fits the key.",
  "every input and every DID document", "all inputs and documents", ["verifiable/credential.go: ParseCredential", "proof/checker/checker.go: ProofChecker", "vermethod/vdr_resolver.go"])
p("A failed proof check is final", "When a JSON text or token parses as a credential but its proof does not check, ParseCredential does not succeed by any other route.",
  "every input", "all inputs", ["verifiable/credential.go: ParseCredential"])
p("ParseCredentialJSON checks proofs", "ParseCredentialJSON applies the proof options it is given.",
  "every JSON object and option set", "all inputs", ["verifiable/credential.go: ParseCredentialJSON"])
p("Data-integrity proofs are by the issuer", "A credential accepted on a data-integrity proof was signed with a method of its issuer.",
  "every credential", "all credentials", ["verifiable/data_integrity_proof.go: checkDataIntegrityProof", "verifiable/embedded_proof.go"])
p("At least one proof", "A credential ParseCredential accepts with proof checking carries at least one proof.",
  "every input", "all inputs", ["verifiable/embedded_proof.go: checkEmbeddedProof", "verifiable/linked_data_proof.go: checkLinkedDataProof"])
p("JWT credentials carry the registered claims", "The object of a parsed JWT credential is its vc claim (or the unregistered claims when there is none) with issuer, id and dates overwritten by iss, jti, nbf/iat and exp.",
  "every JWT credential", "all payloads", ["verifiable/credential_jwt.go: refineFromJWTClaims, UnmarshalJSON"])
p("DID issuers of a JWT credential agree", "When iss and the issuer inside the vc claim of an accepted JWT credential are both DIDs, they are equal.",
  "every JWT credential", "all payloads", ["verifiable/credential_jwt.go: refineVCIssuerFromJWTClaims"])
p("Issuers of a JWT credential agree", "The iss claim and the issuer inside the vc claim of an accepted JWT credential are equal.",
  "every JWT credential", "all payloads", ["verifiable/credential_jwt.go: refineVCIssuerFromJWTClaims"])
p("Validity reported is the one claimed", "The validity period that Contents() reports for a JWT credential is the one given by nbf/iat and exp.",
  "every JWT credential", "all payloads", ["verifiable/credential_jwt.go: refineFromJWTClaims", "verifiable/credential.go: parseCredentialContents"])
p("ParseCredential does not panic", "ParseCredential returns a credential or an error, given calm libraries and checkers and JWT payloads with both registered and unregistered claims.",
  "every input", "all inputs", ["verifiable/credential.go: ParseCredential"])
p("Any JWT payload is handled", "ParseCredential returns a credential or an error for every JWT payload.",
  "every payload", "all payloads", ["verifiable/credential_jwt.go: refineFromJWTClaims"])
p("Sign as JWT, parse back", "CreateSignedJWTVC (minimised or not) followed by ParseCredential of the token gives back the contents (dates to the second), every other member, the token and its headers.",
  "every credential with one identified subject and an issuer, both minimisation modes, every algorithm", "all credentials and payload member orders", ["verifiable/credential.go: CreateSignedJWTVC", "verifiable/credential_jwt.go: newJWTCredClaims", "verifiable/jws.go"])
p("Sign as CWT, parse back", "CreateSignedCOSEVC followed by ParseCredential of the hex text gives back exactly the same JSON object and the same contents.",
  "every credential with one identified subject, issuer and issuance date", "all credentials", ["verifiable/credential.go: CreateSignedCOSEVC", "verifiable/credential_cwt.go", "verifiable/credential_parser.go: CredentialCBORParser"])
p("CWT claims agree with the credential", "The issuer that a parsed CWT credential reports is the iss claim of the token.",
  "every CWT credential", "all payloads", ["verifiable/credential_parser.go: CredentialCBORParser"])
p("Universal form parses back", "The JSON text of ToUniversalForm of a JWT or CWT credential (a string for data model 1.1, an enveloping object with a data URL otherwise) parses to the same credential as the bare token.",
  "every JWT or CWT credential without selective disclosure", "all credentials and texts", ["verifiable/credential.go: ToUniversalForm, toEnvelopedForm", "verifiable/credential_parser.go: EnvelopedCredentialParser"])
p("Validation is enforced", "With validation on, an accepted credential that is not a JWT satisfies the selected mode: its schema (option, builder, first supported credentialSchema or the default of its data model) and/or JSON-LD, or the base/extended context and type restrictions.",
  "every input, mode and schema source", "all inputs and options", ["verifiable/credential.go: validateCredential, validateBaseContext, validateBaseContextWithExtendedValidation, getSchemaLoader"])
p("JWT credentials are validated", "With validation on, every accepted credential satisfies the selected validation.",
  "every input", "all inputs", ["verifiable/credential_parser.go: CredentialJSONParser"])
p("Every listed schema is enforced", "Every credentialSchema of a supported type accepts the accepted credential.",
  "every credential", "all credentials", ["verifiable/credential.go: getSchemaLoader"])
p("Data URL encodings are honoured", "An accepted enveloping credential has a data URL without an encoding parameter (none is implemented).",
  "every enveloping credential", "all data URLs", ["verifiable/credential.go: parseCredentialDataURL"])
p("Unsecured JWT credentials", "CreateUnsecuredJWTVC and ParseCredential of its token agree on whether the credential is a JWT credential.",
  "every credential", "all credentials", ["verifiable/credential.go: CreateUnsecuredJWTVC", "verifiable/credential_parser.go: CredentialJSONParser"])
p("Parsing does not depend on the clock", "Without a data integrity suite, ParseCredential gives the same result at any time; in particular expiry is not checked.",
  "every input and two times", "all inputs and times", ["verifiable/credential.go: ParseCredential"])
p("Base-context validation does not panic", "ParseCredential with base-context validation returns a credential or an error.",
  "every JSON credential", "all inputs", ["verifiable/credential.go: validateBaseContext"])
p("Extra members do not change a credential", "A JSON credential keeps its meaning whatever extra members it has.",
  "every JSON credential", "all member names", ["verifiable/credential.go: unwrapStringVC, externalJWTVC"])
p("Parsing keeps the JSON form", "ToRawJSON of a parsed JSON credential equals what was parsed, also with external contexts.",
  "every JSON credential and option set", "all inputs", ["verifiable/embedded_proof.go: checkEmbeddedProof"])
p("Exactly the requested disclosures are presented", "MarshalWithDisclosure of a parsed SD-JWT credential writes the token unchanged, exactly the disclosures whose claim names were asked for (all with DiscloseAll) and the holder binding; a missing required claim is an error.",
  "every parsed SD-JWT credential, every option set whose names are unambiguous in it", "all credentials, option sets and map orders", ["verifiable/credential_sdjwt.go: MarshalWithDisclosure, filterDisclosures, getDisclosureCodes"])
p("A presented SD-JWT credential parses back", "What MarshalWithDisclosure writes is accepted by ParseCredential exactly when every disclosure sent is committed to by the token or by a disclosure sent with it; the credential read back is the same one with those disclosures.",
  "every parsed SD-JWT credential and option set", "all selections of disclosures", ["verifiable/credential_sdjwt.go: MarshalWithDisclosure", "verifiable/credential.go: ParseCredential"])
p("All disclosures of a name are presented", "Every disclosure whose claim name was asked for is sent.",
  "every parsed SD-JWT credential and option set", "all credentials", ["verifiable/credential_sdjwt.go: filterDisclosures"])
p("A presentation of an SD-JWT credential is one", "What MarshalWithDisclosure writes is read as an SD-JWT credential again.",
  "every parsed SD-JWT credential and option set", "all selections", ["verifiable/credential_sdjwt.go: MarshalWithDisclosure"])
p("Holder bindings of credentials are checked", "With proof checking on, ParseCredential accepts a credential with a holder binding only if that is a JWT and the credential names a holder key.",
  "every input", "all texts", ["verifiable/credential.go: ParseCredential", "verifiable/credential_sdjwt.go"])
p("The well-known address is used", "The did-configuration client succeeds exactly when GET domain/.well-known/did-configuration.json answers 200 with a configuration that verifies.",
  "every domain, DID and server", "all servers", ["didconfig/client/didconfig.go: VerifyDIDAndDomain"])
p("A DID configuration cannot crash its verifier", "VerifyDIDAndDomain returns for every published configuration.",
  "every configuration", "all documents", ["didconfig/verifier/didconfig.go: getCredentials"])
p("Expired domain linkage credentials are rejected", "VerifyDIDAndDomain does not accept a credential after its expiration date.",
  "every configuration and time", "all times", ["didconfig/verifier/didconfig.go: VerifyDIDAndDomain"])
p("The origin names the domain", "An accepted domain linkage credential names the host of the requested domain.",
  "every configuration and domain", "all domains", ["didconfig/verifier/didconfig.go: validateOrigin"])
p("The sub claim is the DID", "The sub claim of an accepted domain linkage JWT is the DID.",
  "every configuration", "all payloads", ["didconfig/verifier/didconfig.go: validateJWTClaims"])

# ---- presentations
p("Accepted presentations are checked", "With proof checking on, the object of a JSON or JWT presentation that ParsePresentation accepts is covered by a proof that a configured checker accepted, and the presentation returned says what that object says.",
  "every input and option set (CWT presentations: next property)", "all inputs", ["verifiable/presentation.go: ParsePresentation, newPresentation", "verifiable/presentation_parser.go: PresentationJSONParser, presentationEnvelopedParser", "verifiable/embedded_proof.go: checkEmbeddedProofBytes"])
p("CWT presentations are checked", "With proof checking on, a CWT presentation is accepted only if its signature was.",
  "every CWT presentation", "all inputs", ["verifiable/presentation_parser.go: PresentationCWTParser"])
p("Enclosed tokens are checked", "With proof checking on, every credential that a presentation encloses as a text (JWT, SD-JWT or CWT), accepted by ParsePresentation, has an issuer and was accepted by the proof checker for that issuer.",
  "every presentation and enclosed token", "all inputs", ["verifiable/presentation.go: decodeCredentials, newPresentation"])
p("Enclosed objects are checked", "With proof checking on, every credential enclosed in an accepted presentation is covered by an accepted proof.",
  "every presentation and enclosed credential", "all inputs", ["verifiable/presentation.go: decodeCredentials"])
p("The holder check", "With the holder check on, a presentation is accepted only if, when its credentials speak of exactly one subject, every credential secured by a key of the same DID as a proof of the presentation was issued by the holder; the check refuses nothing else.",
  "every presentation whose proofs name verification methods", "all presentations", ["verifiable/presentation.go: validateHolder, executeChecks"])
p("The holder signed", "With the holder check on, an accepted JWT presentation was signed with a key of its holder.",
  "every JWT presentation", "all presentations", ["verifiable/presentation.go: validateHolder", "verifiable/presentation_jws.go: unmarshalPresJWSClaims"])
p("JWT presentations carry the registered claims", "The object of a parsed JWT presentation is its vp claim with a non-empty iss as holder and a non-empty jti as id; nothing else differs.",
  "every JWT presentation", "all payloads", ["verifiable/presentation_jwt.go: refineFromJWTClaims"])
p("Presentations are validated", "Every accepted presentation satisfies the JSON schema of the data model named by its first context, JSON-LD validation unless disabled, and has a credential when one is required.",
  "every input and option set", "all inputs", ["verifiable/presentation.go: validateVP, validateVPJSONSchema, validateVPJSONLD"])
p("ParsePresentation does not panic", "ParsePresentation returns a presentation or an error, given calm libraries and checkers and usable JWT payloads.",
  "every input", "all inputs", ["verifiable/presentation.go: ParsePresentation"])
p("Any presentation payload is handled", "ParsePresentation returns a presentation or an error for every JWT payload.",
  "every payload", "all payloads", ["verifiable/presentation_jwt.go: refineFromJWTClaims", "verifiable/presentation_jwt_unsecured.go"])
p("Every member of a presentation is covered", "The embedded proof of an accepted JSON presentation covers every member of it.",
  "every JSON presentation", "all members", ["verifiable/embedded_proof.go: checkEmbeddedProofBytes"])
p("Expired presentations are refused", "ParsePresentation refuses a JWT presentation whose exp has passed.",
  "every JWT presentation and time", "all times", ["verifiable/presentation_jws.go: unmarshalPresJWSClaims"])
p("Signing a presentation as a JWT and parsing it", "What CreateJWTVP signs, minimised or not, given as the token, as a JSON string or in the envelope that MarshalJSON writes, is parsed back to the same presentation with the credentials it encloses (when it has a holder, an id or an audience).",
  "every presentation with string contexts, every signer, checker that accepts the token, and text of the token", "all presentations", ["verifiable/presentation_jwt.go: newJWTPresClaims, refineFromJWTClaims", "verifiable/presentation.go: MarshalJSON, CreateJWTVP, ParsePresentation"])
p("Every signed JWT presentation can be parsed", "ParsePresentation returns for every token that CreateJWTVP produces.",
  "every presentation", "all presentations", ["verifiable/presentation_jwt.go: refineFromJWTClaims"])
p("Signing a presentation as a CWT and parsing it", "What CreateCWTVP signs (not minimised), in hexadecimal or in the envelope, is parsed back to the same presentation.",
  "every presentation with string contexts and every signer", "all presentations", ["verifiable/presentation.go: CreateCWTVP, MarshalJSON", "verifiable/presentation_parser.go: PresentationCWTParser"])
p("Minimised CWT presentations", "A minimised CWT presentation is parsed back with its holder and id, as a minimised JWT presentation is.",
  "every presentation with a holder or an id", "all presentations", ["verifiable/presentation_parser.go: PresentationCWTParser"])
p("Marshalling a JSON presentation and parsing it", "The JSON text of a presentation that is neither JWT nor CWT is parsed back to the same presentation.",
  "every such presentation and every member order", "all presentations", ["verifiable/presentation.go: MarshalJSON, raw, ParsePresentation, newPresentation"])
p("A CWT presentation is marshalled with its signature", "MarshalJSON of a CWT presentation writes its token.",
  "every CWT presentation", "all presentations", ["verifiable/presentation.go: MarshalJSON"])
p("Contexts are kept", "Parsing a presentation and marshalling it keeps its contexts.",
  "every presentation", "all contexts", ["verifiable/presentation.go: raw, newPresentation"])
p("An added data integrity proof is accepted", "AddDataIntegrityProof of a JSON credential without proofs gives a credential whose JSON text ParseCredential accepts with proof checking on (same purpose, domain, challenge, before expiry): same contents, exactly that proof, other members unchanged.",
  "every credential, signing context, fitting signer and verifier, and member order of the text", "all credentials and contexts", ["verifiable/data_integrity_proof.go: AddDataIntegrityProof, addDataIntegrityProof, checkDataIntegrityProof", "verifiable/embedded_proof.go", "dataintegrity/signer.go", "dataintegrity/verifier.go"])
p("Adding a proof keeps the others", "AddDataIntegrityProof of a credential that already has proofs keeps them and adds one that is accepted.",
  "every credential with proofs", "all credentials", ["verifiable/data_integrity_proof.go: AddDataIntegrityProof"])
p("An added proof of a presentation is accepted", "AddDataIntegrityProof of a JSON presentation without proofs gives a presentation whose JSON text ParsePresentation accepts with proof checking on, with exactly that proof and nothing else changed.",
  "every presentation with string contexts, signing context, fitting signer and verifier, and member order", "all presentations", ["verifiable/data_integrity_proof.go: AddDataIntegrityProof", "verifiable/presentation.go: MarshalJSON, ParsePresentation", "verifiable/presentation_parser.go"])
p("An added proof is marshalled", "After AddDataIntegrityProof, MarshalJSON writes the proof.",
  "every JWT or CWT credential, every JWT presentation", "all credentials and presentations", ["verifiable/data_integrity_proof.go: AddDataIntegrityProof", "verifiable/credential.go: ToUniversalForm", "verifiable/presentation.go: MarshalJSON"])
p("Related resources are checked against their digests", "When the related-resource validator accepts credentials, the bytes received (status 200, not empty) from every related resource's URL at some time hash to the digest the credential gives, under the algorithm it names.",
  "every list of credentials, schedule of the goroutines, cache history (evictions, additions by other concurrent users) and server behaviour", "schedules and cache histories cannot be enumerated", ["verifiable/related_resource.go: Validate, Fetch, validateSingleResource, validateHash, calculateHashes"])
p("The validator's verdict does not depend on the schedule", "With servers that always answer the same, the related-resource validator accepts if and only if every related resource can be fetched and matches its digest, whatever the interleaving and the cache.",
  "every schedule, cache history and list of resources", "all interleavings", ["verifiable/related_resource.go: Validate, Fetch"])
p("The related-resource validator terminates", "Validate needs at most five steps per related resource and is never stuck: whenever it has not returned, some goroutine or the caller can proceed, and no goroutine panics (when every base64url digest has at least two bytes and every request is answered).",
  "every schedule and reachable state", "deadlock freedom ranges over all interleavings", ["verifiable/related_resource.go: Validate, Fetch"])
p("A digest cannot end the process", "Whatever digest a credential carries, validating related resources returns a verdict.",
  "every digest", "all digests", ["verifiable/related_resource.go: validateHash"])
p("Right digests are accepted and wrongly labelled ones refused", "A digestSRI or digestMultibase that encodes the resource's hash in base64url is accepted; one whose multihash header names another algorithm is refused.",
  "every hash value", "depends on the value of the hash", ["verifiable/related_resource.go: validateSingleResource, validateHash"])
p("A changed resource is refused", "If a resource no longer matches its digest when Validate is called, Validate fails.",
  "every cache history", "needs the cache's history", ["verifiable/related_resource.go: Fetch"])
p("The in-memory store is linearizable", "Every concurrent history of Put, Get, GetTags, GetBulk, Delete, Batch and single-tag Query on one in-memory store has a sequential order of the calls that respects real time and in which each call does what the store's documentation says: reads return the last write, a batch takes effect at once, errors change nothing, a query returns exactly the matching entries.",
  "every initial contents, number of concurrent calls and interleaving of their accesses to the map and the lock", "interleavings cannot be enumerated", ["legacy/mem/mem.go: memStore.Put, Get, GetTags, GetBulk, Query, Delete, Batch, getMatchingKeysAndDBEntries, commonDBEntries"])
p("The in-memory store does not deadlock", "Whenever a call on the store has not returned, some call can proceed without a new one being made.",
  "every reachable state", "all interleavings", ["legacy/mem/mem.go: memStore"])
p("A query of several tags is atomic", "The result of a query of several tags joined by && is right for some moment during the query.",
  "every interleaving", "all interleavings", ["legacy/mem/mem.go: Query"])
p("Queries return exactly the matching entries", "Without concurrent writes, Query returns each entry that carries every tag (name, or name and value) asked for exactly once, and nothing else; a well-formed expression with distinct tag names is never refused.",
  "every store contents, expression, map iteration order and number of concurrent readers", "all contents and iteration orders", ["legacy/mem/mem.go: Query, getMatchingKeysAndDBEntries, commonDBEntries"])
p("A tag asked for twice", "A query for two values of one tag returns only entries that have both.",
  "every expression", "all expressions", ["legacy/mem/mem.go: Query"])
p("Batch checks tags as Put does", "Batch refuses tags that Put refuses.",
  "every batch", "all batches", ["legacy/mem/mem.go: Put, Batch"])
p("The iterator gives each result once", "Reading the iterator to the end with Next, Key, Value and Tags gives the results of the query in order, once; afterwards Next stays false, Key, Value and Tags fail; TotalItems is the number of results throughout.",
  "every list of results", "all results", ["legacy/mem/mem.go: memIterator"])
p("Stores are found by name and separate", "Opening a store twice under names equal up to case gives the same store, under different names different ones; opening loses no data; writing through one handle changes only that store.",
  "every history of opening, closing, configuring and writing", "histories", ["legacy/mem/mem.go: OpenStore, SetStoreConfig, Close, removeStore"])
p("Closing a store affects this store only", "Closing a store deletes its data, and closing a handle does not affect a store opened later.",
  "every history", "histories", ["legacy/mem/mem.go: memStore.Close, removeStore"])
p("Resolving a status list returns what was delivered", "Resolve succeeds exactly when the list credential was delivered and parses: for an http URL, in the body of a 200 answer to the GET of that URL; for a DID URL, as the data of the first entry with the requested object id in an all-200 answer of that DID's identity hub to the first collections query in the URL. What is delivered is determined by the URL and the world.",
  "every URL, token, DID document, hub answer and server behaviour", "all URLs and answers", ["status/resolver/resolver.go: Resolve, resolveDIDRelativeURL, sendHTTPRequest, getQueries", "status/internal/identityhub/identityhub.go: GetRequest, ServiceEndpoint, CheckStatus, GetMessageData"])
p("One request, to the right place", "A Resolve makes at most one HTTP request: the GET of the URL, or one POST to the identity hub of the DID before the '?', with one message, the first collections query of the URL; a non-empty bearer token, and only that, is attached.",
  "every URL, token and DID document", "all URLs and documents", ["status/resolver/resolver.go: Resolve, resolveDIDRelativeURL, sendHTTPRequest, getQueries", "status/internal/identityhub/identityhub.go: GetRequest, ServiceEndpoint, CheckStatus, GetMessageData"])
p("Failed exchanges give no credential", "Any HTTP status but 200, an unreadable body, a request-level or message-level hub status but 200, or no entry with the object id makes Resolve fail.",
  "every answer", "all answers and nestings", ["status/resolver/resolver.go: Resolve, resolveDIDRelativeURL, sendHTTPRequest, getQueries", "status/internal/identityhub/identityhub.go: GetRequest, ServiceEndpoint, CheckStatus, GetMessageData"])
p("Status list DID URLs round-trip", "A DID URL made with standard base64 and query escaping of any JSON query text makes the hub be asked exactly the first collections query of that text.",
  "every text (any bytes), DID and hub", "all byte strings", ["status/resolver/resolver.go: Resolve, resolveDIDRelativeURL, sendHTTPRequest, getQueries", "status/internal/identityhub/identityhub.go: GetRequest, ServiceEndpoint, CheckStatus, GetMessageData"])
p("Status verification end to end", "When VerifyStatus with this resolver accepts, every status entry's bit is clear in the list delivered for its URL, and that list names the credential's issuer.",
  "every credential, list of entries and delivered lists", "all lists and indices", ["status/status.go: VerifyStatus, verifyStatus", "status/resolver/resolver.go: Resolve"])
p("The status list is authenticated", "A list credential used for a status check carries a valid proof of its issuer.",
  "every delivered list", "all deliveries", ["status/resolver/resolver.go: Resolve"])
p("The hub's answer is for the question", "Data returned for a DID URL is for exactly the object asked for, in the answer to that very request.",
  "every hub answer", "all answers", ["status/internal/identityhub/identityhub.go: GetMessageData, CheckStatus", "status/resolver/resolver.go: resolveDIDRelativeURL"])
p("The hub address is determined by the document", "If the hub service has a plain endpoint or an endpoint object all of whose usable members name one address, that address is asked.",
  "every DID document and map iteration order", "map order is random", ["status/internal/identityhub/identityhub.go: ServiceEndpoint, getDIDCoreServiceEndpoint"])
p("The hub address does not depend on map order", "For every DID document the address asked is the same on every call.",
  "every DID document and iteration order", "map order is random", ["status/internal/identityhub/identityhub.go: getDIDCoreServiceEndpoint"])
p("Resolving a status list does not panic", "Resolve returns when DID resolution delivers documents and parsing the delivered bytes does not panic.",
  "every URL and answer", "all inputs", ["status/resolver/resolver.go: Resolve, resolveDIDRelativeURL, sendHTTPRequest, getQueries", "status/internal/identityhub/identityhub.go: GetRequest, ServiceEndpoint, CheckStatus, GetMessageData"])
p("A missing DID document is an error", "A DID resolution without a document makes Resolve fail with an error.",
  "every resolution result", "all results", ["status/resolver/resolver.go: resolveDIDRelativeURL"])
_DISP = ["verifiable/credential_sdjwt.go: CreateDisplayCredential, CreateDisplayCredentialMap, filterDisclosureList, clearEmpty", "sdjwt/common/common.go: GetDisclosedClaims"]
p("Displaying an SD-JWT credential", "CreateDisplayCredentialMap of a parsed SD-JWT credential returns its document in which the digests of exactly the chosen disclosures (all, or those with a given claim name) are replaced by what they disclose, all other digests and _sd, _sd_alg members are gone, and objects of the subject with nothing in them are left out.",
  "every token, set of disclosures (nested, in objects and arrays) and choice", "all nestings and choices", _DISP)
p("Displaying all disclosures", "With DisplayAllDisclosures the result is the fully resolved credential, and no digest is left in it.",
  "every token and set of disclosures", "all nestings", _DISP)
p("Displaying shows nothing else", "Every value and member name displayed is in the token in clear or belongs to a chosen disclosure.",
  "every token, set of disclosures and choice", "all values", _DISP)
p("CreateDisplayCredential agrees with the map", "CreateDisplayCredential returns a credential with the same document as CreateDisplayCredentialMap without its proof, with no envelope and no proofs, and fails only if that document is not a credential.",
  "every token and choice", "all documents", _DISP)
p("Displaying other credentials", "A credential that is not an SD-JWT credential is displayed unchanged; asking for all and for given disclosures at once is refused.",
  "every credential and options", "all credentials", _DISP)
p("Only given names are displayed", "With DisplayGivenDisclosures, a selectively disclosable claim whose name was not given is not shown.",
  "every token and list of names", "all nestings", _DISP)
p("What was parsed can be displayed", "Every SD-JWT credential accepted by ParseCredential can be displayed.",
  "every token", "all tokens", _DISP)
p("Making, presenting and displaying an SD-JWT credential", "MakeSDJWT of a credential and presenting the token with any of its disclosures gives a text ParseCredential accepts; its contents are the credential's (dates to the second), and the displayed document is the credential's with, as subject, the identifier, the claims listed as not selectively disclosable and exactly the claims whose disclosures were presented.",
  "every credential, list of clear claims, subset of disclosures, salt and shuffle", "all credentials and subsets", ["verifiable/credential_sdjwt.go: MakeSDJWT, makeSDJWT, CreateDisplayCredentialMap", "sdjwt/issuer/issuer.go: NewFromVC", "verifiable/credential.go: ParseCredential"])
p("Making, presenting and displaying an SD-JWT credential in the v5 format", "The same with the v5 format, whose claims can be hidden inside hidden claims: every set of disclosures that contains, with each disclosure, those it is inside of, is accepted, and exactly what it reveals is displayed.",
  "every credential, options (clear, always included, recursive), closed set of disclosures", "all credentials and nestings", ["verifiable/credential_sdjwt.go: MakeSDJWT, makeSDJWT", "verifiable/credential_jwt.go: ToSDJWTV5CredentialPayload, UnmarshalJSON", "sdjwt/issuer/v5.go"])
_CRE = ["proof/creator/creator.go: New, WithLDProofType, WithJWTAlg, SignLinkedDocument, SignJWT, SignCWT, LDPJWTAlg, CreateJWTHeaders", "proof/jwtproofs", "proof/ldproofs"]
_LDP = ["verifiable/linked_data_proof.go: addLinkedDataProof, mapContext", "verifiable/lddocument/signer.go: DocumentSigner.Sign", "verifiable/credential_ldp.go: AddLinkedDataProof", "verifiable/presentation_ldp.go: AddLinkedDataProof"]
_DID = ["verifiable/did_ldp.go: AddDIDLinkedDataProof, VerifyDIDProof", "verifiable/did_data_integrity.go: AddDIDDataIntegrityProof", "verifiable/embedded_proof.go: checkEmbeddedProof", "verifiable/lddocument/verifier.go: VerifyObject"]
p("A proof creator signs with the first fitting registration", "SignLinkedDocument succeeds exactly when the first registration for the proof's type takes keys of the given type and its signer succeeds, and returns that signer's signature; SignJWT and SignCWT sign with the first registration for the algorithm and refuse unregistered ones.",
  "every list of registrations, proof type, algorithm, key type and message", "all configurations", _CRE)
p("The JWS algorithm named in a linked-data proof", "LDPJWTAlg returns an algorithm only if the proof type takes keys of the given type, and then the non-empty algorithm of the first JWT registration taking them; with the library's own descriptors the algorithm is fixed by the key type, whatever the order of registration.",
  "every list of registrations and key type; every order of the default descriptors", "all configurations and orders", _CRE)
p("Each algorithm is signed with by its own signer", "When the registered JWT algorithms are distinct, signing for one of them uses the signer registered with it (JWT); the same holds for CWT with the library's descriptors.",
  "every list of registrations", "all configurations", _CRE)
p("AddLinkedDataProof appends exactly one proof", "A successful AddLinkedDataProof keeps every earlier proof and every other member, and appends one proof with exactly the context's type, key id, domain, challenge, capability chain, purpose (default assertionMethod) and time (default now), signed by the context's creator over the document; a failed call leaves the credential unchanged.",
  "every credential, context, creator and earlier proofs", "all credentials and contexts", _LDP)
p("A linked-data proof added to a credential is accepted", "After AddLinkedDataProof, the JSON text of the credential is accepted by ParseCredential with proof checking on: same contents, earlier proofs and the new one.",
  "every credential, context and fitting creator/checker pair", "all credentials", _LDP)
p("A linked-data proof added to a presentation is accepted", "The same for presentations and ParsePresentation, the expected issuer being the DID in the proof's key id.",
  "every presentation, context and fitting creator/checker pair", "all presentations", _LDP)
p("Verifying DID document proofs", "VerifyDIDProof accepts a document with linked-data proofs only if every proof verifies over it with a key that the DID named in the proof's key id has in its document, outside key agreement, fitting the proof's type; a proof added by AddDIDLinkedDataProof is accepted.",
  "every DID document, options, resolver and context", "all documents", _DID)
p("An accepted DID document is signed by its own DID", "A DID document accepted by VerifyDIDProof is signed with a key of the DID it describes.",
  "every document", "all documents", _DID)
p("A data integrity proof added to a DID document is accepted", "AddDIDDataIntegrityProof changes nothing but the proof member, and its result is accepted by VerifyDIDProof configured with the matching verifier, purpose, domain and challenge.",
  "every DID document without a proof, context and fitting signer/verifier pair", "all documents", _DID)
p("A linked-data proof added to a JWT credential is marshalled", "A proof added with AddLinkedDataProof to a JWT or CWT credential is part of its marshalled form.",
  "every credential", "all credentials", _LDP)
p("JWT headers of a proof creator", "CreateJWTHeaders writes exactly the algorithm and, when non-empty, the key id; a JWT signed by a creator and checked by a checker with the fitting registrations is accepted.",
  "every algorithm, key id, message, list of registrations", "all configurations", ["proof/creator/creator.go: CreateJWTHeaders, SignJWT", "proof/checker/checker.go: CheckJWTProof"])
_BBS = ["verifiable/bbs_selective_disclosure.go: BBSSelectiveDisclosure, buildDocVerificationData, buildProofVerificationData, generateSignatureProof, getBlsProofs", "verifiable/credential_bbs.go: GenerateBBSSelectiveDisclosure", "proof/ldproofs/bbsblssignatureproof2020/proof.go: GetCanonicalDocument", "crypto-ext/verifiers/bbs/verifier.go"]
p("The shape of a BBS+ disclosure", "BBSSelectiveDisclosure returns the framed document with, as proof, an array with one derived proof for each BBS+ proof of the document, in their order; each derived proof carries the key id, purpose and creation time of its original, the nonce given and nothing else.",
  "every document, frame, nonce, creator and JSON-LD processor", "all documents and frames", _BBS)
p("A BBS+ disclosure reveals what the frame asks for", "The derivation reveals, in ascending order, all statements of the original proof's options and exactly the statements of the framed document, and no other statement of the credential.",
  "every document whose statements are distinct and frame whose statements are among the document's", "all documents and frames", _BBS)
p("A frame never reveals statements outside it", "A statement in the framed document that is not in the document is reported, and nothing outside the framed document is revealed.",
  "every document and frame", "all documents and frames", _BBS)
p("A derived BBS+ proof verifies", "For a document with a valid BBS+ proof, the proof derived for any frame is accepted by a proof checker set up for BBS+ derived proofs with the issuer's key.",
  "every document, frame, nonce, correct BBS+ scheme and canonicalisation", "all documents and frames", _BBS)
p("Derived proofs verify under keys published as JWK", "A derived proof verifies under the issuer's key whatever the form in which the key is published.",
  "every key", "all keys", _BBS)
p("No BBS+ proof, no disclosure", "A document without a BBS+ proof is refused; what was disclosed is not disclosed again.",
  "every document and frame", "all documents", _BBS)
p("BBS+ disclosure does not crash", "With a proof creator, BBSSelectiveDisclosure returns a document or an error for every document and frame.",
  "every document (of any JSON shape), frame and nonce", "all documents", _BBS)
p("A missing BBS+ proof creator is reported", "Disclosure without a proof creator returns an error.",
  "every document", "all documents", _BBS)
p("A disclosed credential is the parsed disclosure", "GenerateBBSSelectiveDisclosure succeeds only for a credential with proofs, and its result is the credential parsed from the disclosure of its JSON document, with the derived proofs as proofs.",
  "every credential, frame and nonce", "all credentials", _BBS)
p("A derived proof is checked with the options that were signed", "The proof options a verifier rebuilds from a derived proof are those of the original proof, which the issuer signed.",
  "every original proof", "all proofs", _BBS)
_CWT = ["verifiable/cwt/cbor.go: deterministicBinaryString", "verifiable/cwt/cwt.go: GetProofValue", "cwt/cwt.go: ParseAndCheckProof, Parse, CheckProof", "cwt/wrappers.go: Verify"]
_COSE = ["verifiable/cose.go: marshalCOSE", "verifiable/credential.go: CreateSignedCOSEVC", "verifiable/credential_parser.go: CredentialCBORParser.Parse"]
p("The bytes a CWT signature covers", "Parse accepts exactly the tagged COSE_Sign1 arrays of a protected header, an unprotected header, a payload and a non-empty signature, and GetProofValue of the message is the RFC 9052 Sig_structure of the protected header's content and the payload, with context Signature1 and no external data.",
  "every byte string", "all byte strings", _CWT)
p("CWT signed bytes are unambiguous", "Two messages with the same to-be-signed bytes have the same protected header and the same payload (or both none).",
  "every pair of messages", "all pairs of messages", _CWT)
p("The protected header is normalised", "Whatever form the length of the protected header's byte string has, the to-be-signed bytes contain its shortest form; a text is accepted there exactly when it is one byte string.",
  "every byte string", "all byte strings", _CWT)
p("GetProofValue does not crash", "GetProofValue returns bytes or an error for every message, whatever bytes its raw protected header holds.",
  "every message", "all messages", _CWT)
p("What ParseAndCheckProof accepts", "ParseAndCheckProof succeeds exactly for COSE_Sign1 messages with an algorithm and a COSE_Key text in the protected header and, when the issuer is to be checked, a text issuer claim, for which the checker accepts the Sig_structure and the signature with the header's key id, key material and algorithm, and with that issuer (or the DID of the key id); it returns the message and its payload.",
  "every byte string, checker and setting", "all byte strings", _CWT)
p("Only signed content matters to a CWT check", "Two messages with the same to-be-signed bytes and signature get the same verdict and payload from ParseAndCheckProof.",
  "every pair of messages, checker and setting", "all pairs of messages", _CWT)
p("A checked CWT is signed by a key of its issuer", "With the default checker, a DID resolver and the issuer check, an accepted message with a non-empty issuer claim is signed by a key of that issuer's DID document, found under the header's key id, fitting the algorithm.",
  "every byte string and DID resolver", "all byte strings", _CWT)
p("The issuer check binds the key to the issuer claim", "With the issuer check, the key that verified belongs to the issuer claim of the message, whatever that claim is.",
  "every byte string", "all byte strings", _CWT)
p("marshalCOSE then Parse", "marshalCOSE signs the Sig_structure of its header and payload, and Parse of its bytes gives the same payload, algorithm, key id, signature and to-be-signed bytes.",
  "every payload, algorithm, key id and signer", "all payloads", _COSE + _CWT)
p("ParseAndCheckProof verifies what the library signs", "A message made by marshalCOSE is accepted by cwt.ParseAndCheckProof with a checker that accepts its signature.",
  "every payload and signer", "all payloads", _COSE + _CWT)
p("A CWT credential survives down to the bytes", "Parsing the hex text of a credential signed with CreateSignedCOSEVC gives the same JSON object, contents and envelope, for credentials whose values survive CBOR.",
  "every credential with UTF-8 texts, float64 numbers and at most 31 levels", "all credentials", _COSE)
p("Every signed CWT credential can be parsed", "What CreateSignedCOSEVC returns for a credential, ParseCredential reads.",
  "every credential, of any depth", "all credentials", _COSE)
p("CWT and JWT signatures are not interchangeable", "The to-be-signed bytes of a CWT are never the signing input of a compact JWS.",
  "every header and payload on either side", "all headers and payloads", _CWT)
p("Converting CBOR maps is independent of map order", "The JSON object made from a decoded CBOR map does not depend on the order in which the map is visited, and has one member per entry, when the key texts are distinct.",
  "every decoded map and visiting order", "all maps and orders", ["verifiable/credential_parser.go: convertToStringMap, convertElement"])
p("Converting CBOR maps gives one result", "The JSON object made from a decoded CBOR map does not depend on the order in which the map is visited.",
  "every decoded map and visiting order", "all maps and orders", ["verifiable/credential_parser.go: convertToStringMap, convertElement"])
p("An accepted CWT has one byte form", "Of the byte strings with a given signed content and signature, at most one is accepted.",
  "every accepted message", "all messages", _CWT)
p("A CWT presentation survives down to the bytes", "Parsing the token text of a presentation signed as CWT (bare, quoted or enveloped) gives the same presentation, for claims that survive CBOR.",
  "every presentation with UTF-8 texts, float64 numbers and at most 31 levels", "all presentations", ["verifiable/presentation.go: CreateCWTVP", "verifiable/cose.go: marshalCOSE"])

_LIM = ["presexch/definition.go: limitDisclosure, createNewCredential, copyOnlySubjectIDs, compactArrayPaths", "util/json/json.go: Select"]
_ENH = ["presexch/definition.go: createNewCredential, enhanceRevealDoc, enhanceRevealField"]
p("A limited credential says what was asked for and nothing else", "When limit_disclosure is required, the credential that CreateVP puts in place of one that is neither SD-JWT nor BBS+ signed contains only the members id, type, @context, issuer and issuanceDate, the ids of the subjects, and the values (or, for predicates, the value true) at the paths that were asked for, arrays compacted to the mentioned elements; and when no array is entered by two fields and no requested value contains another, it contains all of them.",
  "every credential, constraints and evaluation of the paths to plain member names", "all credentials and constraints", _LIM)
p("Members nobody asked for", "Of the members no requested path starts with, a limited credential has exactly the five kept ones (null when the original has none); in particular expiry, status, and proof are gone.",
  "every credential, constraints and member name", "all credentials", _LIM)
p("Which credentials are limited", "Without constraints, or with neither limits nor predicates, a credential is handed over unchanged; with required limits and no predicate it is left out exactly when it is not an SD-JWT, has no BBS+ proof and is not issued by one of its subjects; at most one credential results from one.",
  "every credential and constraints", "all credentials and constraints", _LIM)
p("The limited document exists", "When the requested paths are plain, separate, present in the credential and do not enter an array of the template by name, building the limited document does not fail.",
  "every credential and set of fields", "all credentials and fields", _LIM)
p("The frame of a BBS+ derivation", "For requests of members inside objects, the frame given to the BBS+ derivation consists of exactly: the template, the requested values, the mark @explicit at the root and at every ancestor of a requested value, and the types and contexts of those ancestors - whatever the iteration order of Go's maps.",
  "every credential, set of fields and map iteration order", "all credentials and iteration orders", _ENH)
p("Predicates without limits", "When only predicates are required, the resulting credential has the value true at the requested places and everything nobody asked for unchanged.",
  "every credential and set of fields", "all credentials and fields", _LIM)
p("Claims stay with their subject", "In a limited credential with several subjects, every claim next to a subject id was made about that subject.",
  "every credential with several subjects", "all credentials", _LIM)
p("Fields selecting from one array are all answered", "Two fields that select different elements of one array both find their values in the limited credential.",
  "every credential and set of fields", "all credentials and fields", _LIM)
p("The value a predicate is about is not handed over", "After a predicate, the original value is not at its place any more.",
  "every credential and predicate", "all credentials and predicates", _LIM)
p("Members with dotted names can be asked for", "A value whose path has a member name with dots is in the limited credential.",
  "every credential and path", "all credentials and paths", _LIM)
p("Only the first alternative path is disclosed", "Of several paths of a field, only the first that has a value is disclosed.",
  "every credential and field", "all credentials and fields", _LIM)
p("Only credential schemas are withheld", "Every requested value that is not below a member called credentialSchema is in the limited credential.",
  "every credential and path", "all credentials and paths", _LIM)
p("BBS+ credentials can be limited to array elements", "Limiting a BBS+ signed credential to values inside arrays succeeds whenever the derivation does.",
  "every BBS+ signed credential and set of fields", "all credentials and fields", _ENH)
p("The frame has members of the credential", "Every member of the frame of a BBS+ derivation is @explicit or a member of the credential.",
  "every BBS+ signed credential and set of fields", "all credentials and fields", _ENH)
p("No stale proofs", "A credential whose claims were replaced by predicates does not carry the proofs of the original.",
  "every credential and constraints", "all credentials", _LIM)

_WM = ["presexch/definition.go: MatchSubmissionRequirement, makeRequirementsForMatch, matchRequirement, filterCredentialsThatMatchDescriptor"]
_CV = ["presexch/definition.go: CreateVP, CreateVPArray, presentationData, presentation, getBaseContext, applyRequirement"]
p("MatchSubmissionRequirement lists exactly the matching credentials", "Without selective disclosure, the answer has the shape of the definition's submission requirements (names, purposes, rules, bounds, groups, nesting), and for every input descriptor it lists exactly those credentials of the wallet, in order, that have the first applicable claim format the wallet has, offer the schemas and satisfy the constraints; the wallet is unchanged.",
  "every definition (constraints with fields, filters with types), wallet, document loader and JSON path evaluator", "all definitions and wallets", _WM)
p("When MatchSubmissionRequirement fails", "It fails only for an invalid definition, a requirement naming a group no descriptor has, a credential with a context that cannot be loaded (when a descriptor lists schemas) or a field all of whose paths are malformed; it never panics.",
  "every definition and wallet", "all definitions and wallets", _WM)
p("With selective disclosure the limited credentials are listed", "With selective disclosure, and no SD-JWT credential asked for with limited disclosure, every descriptor lists what framing, matching and limiting make of the wallet's credentials, in order; the wallet's credentials are unchanged.",
  "every definition, wallet, framing and limiting", "all definitions and wallets", _WM + ["presexch/definition.go: frameCreds, limitDisclosure"])
p("MatchSubmissionRequirement foretells CreateVP", "CreateVP's search succeeds exactly when some set of listed descriptors with non-empty lists meets the submission requirements; it then submits only credentials listed for the descriptors of such a set, the descriptor map names exactly that set, and (identifiers being distinct) every listed credential of the set is present at the place the map says.",
  "every definition with distinct descriptor ids, and every wallet", "all definitions and wallets", _WM + _CV)
p("Every listed credential can be submitted", "A credential that MatchSubmissionRequirement lists for a descriptor can be submitted for it by CreateVP.",
  "every definition and wallet", "all definitions and wallets", _WM + _CV)
p("A bigger wallet matches at least as much", "Adding a credential to the wallet does not take matches away.",
  "every definition, wallet and credential", "all wallets", _WM + ["presexch/definition.go: filterFormat"])
p("Without formats credentials match one by one", "When neither descriptor nor definition names a claim format, whether a credential matches depends on that credential and the descriptor only; adding credentials to the wallet adds matches and takes none away.",
  "every definition without formats, and all wallets", "all wallets", _WM)
p("A credential that does not match does no harm", "Other credentials in the wallet do not make matching fail.",
  "every definition and wallet", "all wallets", _WM + ["presexch/definition.go: filterSchema, getContext"])
p("A query leaves the wallet as it is", "MatchSubmissionRequirement does not change the credentials of the wallet.",
  "every definition and wallet", "all wallets", _WM + ["presexch/definition.go: limitDisclosure"])
p("What a definition asks for is enforced", "is_holder constraints of a descriptor restrict the matching credentials.",
  "every definition", "all definitions", _WM + ["presexch/definition.go: filterConstraints, Holder"])
p("An empty schema list is no restriction", "A descriptor with an empty list of schemas matches like one without schemas.",
  "every definition", "all definitions", _WM + ["presexch/definition.go: filterSchema"])
p("The presentations CreateVP and CreateVPArray make", "They succeed exactly when the search does and all selected credentials (of one presentation) start with the same base context, v1 or v2; the presentation has that context followed by the presentation submission context, the types VerifiablePresentation and PresentationSubmission, the selected credentials in order, and (CreateVP) the submission with the definition's id and the descriptor map; CreateVPArray makes one presentation per credential.",
  "every definition and wallet", "all definitions and wallets", _CV)
p("CreateVP succeeds whenever the wallet satisfies the definition", "When the search finds credentials, CreateVP makes a presentation of them.",
  "every definition and wallet", "all definitions and wallets", _CV)

_JS = ["verifiable/credential.go: SchemaTemplateV1, SchemaTemplateV2, JSONSchemaLoaderV1, JSONSchemaLoaderV2, WithDisableRequiredField, validateCredentialUsingJSONSchema"]
_JP = ["verifiable/presentation.go: v1BasePresentationSchema, v2BasePresentationSchema, validateVPJSONSchema"]
p("The 1.1 credential schema says what it should", "JSONSchemaLoaderV1 accepts exactly the objects with a context list that starts with the 1.1 context (or is empty) and has no repetitions, a type that is or contains VerifiableCredential, issuer a URI or an object with a URI id, date-times, typed identifiers and proofs of the described shape; WithDisableRequiredField removes exactly the named fields from type, credentialSubject, issuer, issuanceDate; @context stays required.",
  "every JSON object, list of disabled fields, URI, date-time and pattern checker", "all JSON objects", _JS)
p("The 2.0 credential schema says what it should", "JSONSchemaLoaderV2 accepts exactly the objects with a context list that contains the 2.0 context, a type that is or contains VerifiableCredential, non-empty subjects, issuer a text or an object with an id, dates of the pattern, typed statuses, schemas, services, terms, evidence and proofs of the described shape; the required fields are type, credentialSubject, issuer minus the disabled ones.",
  "every JSON object, list of disabled fields, URI, date-time and pattern checker", "all JSON objects", _JS)
p("The presentation schemas say what they should", "The 1.1 and 2.0 presentation schemas accept exactly the objects of the shapes of their data models.",
  "every JSON object and checkers", "all JSON objects", _JP)
p("Accepted credentials have the shape of their data model", "A credential that ParseCredential accepts as JSON with schema validation and without a custom schema is an object of the 2.0 shape if the 2.0 context comes first, and of the 1.1 shape otherwise.",
  "every document, options and environment", "all documents", _JS + ["verifiable/credential.go: ParseCredential, getSchemaLoader"])
p("Accepted presentations have the shape of their data model", "A presentation that ParsePresentation accepts, as JSON, JWT or CWT, is an object whose first context is the 1.1 or 2.0 one, and has the shape of that data model.",
  "every document, options and environment", "all documents", _JP + ["verifiable/presentation.go: ParsePresentation"])
p("Created 1.1 credentials pass the default schema", "A credential made with CreateCredential or CreateCredentialWithProofs from contents with the 1.1 context first, distinct contexts, the base type, a subject, a URI issuer, an issuance date, at most one status and typed identifiers with URIs passes the default 1.1 schema.",
  "all contents, extra members and proofs", "all contents", _JS + ["verifiable/credential.go: CreateCredential, CreateCredentialWithProofs, serializeCredentialContents"])
p("Created 2.0 credentials pass the default schema", "A credential made from contents with the 2.0 context first, the base type, non-empty subjects, an issuer and dates of the pattern passes the default 2.0 schema.",
  "all contents, extra members and proofs", "all contents", _JS + ["verifiable/credential.go: CreateCredential, CreateCredentialWithProofs, serializeCredentialContents"])
p("A 1.1 credential may have several statuses", "A 1.1 credential made from contents with several statuses passes the default schema.",
  "all contents", "all contents", _JS)
p("An accepted credential names the base context", "With validation on, an accepted JSON credential has the base context.",
  "every document and validation mode", "all documents", _JS + ["verifiable/credential.go: validateBaseContextWithExtendedValidation"])
p("Every proof of an accepted 1.1 presentation is a proof", "All proofs of a 1.1 presentation have a type.",
  "every presentation", "all presentations", _JP)

_DF = ["presexch/definition.go: ValidateSchema, PresentationDefinition, InputDescriptor, Constraints, Field, Filter, Format, SubmissionRequirement", "presexch/schema.go: DefinitionJSONSchemaV1, DefinitionJSONSchemaV2"]
p("ValidateSchema accepts exactly the definitions of the two versions", "ValidateSchema returns nil exactly for definitions of the shape of Presentation Exchange 1.0 or of 2.0: an id, at least one descriptor with an id, no nil pointers, fields with paths, predicates required or preferred and with a filter, directives required or preferred, submission requirements that at every depth have rule all or pick, no negative bounds and either a group or nested requirements, no CBOR formats, no locale; 1.0: schemas with URIs in every descriptor, typed filters, non-empty format lists, no frame, descriptor formats, optional fields; 2.0: no schemas, filters that are JSON schemas. A nil definition is refused; there is no panic.",
  "every presentation definition (any numbers and nesting), any regular expression matcher, format checkers and meta-schema", "all definitions, with requirements nested to any depth", _DF)
p("An accepted definition can be matched", "A definition that ValidateSchema accepts can be read by MatchSubmissionRequirement and CreateVP without meeting a nil pointer; it has descriptors, its fields have paths, its submission requirements are well formed at every depth, it has no CBOR formats, and its descriptors all have schemas (then filters have types) or none has.",
  "every accepted definition", "all definitions", _DF + ["presexch/definition.go: MatchSubmissionRequirement, CreateVP"])
p("Everything the definition types express can be asked for", "cwt_vc and cwt_vp formats, locale, descriptor metadata and optional predicate fields can be used in a definition.",
  "every definition with one of these", "all definitions", _DF)
p("Features of definitions can be combined", "A definition with schemas can also have a frame, descriptors with formats or without schemas, optional fields or intent_to_retain.",
  "every definition with schemas", "all definitions", _DF)
p("Accepted definitions are consistent", "A definition that ValidateSchema accepts has descriptors with different ids, groups that exist and bounds that can be met.",
  "every accepted definition", "all definitions", _DF)

_SC = ["verifiable/credential.go: ExpirableSchemaCache.Put, ExpirableSchemaCache.Get, CredentialSchemaLoader, getJSONSchema, loadJSONSchema"]
p("Custom schemas come from the cache or the server", "A sequence of custom-schema requests on one loader is answered by the remembered schema of the address while that is good (in whole seconds), without asking the server; otherwise by what the server delivers with status 200, which is then remembered; failures are reported and not remembered; nothing panics. Without a cache the server is asked every time.",
  "every sequence of requests, addresses, times (also running backwards), lifetimes and server answers whose expiry fits 64 bits", "all histories and clocks", _SC)
p("A cached schema is reused within its lifetime, and only what was delivered is", "After a schema was loaded, all requests for its address within the lifetime get it without asking the server, whatever else is requested; and a schema returned without asking was delivered with status 200 to an earlier request for the same address less than the lifetime and a second ago.",
  "every sequence of requests, times, lifetimes and answers", "all histories and clocks", _SC)
p("Concurrent requests get schemas of their own address", "When any number of requests interleave on one loader, with the cache forgetting or declining entries and the clock jumping, no request panics, a returned schema was delivered with status 200 for that address, and one from the cache was stored under that address and still good.",
  "every number of requests, interleaving, clock and server behaviour", "all schedules", _SC)
p("A cached schema is not served after its lifetime", "A schema is served from the cache at most for the configured expiration.",
  "every history", "all histories and clocks", _SC)

_MT = ["presexch/api.go: Match, WithMergedSubmission, WithMergedSubmissionMap, selectVC, getMatchedCreds, parseDescriptorMap, getDescriptorMapping, getTypelessVP, checkJSONLDContextType"]
p("Descriptor maps survive their JSON form", "A presentation submission put into a presentation, or given to Match as a map, in its JSON form is read back with exactly its descriptor map: identifiers, formats, paths and nested mappings.",
  "every submission, with mappings nested to any depth", "all descriptor maps and nesting depths", _MT)
p("Match takes the value a mapping's paths lead to", "For a mapping whose paths are $ followed by member names and indices, the selected value is the one each path leads to, starting from the value of the path before it; a path that starts with a member name and leads nowhere is tried once more inside the member vp; otherwise there is an error, never a panic.",
  "every plain mapping (any number of steps and nesting) and every document", "all paths and documents", _MT)
p("A presentation that carries the credentials is matched", "The descriptor map made for a table of matches, sent with a presentation that carries the credentials as JSON or in the claims of a JWT or CWT (or with one presentation for each credential and a merged submission as a value or a map) is accepted by Match and yields exactly the table; with several presentations every credential comes from its own.",
  "every table of matches, order of the descriptor map, carrier format and number of credentials", "all tables, orders and formats", _MT)
p("What CreateVP makes, Match accepts", "For a definition in which nothing has to be limited or framed, with credentials told apart by their ids, the presentation of CreateVP (or the array and submission of CreateVPArray), sent as JSON, JWT or CWT, is accepted by Match for that definition once every descriptor is answered (always without submission requirements); every descriptor gets a credential and every credential was submitted, from the wallet.",
  "every such definition, wallet and format", "all definitions and wallets", _MT + ["presexch/definition.go: CreateVP, CreateVPArray"])
p("The credential of a mapping is the one its path names", "The credential that Match takes for a mapping is the one its path names in the presentation.",
  "every mapping and presentation", "all documents", _MT)

_OP = ["verifiable/credential.go: WithDisabledProofCheck, WithProofChecker, WithJWTProofChecker, WithLDProofChecker, WithCWTProofChecker, WithBaseContextValidation, WithBaseContextExtendedValidation, WithDataIntegrityVerifier, WithExpectedDataIntegrityFields, WithCredentialSchemaLoader, getCredentialOpts, ParseCredential, ParseCredentialJSON",
       "verifiable/presentation.go: WithPresProofChecker, WithPresDisabledProofCheck, WithPresHolderCheck, getPresentationOpts, ParsePresentation", "verifiable/did_ldp.go: WithDIDProofChecker, VerifyDIDProof"]
p("The last option about a thing counts, and nothing else about the order", "Two lists of options that for every setting have the same last option about it parse every credential, presentation and DID document alike; neighbouring options about different things can change places.",
  "every list of options, environment and text", "all option lists, of any length and order", _OP)
p("Turning a check off never makes a credential refused", "A credential accepted without WithDisabledProofCheck, WithDisabledRelatedResourceCheck or WithCredDisableValidation is accepted with it anywhere in the list, as the same credential but for contexts added by WithExternalJSONLDContext.",
  "every list of options, position and text", "all option lists", _OP)
p("Turning a check off never makes a presentation refused", "A presentation accepted without WithPresDisabledProofCheck, WithDisabledJSONLDChecks, WithPresHolderCheck(false) or WithPresRelatedResourceCheck(false) is accepted with it, as the same presentation (texts of one kind).",
  "every list of options, position and text", "all option lists", _OP)
p("The checker that is used is the last one given", "Unless proof checks are turned off, an accepted credential has an issuer, and its proof was accepted for that issuer by the checker that the last option for its kind of proof gives, with the purpose, domain and challenge of the last WithExpectedDataIntegrityFields; without such an option nothing is accepted.",
  "every list of options and text", "all option lists", _OP)
p("A proof checker that is given is used", "After WithProofChecker(c), an accepted credential was accepted by c.", "every list of options", "all option lists", _OP)
p("An accepted enveloped presentation is the one in its envelope", "A presentation of type EnvelopedVerifiablePresentation that is accepted is the one in its data URL.",
  "every enveloped presentation", "all presentations", ["verifiable/presentation.go: ParsePresentation", "verifiable/presentation_parser.go: presentationEnvelopedParser.parse"])

_AL = ["verifiable/credential.go: CreateCredential, ParseCredentialJSON, WithModifiedContext, WithModifiedTypes, WithModifiedIssuer, WithModifiedSubject, WithModifiedStatus, WithModifiedID, SetCustomField, ToRawJSON, CreateUnsecuredJWTVC, CreateSignedJWTVC, CreateSignedCOSEVC",
       "verifiable/credential_ldp.go: AddLinkedDataProof, ResetProofs", "verifiable/data_integrity_proof.go: AddDataIntegrityProof", "verifiable/common.go: proofsToRaw, parseLDProof", "util/json/json.go: ShallowCopyObj, CopyExcept"]
p("Credentials in memory are values", "When the caller writes only at the top of its own maps and gives a map to ParseCredentialJSON at most once (not using it afterwards), every credential shows the document, contents, proofs and envelope it would have if nothing were shared, and so does every map still owned by the caller.",
  "every sequence of creating, parsing, modifying, signing, proving and reading calls on any number of credentials", "all histories and object graphs", _AL)
p("A credential changes only by calls made on it", "For such callers, a credential is not changed by calls on credentials made from it (modified, signed), nor by the caller's writes to the maps it got from ToRawJSON.",
  "every history before and every continuation", "all histories", _AL)
p("A map from ToRawJSON does not follow the credential", "For such callers, a map changes only when the caller writes it.",
  "every history before and every continuation", "all histories", _AL)
p("A parsed credential is its own", "Writing the map that was given to ParseCredentialJSON, or changing another credential parsed from it, does not change the credential.", "every history", "all histories", _AL[:1])
p("Nested parts of a raw credential are the caller's", "Writing an object inside the map returned by ToRawJSON does not change the credential.", "every history", "all histories", _AL[:1])
p("A display map is the caller's", "Writing the map returned by CreateDisplayCredentialMap does not change the credential.", "every history", "all histories", ["verifiable/credential_sdjwt.go: CreateDisplayCredentialMap"])
_SL = ["verifiable/presentation.go: WithCredentials, AddCredentials, Clone", "verifiable/presentation_jwt.go: CreateJWTVP", "verifiable/presentation_cwt.go: CreateCWTVP", "verifiable/credential_sdjwt.go: makeSDJWT, MakeSDJWTWithNonSelectivelyDisclosableClaims"]
p("Presentations keep their credentials", "While only one of a presentation and its clones is added to, and SD-JWTs are made with whole claim slices, every presentation has exactly the credentials it was given, every slice of the caller keeps its claims, and an SD-JWT leaves exactly the given claims and id disclosed.",
  "every sequence of calls and every growth policy of slices", "all histories and capacities", _SL)
p("Adding to a clone leaves the original", "Adding credentials to a presentation and to its clone gives each its own.", "every history", "all histories", _SL[:3])
p("Making an SD-JWT does not write the caller's claims", "The slices of the caller read the same after MakeSDJWT.", "every slice", "all slices", _SL[3:])

_KB = ["sdjwt/verifier/verifier.go: Parse, validateIssuerSignedSDJWT, runHolderVerification, getSignatureVerifier", "sdjwt/verifier/keybidning.go: verifyKeyBindingJWT", "sdjwt/verifier/holderbidning.go: verifyHolderBindingJWT", "sdjwt/common/common.go: ParseCombinedFormatForPresentation, GetCNF"]
p("The order of disclosures carries no meaning", "Two presentations with the same issuer-signed JWT, the same holder JWT and the same disclosures in different orders are both accepted with the same claims or both refused (if no two disclosures collide under the hash).",
  "every presentation and every permutation of its disclosures", "all permutations and payloads", _KB)
p("Holder binding only ever refuses", "A presentation accepted with its holder JWT is accepted with the same claims when the holder JWT is taken off and none is required.",
  "every presentation", "all presentations and keys", _KB)
p("A key binding JWT is for one presentation", "A holder JWT that was accepted with one set of disclosures of one SD-JWT is not accepted with others.",
  "every pair of presentations with the same confirmation key", "all presentations", _KB)
_KA = ["verifiable/common.go: KeyTypeToJWSAlgo, KeyTypeToCWSAlgo, JWSAlgorithm.Name", "proof/defaults/all.go: NewDefaultProofChecker", "proof/checker/checker.go: CheckJWTProof, CheckCWTProof"]
p("The JWS algorithm named for a key is one its signatures verify under", "KeyTypeToJWSAlgo names an algorithm for exactly the signing keys other than BBS; its Name stands for the key's scheme, and a token with that name and a valid signature of such a key is accepted by the default checker.",
  "every key type, key, token and signature", "all keys and signatures", _KA)
p("The COSE algorithm named for a key is one its signatures verify under", "The number KeyTypeToCWSAlgo gives stands for the key's scheme, and a CWT with it and a valid signature of such a key is accepted by the default checker.",
  "every key type, key, token and signature", "all keys and signatures", _KA)
p("Algorithms carry their registered names", "The algorithm name written for a key is the one registered in RFC 7518, 8037 and 8812, and tokens with registered names are understood.",
  "every key type and token", "all tokens", _KA)
p("Every JWT key works for CWT", "Every key with a JWS algorithm has a COSE algorithm.", "every key type and CWT", "all tokens", _KA)
_TP = ["verifiable/credential.go: ParseCredential, ParseCredentialJSON, parseCredential, CheckProof, checkProof, ValidateCredential, validateCredential, WithDisabledProofCheck, WithCredDisableValidation", "verifiable/credential_parser.go: CredentialJSONParser.Parse, CredentialCBORParser.Parse, EnvelopedCredentialParser.Parse"]
p("The proof can be checked later", "A credential is accepted exactly if it is accepted with the check of proofs turned off and CheckProof, with the same options, then accepts it; the result is the credential that CheckProof leaves (without external contexts, or for a text that is not an envelope).",
  "every list of options, position and text", "all option lists and texts", _TP)
p("Validation can be done later", "A credential is accepted exactly if it is accepted with WithCredDisableValidation and, unless it is a JWT, ValidateCredential with the same options then accepts it (without external contexts).",
  "every list of options, position, text and document", "all option lists and texts", _TP)
p("JWTVCToJSON reads the document that ParseCredential returns", "For a JWT without disclosures, bare or as a JSON string, what JWTVCToJSON returns is the JSON document of the credential that ParseCredential accepts.",
  "every JWT and option", "all JWTs", ["verifiable/credential.go: JWTVCToJSON, ParseCredential, unwrapStringVC", "verifiable/credential_jwt.go: decodeCredJWT"])
_CK = ["proof/checker/checker.go: New, NewEmbeddedVMProofChecker, NewEmbeddedJWKProofChecker, WithLDProofTypes, WithLDProofTypeEx, WithJWTAlg, WithCWTAlg, WithSignatureVerifiers, CheckJWTProof, CheckCWTProof, CheckLDProof, convertToPublicKey, getSupportedProof, getSupportedProofByAlg, getSupportedCWTProofByAlg, getSignatureVerifier", "proof/defaults/all.go: NewDefaultProofChecker"]
p("Giving a proof checker more never makes it refuse", "A JWT, CWT or linked data proof accepted by a checker made with some options is accepted by one made with the same options followed by others.",
  "every list of options, verification method resolver and proof", "all option lists", _CK)
p("A proof checker accepts exactly what it was given", "A checker accepts a proof exactly if the first descriptor given for its algorithm, COSE algorithm or proof type has a first method that fits the resolved (or embedded) verification method, and the first verifier given for that method's key type accepts the signature under the key; algorithms given for JWTs are not accepted for CWTs. The default checker is the one with the default lists.",
  "every list of options, verification method resolver and proof", "all option lists", _CK)
_CC = ["proof/creator/creator.go: New, WithJWTAlg, SignJWT, SignCWT, CreateJWTHeaders, getSupportedProofByAlg, getSupportedProofByCwtAlg"]
p("The first signer given for an algorithm signs", "SignJWT and SignCWT sign with the signer of the first option for the algorithm, and further options do not change that.", "every list of options and every text", "all option lists", _CC)
p("A token is signed by the key it names", "A creator that was given signers for several keys signs a token that names one of them with that one.", "every list of options", "all option lists", _CC)
_PR = ["verifiable/presentation.go: NewPresentation, WithCredentials, WithBaseContext, Credentials, AddCredentials, Clone, newPresentation", "verifiable/presentation_jwt.go: CreateJWTVP", "verifiable/presentation_cwt.go: CreateCWTVP", "verifiable/presentation_ldp.go: AddLinkedDataProof", "verifiable/common.go: mapSlice2"]
p("Presentations behave as values", "In every history of creating, parsing, copying, signing and changing presentations in which lists are appended to only where no copy has grown longer, and only lists and maps without copies are written, every presentation and list shows what it would show if copies were copies of the contents.",
  "every history of calls and every way append chooses capacities", "all histories", _PR)
p("Clone and CreateJWTVP copy everything", "The copy shows the same credentials, contexts, types, custom fields, id, holder and proofs as the original; the presentation CreateJWTVP returns has its token.",
  "every history of calls", "all histories", _PR)
p("Changing one presentation does not change another", "Under the same conditions a call changes only the presentation it names; writing the list that was passed to NewPresentation or AddCredentials changes none.",
  "every history of calls and every further calls", "all histories", _PR)
p("A copy of a presentation is independent of it", "Adding credentials to a copy leaves those added to the original alone.", "every history of calls", "all histories", _PR)
p("Custom fields of a copy are its own", "Writing the custom fields of a copy leaves the original's alone.", "every history of calls", "all histories", _PR)
p("Credentials() returns a list of the caller's own", "Writing the list that Credentials() returned changes no presentation, and AddCredentials does not change it.", "every history of calls", "all histories", _PR)
_JN = ["jwt/jwt.go: NewSigned, NewUnsecured, NewJoseSigned, Serialize, PayloadToMap, ParseAndCheckProof, CheckProof, IsJWS, IsJWTUnsecured", "jwt/jose_wrappers.go: NewJOSESigner, JoseSigner, joseVerifier", "jwt/signer.go: SignParameters, ProofCreator", "proof/creator/creator.go: New, SignJWT, CreateJWTHeaders", "proof/checker/checker.go: New, CheckJWTProof"]
p("A JWT that was made is accepted", "A JWT made by NewSigned with a proof creator and serialised, attached or detached, is accepted by ParseAndCheckProof with a proof checker that has a descriptor for the algorithm and accepts what the creator's first signer for it signs, provided the key id resolves under the issuer; claims and headers come back.",
  "all claims, signing parameters, options of creator and checker, resolvers, attached and detached, with and without the issuer check", "all inputs", _JN)
p("Unsecured JWTs", "The text of a token made by NewUnsecured is recognised as unsecured and not as signed, parses back to the claims under alg none, and is accepted by no proof checker made with New, nor by an embedded one that has no descriptor for none.",
  "all claims, checkers, resolvers", "all inputs", _JN)
p("What is signed determines the token", "Two tokens signed over the same bytes have the same headers and the same claims, whether the payload is encoded or not (b64).", "all pairs of tokens", "all pairs", _JN)
p("A detached payload is bound by the signature", "Reading a detached token with another payload gives the verifier a message different from the one that was signed.", "all tokens and payloads", "all payloads", _JN)
p("The headers of a token", "A token made with a proof creator has the added headers as they are, the algorithm, the key id if there is one, and no other header.", "all signing parameters", "all inputs", _JN)
p("The algorithm that a token names is the one it was signed for", "The signature of a token was made by the creator's signer for the algorithm in its header.", "all signing parameters", "all inputs", _JN)
p("The form of the claims does not matter", "The same claims handed over as a map, as JSON text or as another value give the same token; a text that repeats a member name gives no token.", "all claims and signing parameters", "all inputs", _JN)
p("A credential that was signed is accepted and is the same", "A credential signed by CreateSignedJWTVC with a proof creator, minimised or not, is accepted by ParseCredential with a proof checker that has a descriptor for the algorithm and accepts what the creator's first signer for it signs, when the key id resolves under the credential's issuer; the parsed credential is the one that was signed.",
  "all credentials, options of creator, checker and parser, resolvers, key ids and algorithms", "all inputs", ["verifiable/credential.go: CreateSignedJWTVC, ParseCredential", "verifiable/jws.go: marshalJWS", "jwt/jwt.go: NewSigned, Serialize, Parse, CheckProof", "proof/creator/creator.go", "proof/checker/checker.go"])
p("A presentation that was signed is accepted and is the same", "A presentation signed by CreateJWTVP with a proof creator and serialised is accepted by ParsePresentation with a proof checker that has a descriptor for the algorithm and accepts what the creator's first signer for it signs, when the key id resolves under the holder; the parsed presentation has the fields and credentials of the one that was signed.",
  "all presentations, options of creator, checker and parser, resolvers, key ids and algorithms", "all inputs", ["verifiable/presentation_jwt.go: CreateJWTVP, CreateJWTVPFromJSON", "verifiable/jws.go: marshalJWS", "verifiable/presentation.go: ParsePresentation", "jwt/jwt.go: NewSigned, Serialize, Parse, CheckProof", "proof/creator/creator.go", "proof/checker/checker.go"])
p("A credential signed as a CWT is accepted and is the same", "A credential signed by CreateSignedCOSEVC with a proof creator is accepted by ParseCredential (as hex text) with a proof checker that has a descriptor for the COSE algorithm and accepts what the creator's first signer for it signs, when the key id resolves under the credential's issuer; the parsed credential has exactly the JSON object that was signed.",
  "all credentials whose values survive CBOR, options of creator, checker and parser, resolvers, key ids and algorithms", "all inputs", ["verifiable/credential.go: CreateSignedCOSEVC, ParseCredential", "verifiable/cose.go: marshalCOSE", "cwt/cwt.go: Parse, CheckProof", "proof/creator/creator.go: SignCWT", "proof/checker/checker.go: CheckCWTProof"])
p("An SD-JWT credential that was made is accepted and shows what was disclosed", "The token MakeSDJWT (both formats) makes with a proof creator, presented with any of its disclosures, is accepted by ParseCredential with a proof checker that has a descriptor for the algorithm and accepts what the creator's first signer for it signs, when the key id resolves under the issuer; the credential comes back and its display shows exactly what is clear or disclosed.",
  "all credentials without nulls, empty arrays and reserved names, options of creator, checker and parser, resolvers, selections of disclosures", "all inputs and selections", ["verifiable/credential_sdjwt.go: MakeSDJWT, makeSDJWT, CreateDisplayCredentialMap", "sdjwt/issuer/issuer.go: NewFromVC", "jwt/jwt.go: NewJoseSigned, Serialize, Parse, CheckProof", "jwt/jose_wrappers.go", "verifiable/credential.go: ParseCredential", "proof/creator/creator.go", "proof/checker/checker.go"])
p("Combinations are counted and complemented right", "The number of m-element combinations of n elements that is computed is the binomial coefficient and the number of combinations that are listed (n > 0); the complement of a combination is the combination of the other elements; two combinations match exactly if they are equal.",
  "all sizes and combinations (integers without overflow)", "all sizes", ["presexch/internal/requirementlogic/combinatorics.go: nChooseM, getMCombinationsOfN, complement, matchCombination"])
