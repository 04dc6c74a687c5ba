# Formal model of trustbloc/vc-go in Rocq (Coq 8.16.1)

## Layout

Every area `X` has up to four files in `rocq/theories/`:

* `XModel.v`  – executable Gallina transcription of the Go functions (each definition cites file:lines);
* `XSpec.v`   – small independent specification vocabulary (no model helpers);
* `XProofs.v` – lemmas;
* `XProps.v`  – only property theorems (`exact lemma`), non-vacuity `Example`s, `Print Assumptions`.

`GoBase.v` holds what all models share: Go results (`Ok`/`Err`/`Panic`), JSON values, Go maps as
association lists (list order = iteration order the runtime happened to choose), Go string functions.

## Conventions

* Go `(T, error)` → `res T := Ok t | Err e | Panic`. A nil dereference, an out-of-range index or a nil
  `reflect.Type` is `Panic`; error texts are abbreviated to tags, error *identity* is kept where callers test it.
* Go maps → association lists; iteration order is the list order, so theorems "for every order" quantify
  over permutations; lookups use the first binding (keys are unique in well-formed maps).
* Go strings are byte strings: Coq `string`. Slices are lists (no aliasing unless a property needs it).
* `int` is `Z`; 64-bit wrap is written explicitly where arithmetic can overflow.
* Loops → structural recursion or fuel; running out of fuel is a separate error value and every theorem
  excludes it (we prove that the fuel given is always sufficient).
* External calls (hash, gzip, signature primitives, DID resolver, JSON-schema validator, JSON-path
  evaluator, document loader, clock) → Section variables / function arguments; theorems quantify over them.
  Assumptions on them (e.g. `gunzip (gzip x) = Some x`, digest injectivity on the strings involved) are
  explicit premises of the theorem.

## Plan per property

| id | model | proof idea |
|----|-------|------------|
| C01 | `BitAt` on `list N`, quot/rem, mask | pointwise against `concat (map byte_bits)` |
| C02 | full base64 raw-url codec (Go decoder incl. CR/LF skipping, lax tail), gzip oracle | induction by 3-byte groups; bit lemmas by finite sweep |
| C03,C04 | `verifyStatus`, validators, `Client.VerifyStatus` with resolver oracle | case analysis; induction over entries; iff with declarative spec |
| C05 | `strconv.Atoi` | value of digit string; range |
| C06 | `checkStatusSize` with 64-bit shift wrap | arithmetic; the position part is refuted (statusSize ignored, MSB/LSB) |
| C07 | gap-stack loop with fuel | invariant: loop state encodes colex successor; enumeration = colex list |
| C08 | requirement trees | structural induction |
| C09 | bitset iterator as state machine over `N` | invariant: yielded = satisfying subsets below the counter; exclusion = projection |
| C10,C11 | `toRequirement`, `toLogic`, `applyRequirement` loop | composition with C09 |
| C12 | `merge` | invariant over (descriptor, credential) pairs; duplicate-id refutation |
| C13,C14 | `getMatchedCreds`, `evalSubmissionRequirements` | induction; C14 refuted by `pick` |
| C15,C16 | `filterConstraints`, `filterField`, `filterFormat` | filter characterisation; refutations for empty `fields`, `allOf` |
| C17 | split/join on `~` | round-trip |
| C18–C21 | `discloseClaimValue` with state (nestedSD, parsed values) | termination measure = digests not yet seen; invariants |
| C22,C23 | issuer v2/v5 + verifier | simulation between issuance tree and disclosure tree |
| C24 | provenance relation | induction |
| C25–C28 | holder/verifier drivers | case analysis with oracles |
| C29–C32 | jwt, proof checker, descriptor tables, VDR resolver | case analysis; finite tables swept |
| C33–C36 | data-integrity verifier/signer, options value threaded as state | invariant on the options over the proof list / the history of calls |
| C37 | didconfig | case analysis |
| C38–C40, C58, C59 | status edge cases | pointwise; witnesses |
| C41 | `filterSchema` with context cache | cache invariant |
| C42, C53 | `getPath` with the shared counter map | invariant on counters, string-join injectivity; witness |
| C43, C54 | replacement table | every permutation of the table |
| C44, C45, C50, C55 | `Match` | case analysis, corollaries of C13 |
| C46, C47 | `limitDisclosure`, SD-JWT branch, in-place update | induction; witness |
| C48, C49, C51, C52, C56, C57 | deviations found while modelling | universally quantified counter-behaviour or witness |
| C60–C68 | checkers, verifiers, framing, blank nodes | corollaries/companions of C29–C32; string lemmas |

| C69–C72 | SD-JWT edge cases | universally quantified counter-behaviour |
| C73 | sub-selection | restriction of the resolution relation to a self-contained subset |
| C74, C75 | `holder.Parse` | composition of C18–C21; string lemmas |
| C76 | what an issued payload shows | induction over the encoding relation `Enc` between marked claims and payload |
| C77–C80, C82, C84 | issuer edge cases | universally quantified counter-behaviour |
| C85–C94 | data-integrity sets, histories, round trip, tampering, registry | witnesses for deviations; simulation of signing by verifying; induction over the registry |
| C95–C102 | credential data model: `CreateCredential`, `WithModified…`, `ToRawJSON`, `ParseCredential` | per-member serialisation/parse inverse, lookup extensionality under member permutation; deviations as witnesses |
| C103–C127 | proof checking in `ParseCredential`, JWT/CWT claim mapping, SD-JWT credentials, enveloped forms | case analysis over the parser chain, composition with C18, C31, C32, C61, C62; witnesses for deviations |
| C128–C132 | presenting SD-JWT credentials (`MarshalWithDisclosure`) | selection lemma over arbitrary map orders, composition with C73 and the parser inversion; witnesses for deviations |
| C133–C137 | DID configuration client/verifier | case analysis composed with C104; deviations as witnesses |
| C138–C149 | `ParsePresentation`: parser chain, proof check, enclosed credentials, holder check, validation, panics | case analysis over the parser chain, composition with C104, C120; witnesses for deviations |
| C150–C156 | signing (JWT, CWT) or marshalling a presentation and parsing it back; deviations | specification of the object written (`vp_member`), then `new_presentation` on any member order; witnesses for deviations |
| C157–C160 | AddDataIntegrityProof on credentials and presentations | composition of C88 with the parsers; invariance of verification under member order; witnesses |
| C161–C166 | related-resource validator as a concurrent program | transition system (cache access, HTTP exchange, channel receive; evictions and other users as environment steps), inductive invariant, measure for termination; witnesses for deviations |
| C167–C175 | in-memory store, iterator and provider | transition system at the granularity of lock operations and map accesses; linearization points at unlock, inductive invariant; separate invariant for read-only runs; induction over provider histories; witnesses for deviations |
| C176–C186 | status list resolver and identity hub client | functions returning the requests made next to the result; exact characterisation by a relational specification (`delivered`), inversion lemmas; base64/percent-encoding round trips by induction; witnesses |
| C187–C193 | displaying SD-JWT credentials | relation `Put` (digests replaced by given contents) and `Res`; the run of disclosure resolution during parsing determines what the later run sees; mutual induction; witnesses |
| C194, C195 | composition of VcSign.new_jwt_claims, SdIssueVc (new_from_vc), ParseCredential (VcParse) and display_map: MakeSDJWT, then any subset of the disclosures, then display; claim-by-claim corollary | VcMakeProofs.v, VcProps9.v, VcProps10.v (v5: the custom-field map of UnmarshalJSON has the lookups of the document) |
| C196-C198 | proof/creator: options as a list of registrations folded into a creator; selection functions transcribed; `first_of` is the independent specification | LdModel.v, LdSpec.v, LdProofs.v, LdProps.v (C198 refuted for COSE numbers) |
| C199-C201, C205 | lddocument/signer.go and AddLinkedDataProof of credentials and presentations with the document passed as state; did-go's doc/ld/proof is the record `ldlib`, with the laws `ld_lib`/`ld_reader` as hypotheses and a model of them | LdProps.v, LdProps2.v (C205 refuted) |
| C202-C204 | AddDIDLinkedDataProof, AddDIDDataIntegrityProof and VerifyDIDProof on the members of the document's JSON | LdProps2.v (C203 refuted) |
| C206 | CreateJWTHeaders and SignJWT against CheckJWTProof | LdProps3.v |
| C207-C216 | BBS+ selective disclosure: statements (lines of canonical N-Quads), revealed indexes, derived proofs, and their verification by the proof checker; the JSON-LD processor is the record `bbslib`, the scheme a creator record with the law `scheme_ok` | BbsModel.v, BbsSpec.v, BbsProofs.v, BbsProps.v (C209, C211, C214, C216 refuted) |
| C217-C233 | CWT and COSE on bytes: a CBOR encoder/decoder (definite lengths, 32 levels, 131072 elements), `deterministicBinaryString`, `GetProofValue`, `ParseAndCheckProof`, `marshalCOSE`, the CBOR side of the credential parser; round trips of C116 and C152 instantiated with these codecs | CwModel.v, CwSpec.v, CwProofs*.v, CwProps*.v (C224, C226, C228, C231, C232 refuted) |
| C234–C239 | `limitDisclosure` without SD-JWT, `createNewCredential`, `enhanceRevealDoc` on JSON values; gjson/sjson by their documented behaviour | puts at positions: exact description of the leaves after a sequence of puts at separate positions, for every order |
| C240–C248 | deviations found while modelling limited disclosure | witnesses |
| C249–C252, C255, C260 | `MatchSubmissionRequirement` with a heap of credentials (pointers are indexes), `CreateVP`, `CreateVPArray` on top of the search of C10 and the merge of C12 | induction over the requirement tree with an invariant on the heap; filters on pointers related to filters on values |
| C253, C254, C256–C259, C261 | deviations found while modelling the wallet side | witnesses; `vc_limit` links them to the model of limitDisclosure |
| C262–C271 | the embedded credential and presentation schemas (generated from /repo by tools/schemas.py as JSON values), an evaluator for the JSON Schema keywords they use, `jsonSchemaLoader`; the shapes as readable predicates (JsSpec) | each schema is shown equivalent to its predicate, compositionally (JsDesc), for all documents; then composed with C119, C145 and `serializeCredentialContents` |
| C272–C276 | `ValidateSchema`: the Go types of a definition, their marshalling with omitempty, both embedded schemas through the evaluator of C262–C271; the shapes said on the Go structures (DfSpec) | equivalence structure by structure (DfProofs2, 3), induction over nested submission requirements with a bound on the evaluator's fuel; the view the matching model (WmModel) reads is total on accepted definitions |
| C277–C280 | `ExpirableSchemaCache` and `getJSONSchema`: the 8-byte little-endian stamp, the int64/uint64 conversions, the cache as a map, a sequence of calls; concurrent calls as a small-step system (ask, load, store) with an arbitrary clock and a cache that may forget | C277, C278 by refinement to a memory of (schema, time) per address that is shown to determine the answers; C279 by an invariant over all interleavings; C280 refuted (whole seconds) |
| C281–C285 | `Match` on real presentations: plain JSONPaths (text to steps, walking), `selectVC` with its second try inside `vp`, the JSON decoding of descriptor maps (case-insensitive members, sorted map order), the typeless form of JSON/JWT/CWT presentations, merged submissions as value or map; joined to PexModel and WmModel | C281 by induction over mappings, C282 by the relation `follows` (MtSpec), C283 by discharging the selection hypotheses of C14, C284 by composing with `CreateVP`; C285 counterexample |
| C286–C291 | options of the credential, presentation and DID parsers as constructors; `apply_copt` etc. transcribe the bodies; lists folded over the defaults and handed to the parsers of VcParse, VpModel and LdModel | C286: a fold determines every field by the last option about it; C287/C288: simulation between a run with the check and one without; C289: last-given relation joined to C30; C290, C291 counterexamples |
| C292–C297 | the calls written once over a store (what a value is, how maps are read and written), run on Go's memory (maps and slices are cells) and on values without sharing | C292: simulation, invariant "the tops of credentials and of the caller's maps are distinct cells that no document reaches"; C293/C294 by determinism of reading and a frame in the value world; C295–C297 counterexamples |
| C298–C300 | slices as array, length and capacity; append in place or in a new array, growth policy a parameter | C298: invariant "an owner is the longest slice of its array and the only owner"; C299, C300 counterexamples |
| C301–C303 | the SD-JWT verifier of C17–C28 | C301: the disclosure map depends on the disclosures as a set; C302, C303: the acceptance condition splits into one about JWT and disclosures and one about the holder JWT and the confirmation key |
| C304–C307 | the algorithm tables of common.go, composed with the proof checker of C31/C62 | case analysis over key types, completeness of the checker |
| C308–C310 | CheckProof, ValidateCredential and JWTVCToJSON over the option lists of OpModel | parse with a flag set vs without, parser by parser; trimming and unquoting of a JWT text |
| C311–C314 | options of proof checkers and creators as constructors; lists folded into the records that the proof checks of JwtModel and the creator of LdModel read | the first match in an appended list; the example of C314 has two signers for one algorithm |
| C315-C320 | PrModel: presentations as objects over a store of list variables and maps; Go's slices (array, length; append writes in place while capacity lasts; capacity policy a parameter) and maps by reference, against a store without sharing. Not modelled: what is inside credentials (AlModel), panics (no effect), CustomContext and CWT (as Context and JWT). | simulation between the two stores over every history in which nothing is appended to below a longer copy (PrProofs, PrProofs2); frame property of the machine without sharing; refutations by running Go's memory |
| C321-C331 | JnModel: NewSigned, NewUnsecured, NewJoseSigned, PayloadToMap, Serialize and the JWS functions of kms-go they call (source not in /repo, modelled from RFC 7515/7797); base64 and splitting concrete, encoding/json a parameter; composed with the creator of LdModel and the checker of C311–C313 | serialise/parse round trip from base64 and split lemmas; laws of encoding/json (order of members does not matter, maps survive) are hypotheses of each theorem, met by the library of the examples; C328 and C329: the round trips of C115 (credentials) and C150 (presentations) with this signing side and the checker of C312; C330: that of C227 (CWT, down to the bytes) with the creator and the checker; C331: those of C194 and C195 (SD-JWT) |
| C332 | the rest of combinatorics.go (CombModel, in natural numbers: the overflow checks of nChooseM are not modelled) | the product loop keeps the binomial coefficient; a second listing of the combinations, counted by Pascal, has the same members as that of C07 |
| C81, C83 | `NewFromVC`, reserved names | C22/C23 lifted through the surrounding credential; induction |

Further areas (verifiable credentials/presentations, JWT claim mapping, CWT, in-memory store, JSON/time
utilities, identity hub) are appended as the model grows.

## Trusted base

Coq's kernel (8.16.1), the reading of the Go code recorded in the comments, and the semantics assumed for
library calls (below).  `Print Assumptions` follows every property theorem; every one prints
"Closed under the global context" - no axiom, not even the standard library's.

### What is modelled, and what is an oracle

| area | modelled | quantified oracle / assumed library behaviour | not modelled |
|------|----------|-----------------------------------------------|--------------|
| status | bitstring, validators, `Client.VerifyStatus`, `strconv.Atoi`, base64url | gzip, multibase other than `u`, credential resolver | HTTP and DID resolution of lists |
| presexch | requirements, `CreateVP(Array)`, `Match`, filters, compaction, limited disclosure of SD-JWT, plain and BBS+ credentials, frames | JSONPath evaluation, JSON-schema validation, JSON-LD context load, BBS+ derivation, uuid, map iteration order; gjson and sjson are transcribed from their documentation for paths of names and indexes (`PxModel.v`; no escapes, modifiers, queries) | JSON-schema of definitions |
| jwt, proof, vermethod, crypto-ext | header policy, parse-and-check, default checker, descriptor tables, verifiers' key checks and signature framing | primitive signature checks, base64/JSON decoding of JWS parts, DID resolver, JWK conversion | proof creators, BBS mathematics |
| sdjwt/issuer | `New`, `NewFromVC`, v2 and v5 builders, decoys, `MergeCustomFields` | salts, shuffle, decoy count, `json.Marshal` (premise `reads_back`: decoding an encoded value gives it back up to member order, for valid strings) | signing, claims passed as Go structs (anything but `map[string]interface{}` / `[]interface{}` / scalars) |
| sdjwt | combined formats, disclosure processing, `holder.Parse`, `CreatePresentation`, `verifier.Parse` incl. holder binding | hash functions, `json.Unmarshal`, the clock, JWK import; mapstructure's weak decoding of claims and go-jose `ValidateWithLeeway` are transcribed from their documentation (`SdParse.v`) | signing itself |
| dataintegrity | `VerifyProof`, `AddProof`, method resolution, registry, both suites' transformation, proof configuration and key choice | RDF canonicalisation, hashes, multibase, time parse/format, EC point expansion, signature primitives, DID resolver | JSON text with repeated member names or syntax errors (gjson/sjson), other suites |
| didconfig | `VerifyDIDAndDomain` (verifier and client) | as for credentials, plus `json.Marshal`, did.Parse, url.Parse (scheme, host), the HTTP client | logging |
| verifiable (credentials) | contents (de)serialisation, `CreateCredential`, `WithModified…`, `ToRawJSON`, JWT/CWT claims, the three parsers, data URLs, proof check, validation dispatch | `encoding/json` (member lists of a text), CBOR, time parse/format, `fmt.Sprint`, JSON-schema and JSON-LD validation, did-go linked-data proofs and verify data, related-resource fetch (`venv`) | Go-typed values inside custom fields (structs, typed slices), schema cache |
| verifiable (presentations) | the three parsers, `newPresentation`, holder check, validation dispatch, `raw`, `MarshalJSON`, JWT/CWT claims and signing | as for credentials, plus the presentation schemas, JSON-LD validation and `json.Marshal` (`vpenv`) | `MarshalCBOR`, Go-typed values inside custom fields |
| verifiable (adding proofs), proof/creator, lddocument | `AddDataIntegrityProof`, `AddLinkedDataProof` of credentials and presentations, `ProofCreator`, `DocumentSigner`, `AddDID…Proof`, `VerifyDIDProof` | as above; did-go's doc/ld/proof (`ldlib`: AddProof, CreateVerifyData, CreateDetachedJWTHeader; reading back: laws `ld_lib`, `ld_reader` are hypotheses of C199-C202), signers | did.ParseDocument, did.Doc.JSONBytes, processor options; aliasing of maps by `clearEmpty` |
| verifiable (related resources) | `Fetch`, `Validate` (goroutines and channels as interleaved atomic steps), digest check, hashes | SHA-2, `multibase.Decode`, HTTP client (`renv`, `serve`); the expirable LRU is a map whose entries may vanish at any time | error texts joined by `errors.Join`; response body closing |
| legacy/mem | every method of `memStore`, `memIterator` and `Provider` (except `GetOpenStores`, `Ping`, `Flush`) | Go maps iterate in any order; `sync.RWMutex` admits readers or one writer (fairness not used) | aliasing of stored byte slices, the unlocked read in `GetStoreConfig`; legacy/mock |
| verifiable (BBS+ selective disclosure) | `BBSSelectiveDisclosure`, `GenerateBBSSelectiveDisclosure`, the derived-proof suite and its verifier | JSON-LD compaction, framing, canonicalisation and did-go's NewProof (record `bbslib`; laws `canon_ok`), BBS+ scheme (`scheme_ok`); the verified message is canonical options followed by the canonical document (did-go CreateVerifyData with this suite's identity digest); a blank line is one of ASCII white space only | BBS+ arithmetic |
| cwt, verifiable/cwt, verifiable/cose.go, CBOR parsing | `deterministicBinaryString`, `GetProofValue`, `Parse`, `ParseAndCheckProof`, `CheckProof`, `marshalCOSE`, `convertToStringMap`, `convertElement` on bytes | fxamacker/cbor and go-cose as documented (definite lengths, limits, shortest heads, sorted header keys); go-cose's header validation is the oracle `hok`; float64 bits `F`/`Fd`; SignCWT | indefinite-length payload items, byte strings and tags among claims (no JSON form), nested tags as levels |
| presexch (wallet side) | `MatchSubmissionRequirement`, `makeRequirementsForMatch`, `matchRequirement`, `filterCredentialsThatMatchDescriptor`, `CreateVP`, `CreateVPArray`, `presentationData`, `presentation`, `getBaseContext` | JSON schema validation of the definition (`valid`), context loading, JSON paths, BBS+ framing, uuid are parameters | the order `sort.Sort(byID)` gives to mappings with equal ids; duplicate descriptor ids in CreateVP |
| verifiable (JSON schemas) | `SchemaTemplateV1/V2`, `v1/v2BasePresentationSchema`, `jsonSchemaLoader`, `WithDisableRequiredField`, `validateCredentialUsingJSONSchema`, `validateVPJSONSchema` | gojsonschema itself is modelled (JsModel.ev) from the JSON Schema specification: its source is not in the sandbox; regular expressions other than alternatives of literals, the formats uri and date-time are parameters | error texts |
| presexch/definition.go ValidateSchema and the definition types, presexch/schema.go | all; encoding/json's omitempty | the JSON schema evaluator stands for gojsonschema; the draft-07 meta-schema, regular expressions are parameters | texts of the errors; invalid UTF-8 |
| credential.go schema cache and loader (ScModel) | fastcache (not in the sandbox) is a map that may forget and decline; HTTP is what the client reports. `SetJSONLoader` is not modelled: nothing reads the field it sets. |
| presexch/api.go selection (C281–C285) | github.com/PaesslerAG/jsonpath and gval are modelled for paths of `$`, `.name` and `[n]`; any other path text is a parameter, as is how gval writes a number used as an object key. `ParseCredential` of the selected JSON is a parameter |
| options (OpModel) | JSON-LD document loaders and the JSON-LD flags are parameters of the surroundings (`world`); C287/C288 assume did-go's validation reads only the JSON-LD settings (`jsonld_settings_only`), and C288 that a text is of one kind (`one_kind`) |
| sharing of objects (AlModel, SlModel) | which objects ParseCredentialJSON, CreateCredential, WithModified…, SetCustomField, ResetProofs, Add…Proof, signing, ToRawJSON, CreateDisplayCredentialMap, Clone, AddCredentials and makeSDJWT share | Go's maps and slices as cells; did-go's AddProof builds a new proof list | validation and signatures (other areas have them), writes through Contents()/Proofs()/Credentials(), slices inside documents have no spare capacity, slices that start inside an array |
| algorithm tables (KaModel) | KeyTypeToJWSAlgo, KeyTypeToCWSAlgo, JWSAlgorithm.Name | the numbers of the go-cose constants | kms key types that do not sign (one case, `None`) |
| status/resolver, status/internal/identityhub | all functions; url.ParseQuery, url.QueryUnescape and base64.StdEncoding modelled from the Go standard library | DID registry, HTTP client, JSON decoding of queries and hub responses, did-go `Endpoint.URI`, map iteration order are parameters | redirects and TLS of the HTTP client; Unicode case folding |
