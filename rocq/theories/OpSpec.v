(** Specification for options: what each option is about, the last of the options about something, and results that differ at most in contexts. *)
From Verif Require Import GoBase Base64 JwtSpec JwtModel SdSpec SdModel SdParse DiModel VcSpec VcModel VcJwt VcParse VpModel LdModel OpModel.

(** what can be set for a credential *)
Inductive setting := JwtChecker | LdChecker | CwtChecker | ProofCheckOff | ValidationOff | RelatedOff | CustomSchemaOff | Strict | TypesCheck | Schema | SchemaFunction
  | ExternalContexts | Mode | AllowedContexts | AllowedTypes | DiVerifier | DiFields | SchemaLoader | DocumentLoader | OnlyValidRdf | DetailedDiff.
Definition about {D} (k : setting) (x : copt D) : bool :=
  match k, x with
  | JwtChecker, (WithProofChecker _ | WithJWTProofChecker _) | LdChecker, (WithProofChecker _ | WithLDProofChecker _) | CwtChecker, (WithProofChecker _ | WithCWTProofChecker _)
  | ProofCheckOff, (WithDisabledProofCheck | WithNoProofCheck) | ValidationOff, WithCredDisableValidation | RelatedOff, WithDisabledRelatedResourceCheck
  | CustomSchemaOff, WithNoCustomSchemaCheck | Strict, WithStrictValidation | TypesCheck, WithEnabledJSONLDTypesCheck | Schema, WithSchema _
  | SchemaFunction, WithDefaultSchemaLoader _ | ExternalContexts, WithExternalJSONLDContext _
  | Mode, (WithJSONLDValidation | WithBaseContextValidation _ | WithBaseContextExtendedValidation _ _ _)
  | AllowedContexts, (WithBaseContextValidation _ | WithBaseContextExtendedValidation _ _ _) | AllowedTypes, WithBaseContextExtendedValidation _ _ _
  | DiVerifier, WithDataIntegrityVerifier _ | DiFields, WithExpectedDataIntegrityFields _ _ _ | SchemaLoader, WithCredentialSchemaLoader _
  | DocumentLoader, WithJSONLDDocumentLoader _ | OnlyValidRdf, WithJSONLDOnlyValidRDF | DetailedDiff, WithJSONLDIncludeDetailedStructureDiffOnError => true
  | _, _ => false
  end.
(** for a presentation *)
Inductive psetting := PChecker | PProofCheckOff | PStrict | PDocumentLoader | PHolderCheck | PRelatedCheck | PJsonldOff | PDiVerifier | PDiFields | PRequireVC | PRequireProof.
Definition pabout {D} (k : psetting) (x : popt D) : bool :=
  match k, x with
  | PChecker, WithPresProofChecker _ | PProofCheckOff, (WithPresDisabledProofCheck | WithPresNoProofCheck) | PStrict, WithPresStrictValidation
  | PDocumentLoader, WithPresJSONLDDocumentLoader _ | PHolderCheck, WithPresHolderCheck _ | PRelatedCheck, WithPresRelatedResourceCheck _ | PJsonldOff, WithDisabledJSONLDChecks
  | PDiVerifier, WithPresDataIntegrityVerifier _ | PDiFields, WithPresExpectedDataIntegrityFields _ _ _ | PRequireVC, WithPresRequireVC | PRequireProof, WithPresRequireProof => true
  | _, _ => false
  end.
(** for a DID document *)
Inductive dsetting := DChecker | DDiVerifier | DDiFields | DDocumentLoader | DExternal | DOnlyValidRdf.
Definition dabout {D} (k : dsetting) (x : didopt D) : bool :=
  match k, x with
  | DChecker, WithDIDProofChecker _ | DDiVerifier, WithDIDDataIntegrityVerifier _ | DDiFields, WithDIDExpectedDataIntegrityFields _ _ _
  | DDocumentLoader, WithDIDJSONLDDocumentLoader _ | DExternal, WithDIDExternalJSONLDContext _ | DOnlyValidRdf, WithDIDJSONLDOnlyValidRDF => true
  | _, _ => false
  end.

(** the last option that satisfies [p] *)
Inductive last_option {X} (p : X -> bool) : list X -> option X -> Prop :=
| lo_none l : Forall (fun x => p x = false) l -> last_option p l None
| lo_some l1 x l2 : p x = true -> Forall (fun y => p y = false) l2 -> last_option p (l1 ++ x :: l2) (Some x).

(** the checker that an option gives *)
Definition gives_jwt {D} (x : copt D) : option (option proof_checker) :=
  match x with WithProofChecker c => Some (option_map cc_jwt c) | WithJWTProofChecker c => Some c | _ => None end.
Definition gives_ld {D} (x : copt D) : option (option ld_checker) :=
  match x with WithProofChecker c => Some (option_map cc_ld c) | WithLDProofChecker c => Some c | _ => None end.
Definition gives_cwt {D} (x : copt D) : option (option cwt_checker) :=
  match x with WithProofChecker c => Some (option_map cc_cwt c) | WithCWTProofChecker c => Some c | _ => None end.
Definition gives_di {D} (x : copt D) : option (option dverifier) := match x with WithDataIntegrityVerifier v => Some v | _ => None end.
Definition gives_fields {D} (x : copt D) : option (string * string * string) := match x with WithExpectedDataIntegrityFields p d c => Some (p, d, c) | _ => None end.
(** [a] is what the last option that gives something gives *)
Inductive last_given {X A} (g : X -> option A) : list X -> A -> Prop :=
| lg l1 x l2 a : g x = Some a -> Forall (fun y => g y = None) l2 -> last_given g (l1 ++ x :: l2) a.

(** the same credential, except that contexts may have been added to its JSON form *)
Definition same_but_context (v w : credential) : Prop :=
  cr_contents w = cr_contents v /\ cr_proofs w = cr_proofs v /\ cr_jwt w = cr_jwt v /\ cr_cwt w = cr_cwt v /\ (forall k, k <> "@context" -> mget (cr_json w) k = mget (cr_json v) k).
(** the checks that options can turn off *)
Definition turns_off {D} (x : copt D) : bool := match x with WithDisabledProofCheck | WithNoProofCheck | WithDisabledRelatedResourceCheck | WithCredDisableValidation => true | _ => false end.
Definition pturns_off {D} (x : popt D) : bool :=
  match x with WithPresDisabledProofCheck | WithPresNoProofCheck | WithDisabledJSONLDChecks | WithPresHolderCheck false | WithPresRelatedResourceCheck false => true | _ => false end.
(** did-go's validation reads only the JSON-LD settings *)
Definition jsonld_settings_only (E : venv) : Prop :=
  forall o o' b m, co_strict o = co_strict o' -> co_ld_types o = co_ld_types o' -> co_external o = co_external o' -> ve_jsonld E o b m = ve_jsonld E o' b m.
(** a text is of one kind: what is a JSON object or a compact JWS (also in quotes) is not CBOR, nor its hexadecimal form; a JSON object is not a JWS; an envelope
    has no proof of its own *)
Record one_kind (E : venv) (d : string) : Prop := {
  ok_json : ve_members E d <> None -> ve_cose E d = None /\ ve_hex E (un_quote d) = None /\ is_jws (ve_obj E) (un_quote d) = false /\ is_jwt_unsecured (ve_obj E) (un_quote d) = false;
  ok_jwt : is_jws (ve_obj E) (un_quote d) = true \/ is_jwt_unsecured (ve_obj E) (un_quote d) = true -> ve_cose E d = None /\ ve_hex E (un_quote d) = None;
  ok_envelope : forall ms ts, ve_members E d = Some ms -> fold_res strs_step (occurrences "type" ms) [] = Ok ts -> str_in vp_enveloped_type ts = true -> fld (to_map ms) "proof" = None }.
