(** Generated by tools/schemas.py from the sources in /repo: the JSON schemas embedded in vc-go, as JSON values.
    Every entry of "definitions"/"$defs" and of the top-level "properties" has a name of its own. *)
From Verif Require Import GoBase.

(** ** verifiable/credential.go:53-242 SchemaTemplateV1 *)
Definition cred1_d_typedID : json :=
  JObj [("anyOf", JArr [JObj [("type", JStr "null")]; JObj [("type", JStr "object"); ("required", JArr [JStr "id"; JStr "type"]);
    ("properties", JObj [("id", JObj [("type", JStr "string"); ("format", JStr "uri")]);
    ("type", JObj [("anyOf", JArr [JObj [("type", JStr "string")]; JObj [("type", JStr "array"); ("items", JObj [("type", JStr "string")])]])])])]])].
Definition cred1_d_typedIDs : json :=
  JObj [("anyOf", JArr [JObj [("$ref", JStr "#/definitions/typedID")]; JObj [("type", JStr "array");
    ("items", JObj [("$ref", JStr "#/definitions/typedID")])]; JObj [("type", JStr "null")]])].
Definition cred1_d_proof : json :=
  JObj [("type", JStr "object"); ("required", JArr [JStr "type"]); ("properties", JObj [("type", JObj [("type", JStr "string")])])].
Definition cred1_p_context : json :=
  JObj [("anyOf", JArr [JObj [("type", JStr "string"); ("const", JStr "https://www.w3.org/2018/credentials/v1")]; JObj [("type", JStr "array");
    ("items", JArr [JObj [("type", JStr "string"); ("const", JStr "https://www.w3.org/2018/credentials/v1")]]); ("uniqueItems", JBool true);
    ("additionalItems", JObj [("anyOf", JArr [JObj [("type", JStr "object")]; JObj [("type", JStr "string")]])])]])].
Definition cred1_p_id : json :=
  JObj [("type", JStr "string")].
Definition cred1_p_type : json :=
  JObj [("oneOf", JArr [JObj [("type", JStr "array"); ("minItems", jnum 1); ("contains", JObj [("type", JStr "string");
    ("pattern", JStr "^VerifiableCredential$")])]; JObj [("type", JStr "string"); ("pattern", JStr "^VerifiableCredential$")]])].
Definition cred1_p_credentialSubject : json :=
  JObj [("anyOf", JArr [JObj [("type", JStr "array")]; JObj [("type", JStr "object")]; JObj [("type", JStr "string")]])].
Definition cred1_p_issuer : json :=
  JObj [("anyOf", JArr [JObj [("type", JStr "string"); ("format", JStr "uri")]; JObj [("type", JStr "object"); ("required", JArr [JStr "id"]);
    ("properties", JObj [("id", JObj [("type", JStr "string"); ("format", JStr "uri")])])]])].
Definition cred1_p_issuanceDate : json :=
  JObj [("type", JStr "string"); ("format", JStr "date-time")].
Definition cred1_p_proof : json :=
  JObj [("anyOf", JArr [JObj [("$ref", JStr "#/definitions/proof")]; JObj [("type", JStr "array");
    ("items", JObj [("$ref", JStr "#/definitions/proof")])]; JObj [("type", JStr "null")]])].
Definition cred1_p_expirationDate : json :=
  JObj [("type", JArr [JStr "string"; JStr "null"]); ("format", JStr "date-time")].
Definition cred1_p_credentialStatus : json :=
  JObj [("$ref", JStr "#/definitions/typedID")].
Definition cred1_p_credentialSchema : json :=
  JObj [("$ref", JStr "#/definitions/typedIDs")].
Definition cred1_p_evidence : json :=
  JObj [("$ref", JStr "#/definitions/typedIDs")].
Definition cred1_p_refreshService : json :=
  JObj [("$ref", JStr "#/definitions/typedID")].
Definition cred1 (req : list string) : json :=
  JObj [("required", JArr ([JStr "@context"] ++ map JStr req)); ("properties", JObj [("@context", cred1_p_context); ("id", cred1_p_id);
    ("type", cred1_p_type); ("credentialSubject", cred1_p_credentialSubject); ("issuer", cred1_p_issuer); ("issuanceDate", cred1_p_issuanceDate);
    ("proof", cred1_p_proof); ("expirationDate", cred1_p_expirationDate); ("credentialStatus", cred1_p_credentialStatus);
    ("credentialSchema", cred1_p_credentialSchema); ("evidence", cred1_p_evidence); ("refreshService", cred1_p_refreshService)]);
    ("definitions", JObj [("typedID", cred1_d_typedID); ("typedIDs", cred1_d_typedIDs); ("proof", cred1_d_proof)])].

(** ** verifiable/credential.go:247-575 SchemaTemplateV2 *)
Definition cred2_d_type : json :=
  JObj [("oneOf", JArr [JObj [("type", JStr "string")]; JObj [("type", JStr "array"); ("minItems", jnum 1)]])].
Definition cred2_d_credentialSubject : json :=
  JObj [("type", JStr "object"); ("properties", JObj [("id", JObj [("type", JStr "string")])]); ("minProperties", jnum 1)].
Definition cred2_d_credentialSchema : json :=
  JObj [("type", JStr "object"); ("properties", JObj [("id", JObj [("type", JStr "string")]); ("type", JObj [("$ref", JStr "#/$defs/type")])]);
    ("required", JArr [JStr "id"; JStr "type"]); ("additionalProperties", JBool true)].
Definition cred2_d_credentialStatus : json :=
  JObj [("type", JStr "object"); ("properties", JObj [("id", JObj [("type", JStr "string")]); ("type", JObj [("$ref", JStr "#/$defs/type")])]);
    ("required", JArr [JStr "id"; JStr "type"]); ("additionalProperties", JBool true)].
Definition cred2_d_refreshService : json :=
  JObj [("type", JStr "object"); ("properties", JObj [("id", JObj [("type", JStr "string")]); ("type", JObj [("$ref", JStr "#/$defs/type")])]);
    ("required", JArr [JStr "id"; JStr "type"]); ("additionalProperties", JBool true)].
Definition cred2_d_termsOfUse : json :=
  JObj [("type", JStr "object"); ("properties", JObj [("id", JObj [("type", JStr "string")]); ("type", JObj [("$ref", JStr "#/$defs/type")])]);
    ("required", JArr [JStr "type"]); ("additionalProperties", JBool true)].
Definition cred2_d_evidence : json :=
  JObj [("type", JStr "object"); ("properties", JObj [("id", JObj [("type", JStr "string")]); ("type", JObj [("$ref", JStr "#/$defs/type")])]);
    ("required", JArr [JStr "type"]); ("additionalProperties", JBool true)].
Definition cred2_d_proof : json :=
  JObj [("type", JStr "object"); ("properties", JObj [("type", JObj [("$ref", JStr "#/$defs/type")]);
    ("proofPurpose", JObj [("type", JStr "string")]); ("verificationMethod", JObj [("oneOf", JArr [JObj [("type", JStr "string")];
    JObj [("type", JStr "array"); ("minItems", jnum 1); ("items", JObj [("type", JStr "object");
    ("properties", JObj [("id", JObj [("type", JStr "string")]); ("type", JObj [("type", JStr "string")]);
    ("controller", JObj [("type", JStr "string")])]); ("required", JArr [JStr "id"; JStr "type"; JStr "controller"]);
    ("additionalProperties", JBool true)])]])]); ("created", JObj [("type", JStr "string")]); ("domain", JObj [("type", JStr "string")]);
    ("challenge", JObj [("type", JStr "string")]); ("proofValue", JObj [("type", JStr "string")])]); ("required", JArr [JStr "type";
    JStr "proofPurpose"; JStr "verificationMethod"]); ("additionalProperties", JBool true)].
Definition cred2_d_proofChain : json :=
  JObj [("type", JStr "array"); ("items", JObj [("$ref", JStr "#/$defs/proof")]); ("minItems", jnum 1)].
Definition cred2_p_context : json :=
  JObj [("type", JStr "array"); ("contains", JObj [("const", JStr "https://www.w3.org/ns/credentials/v2")]); ("minItems", jnum 1)].
Definition cred2_p_id : json :=
  JObj [("type", JStr "string")].
Definition cred2_p_type : json :=
  JObj [("oneOf", JArr [JObj [("type", JStr "array"); ("contains", JObj [("const", JStr "VerifiableCredential")])]; JObj [("type", JStr "string");
    ("enum", JArr [JStr "VerifiableCredential"])]])].
Definition cred2_p_issuer : json :=
  JObj [("oneOf", JArr [JObj [("type", JStr "string")]; JObj [("type", JStr "object"); ("properties", JObj [("id", JObj [("type", JStr "string")])]);
    ("required", JArr [JStr "id"]); ("additionalProperties", JBool true)]])].
Definition cred2_p_validFrom : json :=
  JObj [("type", JStr "string");
    ("pattern", JStr "-?([1-9][0-9]{3,}|0[0-9]{3})-(0[1-9]|1[0-2])-(0[1-9]|[12][0-9]|3[01])T(([01][0-9]|2[0-3]):[0-5][0-9]:[0-5][0-9](\.[0-9]+)?|(24:00:00(\.0+)?))(Z|(\+|-)((0[0-9]|1[0-3]):[0-5][0-9]|14:00))")].
Definition cred2_p_validUntil : json :=
  JObj [("type", JStr "string");
    ("pattern", JStr "-?([1-9][0-9]{3,}|0[0-9]{3})-(0[1-9]|1[0-2])-(0[1-9]|[12][0-9]|3[01])T(([01][0-9]|2[0-3]):[0-5][0-9]:[0-5][0-9](\.[0-9]+)?|(24:00:00(\.0+)?))(Z|(\+|-)((0[0-9]|1[0-3]):[0-5][0-9]|14:00))")].
Definition cred2_p_credentialSubject : json :=
  JObj [("oneOf", JArr [JObj [("$ref", JStr "#/$defs/credentialSubject")]; JObj [("type", JStr "array");
    ("items", JObj [("$ref", JStr "#/$defs/credentialSubject")]); ("minItems", jnum 1)]])].
Definition cred2_p_credentialStatus : json :=
  JObj [("oneOf", JArr [JObj [("$ref", JStr "#/$defs/credentialStatus")]; JObj [("type", JStr "array");
    ("items", JObj [("$ref", JStr "#/$defs/credentialStatus")]); ("minItems", jnum 1)]])].
Definition cred2_p_credentialSchema : json :=
  JObj [("oneOf", JArr [JObj [("$ref", JStr "#/$defs/credentialSchema")]; JObj [("type", JStr "array");
    ("items", JObj [("$ref", JStr "#/$defs/credentialSchema")]); ("minItems", jnum 1)]])].
Definition cred2_p_refreshService : json :=
  JObj [("oneOf", JArr [JObj [("$ref", JStr "#/$defs/refreshService")]; JObj [("type", JStr "array");
    ("items", JObj [("$ref", JStr "#/$defs/refreshService")]); ("minItems", jnum 1)]])].
Definition cred2_p_termsOfUse : json :=
  JObj [("oneOf", JArr [JObj [("$ref", JStr "#/$defs/termsOfUse")]; JObj [("type", JStr "array");
    ("items", JObj [("$ref", JStr "#/$defs/termsOfUse")]); ("minItems", jnum 1)]])].
Definition cred2_p_evidence : json :=
  JObj [("oneOf", JArr [JObj [("$ref", JStr "#/$defs/evidence")]; JObj [("type", JStr "array"); ("items", JObj [("$ref", JStr "#/$defs/evidence")]);
    ("minItems", jnum 1)]])].
Definition cred2_p_proof : json :=
  JObj [("oneOf", JArr [JObj [("$ref", JStr "#/$defs/proof")]; JObj [("type", JStr "array"); ("items", JObj [("$ref", JStr "#/$defs/proof")]);
    ("minItems", jnum 1)]])].
Definition cred2_p_proofChain : json :=
  JObj [("$ref", JStr "#/$defs/proofChain")].
Definition cred2 (req : list string) : json :=
  JObj [("$id", JStr "https://www.w3.org/2022/credentials/v2/verifiable-credential-schema.json");
    ("$schema", JStr "https://json-schema.org/draft/2020-12/schema");
    ("description", JStr "JSON Schema for a Verifiable Credential according to the Verifiable Credentials Data Model v2"); ("type", JStr "object");
    ("$defs", JObj [("type", cred2_d_type); ("credentialSubject", cred2_d_credentialSubject); ("credentialSchema", cred2_d_credentialSchema);
    ("credentialStatus", cred2_d_credentialStatus); ("refreshService", cred2_d_refreshService); ("termsOfUse", cred2_d_termsOfUse);
    ("evidence", cred2_d_evidence); ("proof", cred2_d_proof); ("proofChain", cred2_d_proofChain)]);
    ("properties", JObj [("@context", cred2_p_context); ("id", cred2_p_id); ("type", cred2_p_type); ("issuer", cred2_p_issuer);
    ("validFrom", cred2_p_validFrom); ("validUntil", cred2_p_validUntil); ("credentialSubject", cred2_p_credentialSubject);
    ("credentialStatus", cred2_p_credentialStatus); ("credentialSchema", cred2_p_credentialSchema); ("refreshService", cred2_p_refreshService);
    ("termsOfUse", cred2_p_termsOfUse); ("evidence", cred2_p_evidence); ("proof", cred2_p_proof); ("proofChain", cred2_p_proofChain)]);
    ("required", JArr ([JStr "@context"] ++ map JStr req)); ("additionalProperties", JBool true)].

(** ** verifiable/presentation.go:44-173 v1BasePresentationSchema *)
Definition pres1_d_typedID : json :=
  JObj [("type", JStr "object"); ("required", JArr [JStr "id"; JStr "type"]); ("properties", JObj [("id", JObj [("type", JStr "string");
    ("format", JStr "uri")]); ("type", JObj [("anyOf", JArr [JObj [("type", JStr "string")]; JObj [("type", JStr "array");
    ("items", JObj [("type", JStr "string")])]])])])].
Definition pres1_d_proof : json :=
  JObj [("type", JStr "object"); ("required", JArr [JStr "type"]); ("properties", JObj [("type", JObj [("type", JStr "string")])])].
Definition pres1_p_context : json :=
  JObj [("oneOf", JArr [JObj [("type", JStr "string"); ("const", JStr "https://www.w3.org/2018/credentials/v1")]; JObj [("type", JStr "array");
    ("items", JArr [JObj [("type", JStr "string"); ("const", JStr "https://www.w3.org/2018/credentials/v1")]]); ("uniqueItems", JBool true);
    ("additionalItems", JObj [("oneOf", JArr [JObj [("type", JStr "object")]; JObj [("type", JStr "string")]])])]])].
Definition pres1_p_id : json :=
  JObj [("type", JStr "string")].
Definition pres1_p_type : json :=
  JObj [("oneOf", JArr [JObj [("type", JStr "array"); ("minItems", jnum 1); ("contains", JObj [("type", JStr "string");
    ("pattern", JStr "^VerifiablePresentation$")])]; JObj [("type", JStr "string"); ("pattern", JStr "^VerifiablePresentation$")]])].
Definition pres1_p_verifiableCredential : json :=
  JObj [("anyOf", JArr [JObj [("type", JStr "array")]; JObj [("type", JStr "object")]; JObj [("type", JStr "string")]; JObj [("type", JStr "null")]])].
Definition pres1_p_proof : json :=
  JObj [("anyOf", JArr [JObj [("type", JStr "array"); ("items", JArr [JObj [("$ref", JStr "#/definitions/proof")]])];
    JObj [("$ref", JStr "#/definitions/proof")]])].
Definition pres1_p_refreshService : json :=
  JObj [("$ref", JStr "#/definitions/typedID")].
Definition pres1 : json :=
  JObj [("required", JArr [JStr "@context"; JStr "type"]); ("properties", JObj [("@context", pres1_p_context); ("id", pres1_p_id);
    ("type", pres1_p_type); ("verifiableCredential", pres1_p_verifiableCredential); ("proof", pres1_p_proof);
    ("refreshService", pres1_p_refreshService)]); ("definitions", JObj [("typedID", pres1_d_typedID); ("proof", pres1_d_proof)])].

(** ** verifiable/presentation.go:176-324 v2BasePresentationSchema *)
Definition pres2_d_proof : json :=
  JObj [("type", JStr "object"); ("properties", JObj [("type", JObj [("oneOf", JArr [JObj [("type", JStr "string")]; JObj [("type", JStr "array");
    ("minItems", jnum 1)]])]); ("proofPurpose", JObj [("type", JStr "string")]);
    ("verificationMethod", JObj [("oneOf", JArr [JObj [("type", JStr "string")]; JObj [("type", JStr "array"); ("minItems", jnum 1);
    ("items", JObj [("type", JStr "object"); ("properties", JObj [("id", JObj [("type", JStr "string")]); ("type", JObj [("type", JStr "string")]);
    ("controller", JObj [("type", JStr "string")])]); ("required", JArr [JStr "id"; JStr "type"; JStr "controller"]);
    ("additionalProperties", JBool true)])]])]); ("created", JObj [("type", JStr "string");
    ("pattern", JStr "-?([1-9][0-9]{3,}|0[0-9]{3})-(0[1-9]|1[0-2])-(0[1-9]|[12][0-9]|3[01])T(([01][0-9]|2[0-3]):[0-5][0-9]:[0-5][0-9](\.[0-9]+)?|(24:00:00(\.0+)?))(Z|(\+|-)((0[0-9]|1[0-3]):[0-5][0-9]|14:00))")]);
    ("domain", JObj [("type", JStr "string")]); ("challenge", JObj [("type", JStr "string")]); ("proofValue", JObj [("type", JStr "string")])]);
    ("required", JArr [JStr "type"; JStr "proofPurpose"; JStr "verificationMethod"; JStr "created"]); ("additionalProperties", JBool true)].
Definition pres2_d_proofChain : json :=
  JObj [("type", JStr "array"); ("items", JObj [("$ref", JStr "#/$defs/proof")]); ("minItems", jnum 1)].
Definition pres2_p_context : json :=
  JObj [("type", JStr "array"); ("contains", JObj [("const", JStr "https://www.w3.org/ns/credentials/v2")]); ("minItems", jnum 1)].
Definition pres2_p_id : json :=
  JObj [("type", JStr "string")].
Definition pres2_p_type : json :=
  JObj [("oneOf", JArr [JObj [("type", JStr "array"); ("contains", JObj [("const", JStr "VerifiablePresentation")])]; JObj [("type", JStr "string");
    ("enum", JArr [JStr "VerifiablePresentation"])]])].
Definition pres2_p_verifiableCredential : json :=
  JObj [("anyOf", JArr [JObj [("type", JStr "array")]; JObj [("type", JStr "object")]; JObj [("type", JStr "string")]; JObj [("type", JStr "null")]])].
Definition pres2_p_proof : json :=
  JObj [("oneOf", JArr [JObj [("$ref", JStr "#/$defs/proof")]; JObj [("type", JStr "array"); ("items", JObj [("$ref", JStr "#/$defs/proof")]);
    ("minItems", jnum 1)]])].
Definition pres2_p_proofChain : json :=
  JObj [("$ref", JStr "#/$defs/proofChain")].
Definition pres2 : json :=
  JObj [("$id", JStr "https://www.w3.org/2022/credentials/v2/verifiable-presentation-schema.json");
    ("$schema", JStr "https://json-schema.org/draft/2020-12/schema");
    ("description", JStr "JSON Schema for a Verifiable Presentation according to the Verifiable Credentials Data Model v2"); ("type", JStr "object");
    ("$defs", JObj [("proof", pres2_d_proof); ("proofChain", pres2_d_proofChain)]); ("properties", JObj [("@context", pres2_p_context);
    ("id", pres2_p_id); ("type", pres2_p_type); ("verifiableCredential", pres2_p_verifiableCredential); ("proof", pres2_p_proof);
    ("proofChain", pres2_p_proofChain)]); ("required", JArr [JStr "@context"; JStr "type"]); ("additionalProperties", JBool true)].

(** ** presexch/schema.go:12-472 DefinitionJSONSchemaV1 *)
Definition def1_d_schema : json :=
  JObj [("type", JStr "object"); ("properties", JObj [("uri", JObj [("type", JStr "string")]); ("required", JObj [("type", JStr "boolean")])]);
    ("required", JArr [JStr "uri"]); ("additionalProperties", JBool false)].
Definition def1_d_filter : json :=
  JObj [("type", JStr "object"); ("properties", JObj [("type", JObj [("type", JStr "string")]); ("format", JObj [("type", JStr "string")]);
    ("pattern", JObj [("type", JStr "string")]); ("minimum", JObj [("type", JArr [JStr "number"; JStr "string"])]);
    ("minLength", JObj [("type", JStr "integer")]); ("maxLength", JObj [("type", JStr "integer")]);
    ("exclusiveMinimum", JObj [("type", JArr [JStr "number"; JStr "string"])]); ("exclusiveMaximum", JObj [("type", JArr [JStr "number";
    JStr "string"])]); ("maximum", JObj [("type", JArr [JStr "number"; JStr "string"])]); ("const", JObj [("type", JArr [JStr "number";
    JStr "string"])]); ("enum", JObj [("type", JStr "array"); ("items", JObj [("type", JArr [JStr "number"; JStr "string"])])]);
    ("not", JObj [("type", JStr "object"); ("minProperties", jnum 1)])]); ("required", JArr [JStr "type"]); ("additionalProperties", JBool true)].
Definition def1_d_format : json :=
  JObj [("type", JStr "object"); ("patternProperties", JObj [("^jwt$|^jwt_vc$|^jwt_vp$", JObj [("type", JStr "object");
    ("properties", JObj [("alg", JObj [("type", JStr "array"); ("minItems", jnum 1); ("items", JObj [("type", JStr "string")])])]);
    ("required", JArr [JStr "alg"]); ("additionalProperties", JBool false)]); ("^ldp_vc$|^ldp_vp$|^ldp$", JObj [("type", JStr "object");
    ("properties", JObj [("proof_type", JObj [("type", JStr "array"); ("minItems", jnum 1); ("items", JObj [("type", JStr "string")])])]);
    ("required", JArr [JStr "proof_type"]); ("additionalProperties", JBool false)]); ("additionalProperties", JBool false)]);
    ("additionalProperties", JBool false)].
Definition def1_d_submission_requirements : json :=
  JObj [("type", JStr "object"); ("oneOf", JArr [JObj [("properties", JObj [("name", JObj [("type", JStr "string")]);
    ("purpose", JObj [("type", JStr "string")]); ("rule", JObj [("type", JStr "string"); ("enum", JArr [JStr "all"; JStr "pick"])]);
    ("count", JObj [("type", JStr "integer"); ("minimum", jnum 1)]); ("min", JObj [("type", JStr "integer"); ("minimum", jnum 0)]);
    ("max", JObj [("type", JStr "integer"); ("minimum", jnum 0)]); ("from", JObj [("type", JStr "string")])]); ("required", JArr [JStr "rule";
    JStr "from"]); ("additionalProperties", JBool false)]; JObj [("properties", JObj [("name", JObj [("type", JStr "string")]);
    ("purpose", JObj [("type", JStr "string")]); ("rule", JObj [("type", JStr "string"); ("enum", JArr [JStr "all"; JStr "pick"])]);
    ("count", JObj [("type", JStr "integer"); ("minimum", jnum 1)]); ("min", JObj [("type", JStr "integer"); ("minimum", jnum 0)]);
    ("max", JObj [("type", JStr "integer"); ("minimum", jnum 0)]); ("from_nested", JObj [("type", JStr "array"); ("minItems", jnum 1);
    ("items", JObj [("$ref", JStr "#/definitions/submission_requirements")])])]); ("required", JArr [JStr "rule"; JStr "from_nested"]);
    ("additionalProperties", JBool false)]])].
Definition def1_d_input_descriptors : json :=
  JObj [("type", JStr "object"); ("properties", JObj [("id", JObj [("type", JStr "string")]); ("name", JObj [("type", JStr "string")]);
    ("purpose", JObj [("type", JStr "string")]); ("group", JObj [("type", JStr "array"); ("items", JObj [("type", JStr "string")])]);
    ("schema", JObj [("type", JStr "array"); ("items", JObj [("$ref", JStr "#/definitions/schema")])]);
    ("constraints", JObj [("type", JStr "object"); ("properties", JObj [("limit_disclosure", JObj [("type", JStr "string");
    ("enum", JArr [JStr "required"; JStr "preferred"])]); ("statuses", JObj [("type", JStr "object");
    ("properties", JObj [("active", JObj [("type", JStr "object"); ("properties", JObj [("directive", JObj [("type", JStr "string");
    ("enum", JArr [JStr "required"; JStr "allowed"; JStr "disallowed"])])])]); ("suspended", JObj [("type", JStr "object");
    ("properties", JObj [("directive", JObj [("type", JStr "string"); ("enum", JArr [JStr "required"; JStr "allowed"; JStr "disallowed"])])])]);
    ("revoked", JObj [("type", JStr "object"); ("properties", JObj [("directive", JObj [("type", JStr "string"); ("enum", JArr [JStr "required";
    JStr "allowed"; JStr "disallowed"])])])])])]); ("fields", JObj [("type", JStr "array"); ("items", JObj [("$ref", JStr "#/definitions/field")])]);
    ("subject_is_issuer", JObj [("type", JStr "string"); ("enum", JArr [JStr "required"; JStr "preferred"])]);
    ("is_holder", JObj [("type", JStr "array"); ("items", JObj [("type", JStr "object");
    ("properties", JObj [("field_id", JObj [("type", JStr "array"); ("items", JObj [("type", JStr "string")])]);
    ("directive", JObj [("type", JStr "string"); ("enum", JArr [JStr "required"; JStr "preferred"])])]); ("required", JArr [JStr "field_id";
    JStr "directive"]); ("additionalProperties", JBool false)])]); ("same_subject", JObj [("type", JStr "array");
    ("items", JObj [("type", JStr "object"); ("properties", JObj [("field_id", JObj [("type", JStr "array");
    ("items", JObj [("type", JStr "string")])]); ("directive", JObj [("type", JStr "string"); ("enum", JArr [JStr "required"; JStr "preferred"])])]);
    ("required", JArr [JStr "field_id"; JStr "directive"]); ("additionalProperties", JBool false)])])]); ("additionalProperties", JBool false)])]);
    ("required", JArr [JStr "id"; JStr "schema"]); ("additionalProperties", JBool false)].
Definition def1_d_field : json :=
  JObj [("type", JStr "object"); ("oneOf", JArr [JObj [("properties", JObj [("id", JObj [("type", JStr "string")]);
    ("path", JObj [("type", JStr "array"); ("items", JObj [("type", JStr "string")])]); ("purpose", JObj [("type", JStr "string")]);
    ("filter", JObj [("$ref", JStr "#/definitions/filter")])]); ("required", JArr [JStr "path"]); ("additionalProperties", JBool false)];
    JObj [("properties", JObj [("id", JObj [("type", JStr "string")]); ("path", JObj [("type", JStr "array");
    ("items", JObj [("type", JStr "string")])]); ("purpose", JObj [("type", JStr "string")]);
    ("filter", JObj [("$ref", JStr "#/definitions/filter")]); ("predicate", JObj [("type", JStr "string"); ("enum", JArr [JStr "required";
    JStr "preferred"])])]); ("required", JArr [JStr "path"; JStr "filter"; JStr "predicate"]); ("additionalProperties", JBool false)]])].
Definition def1_p_presentation_definition : json :=
  JObj [("type", JStr "object"); ("properties", JObj [("id", JObj [("type", JStr "string")]); ("name", JObj [("type", JStr "string")]);
    ("purpose", JObj [("type", JStr "string")]); ("format", JObj [("$ref", JStr "#/definitions/format")]);
    ("submission_requirements", JObj [("type", JStr "array"); ("items", JObj [("$ref", JStr "#/definitions/submission_requirements")])]);
    ("input_descriptors", JObj [("type", JStr "array"); ("items", JObj [("$ref", JStr "#/definitions/input_descriptors")])])]);
    ("required", JArr [JStr "id"; JStr "input_descriptors"]); ("additionalProperties", JBool false)].
Definition def1 : json :=
  JObj [("$schema", JStr "http://json-schema.org/draft-07/schema#"); ("title", JStr "Presentation Definition");
    ("definitions", JObj [("schema", def1_d_schema); ("filter", def1_d_filter); ("format", def1_d_format);
    ("submission_requirements", def1_d_submission_requirements); ("input_descriptors", def1_d_input_descriptors); ("field", def1_d_field)]);
    ("type", JStr "object"); ("properties", JObj [("presentation_definition", def1_p_presentation_definition)])].

(** ** presexch/schema.go:476-734 DefinitionJSONSchemaV2 *)
Definition def2_d_status_directive : json :=
  JObj [("type", JStr "object"); ("additionalProperties", JBool false); ("properties", JObj [("directive", JObj [("type", JStr "string");
    ("enum", JArr [JStr "required"; JStr "allowed"; JStr "disallowed"])]); ("type", JObj [("type", JStr "array"); ("minItems", jnum 1);
    ("items", JObj [("type", JStr "string")])])])].
Definition def2_d_field : json :=
  JObj [("type", JStr "object"); ("oneOf", JArr [JObj [("properties", JObj [("id", JObj [("type", JStr "string")]);
    ("path", JObj [("type", JStr "array"); ("items", JObj [("type", JStr "string")])]); ("purpose", JObj [("type", JStr "string")]);
    ("intent_to_retain", JObj [("type", JStr "boolean")]); ("optional", JObj [("type", JStr "boolean")]);
    ("filter", JObj [("$ref", JStr "http://json-schema.org/draft-07/schema#")])]); ("required", JArr [JStr "path"]);
    ("additionalProperties", JBool false)]; JObj [("properties", JObj [("id", JObj [("type", JStr "string")]); ("path", JObj [("type", JStr "array");
    ("items", JObj [("type", JStr "string")])]); ("purpose", JObj [("type", JStr "string")]); ("intent_to_retain", JObj [("type", JStr "boolean")]);
    ("filter", JObj [("$ref", JStr "http://json-schema.org/draft-07/schema#")]); ("predicate", JObj [("type", JStr "string");
    ("enum", JArr [JStr "required"; JStr "preferred"])])]); ("required", JArr [JStr "path"; JStr "filter"; JStr "predicate"]);
    ("additionalProperties", JBool false)]])].
Definition def2_d_input_descriptor : json :=
  JObj [("type", JStr "object"); ("additionalProperties", JBool false); ("properties", JObj [("id", JObj [("type", JStr "string")]);
    ("name", JObj [("type", JStr "string")]); ("purpose", JObj [("type", JStr "string")]);
    ("format", JObj [("$schema", JStr "http://json-schema.org/draft-07/schema#");
    ("title", JStr "Presentation Definition Claim Format Designations"); ("type", JStr "object"); ("additionalProperties", JBool false);
    ("patternProperties", JObj [("^jwt$|^jwt_vc$|^jwt_vp$", JObj [("type", JStr "object"); ("additionalProperties", JBool false);
    ("properties", JObj [("alg", JObj [("type", JStr "array"); ("minItems", jnum 1); ("items", JObj [("type", JStr "string")])])])]);
    ("^ldp_vc$|^ldp_vp$|^ldp$", JObj [("type", JStr "object"); ("additionalProperties", JBool false);
    ("properties", JObj [("proof_type", JObj [("type", JStr "array"); ("minItems", jnum 1); ("items", JObj [("type", JStr "string")])])])])])]);
    ("group", JObj [("type", JStr "array"); ("items", JObj [("type", JStr "string")])]); ("constraints", JObj [("type", JStr "object");
    ("additionalProperties", JBool false); ("properties", JObj [("limit_disclosure", JObj [("type", JStr "string"); ("enum", JArr [JStr "required";
    JStr "preferred"])]); ("statuses", JObj [("type", JStr "object"); ("additionalProperties", JBool false);
    ("properties", JObj [("active", JObj [("$ref", JStr "#/definitions/status_directive")]);
    ("suspended", JObj [("$ref", JStr "#/definitions/status_directive")]); ("revoked", JObj [("$ref", JStr "#/definitions/status_directive")])])]);
    ("fields", JObj [("type", JStr "array"); ("items", JObj [("$ref", JStr "#/definitions/field")])]);
    ("subject_is_issuer", JObj [("type", JStr "string"); ("enum", JArr [JStr "required"; JStr "preferred"])]);
    ("is_holder", JObj [("type", JStr "array"); ("items", JObj [("type", JStr "object"); ("additionalProperties", JBool false);
    ("properties", JObj [("field_id", JObj [("type", JStr "array"); ("items", JObj [("type", JStr "string")])]);
    ("directive", JObj [("type", JStr "string"); ("enum", JArr [JStr "required"; JStr "preferred"])])]); ("required", JArr [JStr "field_id";
    JStr "directive"])])]); ("same_subject", JObj [("type", JStr "array"); ("items", JObj [("type", JStr "object");
    ("additionalProperties", JBool false); ("properties", JObj [("field_id", JObj [("type", JStr "array");
    ("items", JObj [("type", JStr "string")])]); ("directive", JObj [("type", JStr "string"); ("enum", JArr [JStr "required"; JStr "preferred"])])]);
    ("required", JArr [JStr "field_id"; JStr "directive"])])])])])]); ("required", JArr [JStr "id"])].
Definition def2_d_submission_requirement : json :=
  JObj [("type", JStr "object"); ("oneOf", JArr [JObj [("properties", JObj [("name", JObj [("type", JStr "string")]);
    ("purpose", JObj [("type", JStr "string")]); ("rule", JObj [("type", JStr "string"); ("enum", JArr [JStr "all"; JStr "pick"])]);
    ("count", JObj [("type", JStr "integer"); ("minimum", jnum 1)]); ("min", JObj [("type", JStr "integer"); ("minimum", jnum 0)]);
    ("max", JObj [("type", JStr "integer"); ("minimum", jnum 0)]); ("from", JObj [("type", JStr "string")])]); ("required", JArr [JStr "rule";
    JStr "from"]); ("additionalProperties", JBool false)]; JObj [("properties", JObj [("name", JObj [("type", JStr "string")]);
    ("purpose", JObj [("type", JStr "string")]); ("rule", JObj [("type", JStr "string"); ("enum", JArr [JStr "all"; JStr "pick"])]);
    ("count", JObj [("type", JStr "integer"); ("minimum", jnum 1)]); ("min", JObj [("type", JStr "integer"); ("minimum", jnum 0)]);
    ("max", JObj [("type", JStr "integer"); ("minimum", jnum 0)]); ("from_nested", JObj [("type", JStr "array"); ("minItems", jnum 1);
    ("items", JObj [("$ref", JStr "#/definitions/submission_requirement")])])]); ("required", JArr [JStr "rule"; JStr "from_nested"]);
    ("additionalProperties", JBool false)]])].
Definition def2_d_presentation_definition : json :=
  JObj [("type", JStr "object"); ("properties", JObj [("id", JObj [("type", JStr "string")]); ("name", JObj [("type", JStr "string")]);
    ("purpose", JObj [("type", JStr "string")]); ("format", JObj [("$schema", JStr "http://json-schema.org/draft-07/schema#");
    ("title", JStr "Presentation Definition Claim Format Designations"); ("type", JStr "object"); ("additionalProperties", JBool false);
    ("patternProperties", JObj [("^jwt$|^jwt_vc$|^jwt_vp$", JObj [("type", JStr "object"); ("additionalProperties", JBool false);
    ("properties", JObj [("alg", JObj [("type", JStr "array"); ("minItems", jnum 1); ("items", JObj [("type", JStr "string")])])])]);
    ("^ldp_vc$|^ldp_vp$|^ldp$", JObj [("type", JStr "object"); ("additionalProperties", JBool false);
    ("properties", JObj [("proof_type", JObj [("type", JStr "array"); ("minItems", jnum 1); ("items", JObj [("type", JStr "string")])])])])])]);
    ("frame", JObj [("type", JStr "object"); ("additionalProperties", JBool true)]); ("submission_requirements", JObj [("type", JStr "array");
    ("items", JObj [("$ref", JStr "#/definitions/submission_requirement")])]); ("input_descriptors", JObj [("type", JStr "array");
    ("items", JObj [("$ref", JStr "#/definitions/input_descriptor")])])]); ("required", JArr [JStr "id"; JStr "input_descriptors"]);
    ("additionalProperties", JBool false)].
Definition def2_p_presentation_definition : json :=
  JObj [("$ref", JStr "#/definitions/presentation_definition")].
Definition def2 : json :=
  JObj [("$schema", JStr "http://json-schema.org/draft-07/schema#"); ("title", JStr "Presentation Definition Envelope");
    ("definitions", JObj [("status_directive", def2_d_status_directive); ("field", def2_d_field); ("input_descriptor", def2_d_input_descriptor);
    ("submission_requirement", def2_d_submission_requirement); ("presentation_definition", def2_d_presentation_definition)]);
    ("type", JStr "object"); ("properties", JObj [("presentation_definition", def2_p_presentation_definition)])].
