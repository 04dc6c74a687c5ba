(** verifiable/credential.go:2235-2300 the default credential schemas; 2168-2190 and presentation.go:972-1002 validation against them. *)
From Verif Require Import GoBase StatusModel PexModel JsModel JsSchemas VcModel VcParse VpModel.

(** credential.go:2263-2290 jsonSchemaLoader: the properties that stay required.  WithDisableRequiredField (2243-2247) appends to
    [disabled].  The schema text is the template with these names after "@context" in "required". *)
Definition still_required (defaults disabled : list string) : list string := filter (fun p => negb (str_in p disabled)) defaults.
(** 2250-2257 JSONSchemaLoaderV1, 2260-2266 JSONSchemaLoaderV2 *)
Definition json_schema_loader_v1 (disabled : list string) : json :=
  cred1 (still_required ["type"; "credentialSubject"; "issuer"; "issuanceDate"] disabled).
Definition json_schema_loader_v2 (disabled : list string) : json :=
  cred2 (still_required ["type"; "credentialSubject"; "issuer"] disabled).

Section Validators.
  Variable re fmt : string -> string -> bool.
  Variable ext : string -> json -> bool.
  Definition checked_against (s : json) (m : gomap json) (what : string) : res unit := guard (js_valid re fmt ext s (JObj m)) what.
  (** credential.go:2168-2190 with the loaders of 2292-2300; [custom]: validation against a schema text *)
  Definition gojson_credential (custom : string -> gomap json -> res unit) (s : schema_doc) (m : gomap json) : res unit :=
    match s with
    | SchemaV1 => checked_against (json_schema_loader_v1 []) m "verifiable credential"
    | SchemaV2 => checked_against (json_schema_loader_v2 []) m "verifiable credential"
    | SchemaText t => custom t m
    end.
  (** presentation.go:972-1002 validateVPJSONSchema, the schemas of 44-324 *)
  Definition gojson_presentation (v2 : bool) (m : gomap json) : res unit :=
    checked_against (if v2 then pres2 else pres1) m "verifiable presentation".
End Validators.
