(** Model of the options of the parsers: verifiable/credential.go:1132-1319 (With... functions), 2121-2145; verifiable/presentation.go:588-659, 719-727,
    1016-1020; verifiable/credential_testsuite.go:16-41; verifiable/did_ldp.go:29-78, 112-135.
    An option is a function that writes into the options record; here it is a constructor with its arguments, and [apply_copt] is what the function does. *)
From Verif Require Import GoBase Base64 JwtSpec DiSpec VcSpec JwtModel SdSpec SdModel SdParse DiModel VcModel VcJwt VcParse VpModel LdModel.

Section Options.
  Variable D : Type.                                       (* JSON-LD document loaders *)
  (** a CredentialSchemaLoader, as the function getJSONSchema (ScModel has its cache) *)
  Definition sloader := string -> res string.
  (** credential.go:1132-1319, credential_testsuite.go:16-20; None: a nil interface, function or pointer *)
  Inductive copt :=
  | WithDisabledProofCheck | WithNoProofCheck | WithEnabledJSONLDTypesCheck | WithDisabledRelatedResourceCheck | WithCredDisableValidation
  | WithSchema (s : string) | WithDefaultSchemaLoader (f : option (contents -> string)) | WithNoCustomSchemaCheck
  | WithProofChecker (c : option combined) | WithLDProofChecker (c : option ld_checker) | WithJWTProofChecker (c : option proof_checker)
  | WithCWTProofChecker (c : option cwt_checker)
  | WithCredentialSchemaLoader (l : option sloader) | WithJSONLDValidation | WithBaseContextValidation (base : string)
  | WithDataIntegrityVerifier (v : option dverifier) | WithExpectedDataIntegrityFields (purpose domain challenge : string)
  | WithBaseContextExtendedValidation (base : string) (contexts types : list string) | WithJSONLDDocumentLoader (d : option D)
  | WithStrictValidation | WithExternalJSONLDContext (l : list string) | WithJSONLDOnlyValidRDF | WithJSONLDIncludeDetailedStructureDiffOnError.
  (** credential.go:1108-1127 credentialOpts with jsonldCredentialOpts (common.go) *)
  Record cstate := { cs_o : copts; cs_loader : option sloader; cs_doc : option D; cs_rdf : bool; cs_diff : bool }.
  Definition set_checks (o : copts) (j : option proof_checker) (l : option ld_checker) (c : option cwt_checker) : copts :=
    {| co_jwt_check := j; co_ld_check := l; co_cwt_check := c; co_no_proof := co_no_proof o; co_no_validation := co_no_validation o; co_no_related := co_no_related o;
       co_no_custom := co_no_custom o; co_schema := co_schema o; co_schema_of := co_schema_of o; co_mode := co_mode o; co_contexts := co_contexts o; co_types := co_types o;
       co_strict := co_strict o; co_ld_types := co_ld_types o; co_external := co_external o; co_di := co_di o; co_di_purpose := co_di_purpose o;
       co_di_domain := co_di_domain o; co_di_challenge := co_di_challenge o |}.
  Definition set_flags (o : copts) (noproof noval norel nocust strict types : bool) : copts :=
    {| co_jwt_check := co_jwt_check o; co_ld_check := co_ld_check o; co_cwt_check := co_cwt_check o; co_no_proof := noproof; co_no_validation := noval;
       co_no_related := norel; co_no_custom := nocust; co_schema := co_schema o; co_schema_of := co_schema_of o; co_mode := co_mode o; co_contexts := co_contexts o;
       co_types := co_types o; co_strict := strict; co_ld_types := types; co_external := co_external o; co_di := co_di o; co_di_purpose := co_di_purpose o;
       co_di_domain := co_di_domain o; co_di_challenge := co_di_challenge o |}.
  Definition set_schemas (o : copts) (s : string) (f : option (contents -> string)) (ext : list string) : copts :=
    {| co_jwt_check := co_jwt_check o; co_ld_check := co_ld_check o; co_cwt_check := co_cwt_check o; co_no_proof := co_no_proof o; co_no_validation := co_no_validation o;
       co_no_related := co_no_related o; co_no_custom := co_no_custom o; co_schema := s; co_schema_of := f; co_mode := co_mode o; co_contexts := co_contexts o;
       co_types := co_types o; co_strict := co_strict o; co_ld_types := co_ld_types o; co_external := ext; co_di := co_di o; co_di_purpose := co_di_purpose o;
       co_di_domain := co_di_domain o; co_di_challenge := co_di_challenge o |}.
  Definition set_mode (o : copts) (m : vmode) (ctxs types : list string) : copts :=
    {| co_jwt_check := co_jwt_check o; co_ld_check := co_ld_check o; co_cwt_check := co_cwt_check o; co_no_proof := co_no_proof o; co_no_validation := co_no_validation o;
       co_no_related := co_no_related o; co_no_custom := co_no_custom o; co_schema := co_schema o; co_schema_of := co_schema_of o; co_mode := m; co_contexts := ctxs;
       co_types := types; co_strict := co_strict o; co_ld_types := co_ld_types o; co_external := co_external o; co_di := co_di o; co_di_purpose := co_di_purpose o;
       co_di_domain := co_di_domain o; co_di_challenge := co_di_challenge o |}.
  Definition set_di (o : copts) (v : option dverifier) (p d c : string) : copts :=
    {| co_jwt_check := co_jwt_check o; co_ld_check := co_ld_check o; co_cwt_check := co_cwt_check o; co_no_proof := co_no_proof o; co_no_validation := co_no_validation o;
       co_no_related := co_no_related o; co_no_custom := co_no_custom o; co_schema := co_schema o; co_schema_of := co_schema_of o; co_mode := co_mode o;
       co_contexts := co_contexts o; co_types := co_types o; co_strict := co_strict o; co_ld_types := co_ld_types o; co_external := co_external o;
       co_di := v; co_di_purpose := p; co_di_domain := d; co_di_challenge := c |}.
  Definition with_o (s : cstate) (o : copts) : cstate := {| cs_o := o; cs_loader := cs_loader s; cs_doc := cs_doc s; cs_rdf := cs_rdf s; cs_diff := cs_diff s |}.
  (** the bodies of the With... functions *)
  Definition apply_copt (s : cstate) (x : copt) : cstate :=
    let o := cs_o s in
    let flags a b c d e f := with_o s (set_flags o (a || co_no_proof o) (b || co_no_validation o) (c || co_no_related o) (d || co_no_custom o) (e || co_strict o) (f || co_ld_types o))%bool in
    match x with
    | WithDisabledProofCheck | WithNoProofCheck => flags true false false false false false
    | WithEnabledJSONLDTypesCheck => flags false false false false false true
    | WithDisabledRelatedResourceCheck => flags false false true false false false
    | WithCredDisableValidation => flags false true false false false false
    | WithNoCustomSchemaCheck => flags false false false true false false
    | WithStrictValidation => flags false false false false true false
    | WithSchema t => with_o s (set_schemas o t (co_schema_of o) (co_external o))
    | WithDefaultSchemaLoader f => with_o s (set_schemas o (co_schema o) f (co_external o))
    | WithExternalJSONLDContext l => with_o s (set_schemas o (co_schema o) (co_schema_of o) l)
    | WithProofChecker c => with_o s (set_checks o (option_map cc_jwt c) (option_map cc_ld c) (option_map cc_cwt c))
    | WithLDProofChecker c => with_o s (set_checks o (co_jwt_check o) c (co_cwt_check o))
    | WithJWTProofChecker c => with_o s (set_checks o c (co_ld_check o) (co_cwt_check o))
    | WithCWTProofChecker c => with_o s (set_checks o (co_jwt_check o) (co_ld_check o) c)
    | WithJSONLDValidation => with_o s (set_mode o MJsonLD (co_contexts o) (co_types o))
    | WithBaseContextValidation b => with_o s (set_mode o MBase [b] (co_types o))
    | WithBaseContextExtendedValidation b ctxs types => with_o s (set_mode o MExtended (b :: ctxs) ("VerifiableCredential" :: types))
    | WithDataIntegrityVerifier v => with_o s (set_di o v (co_di_purpose o) (co_di_domain o) (co_di_challenge o))
    | WithExpectedDataIntegrityFields p d c => with_o s (set_di o (co_di o) p d c)
    | WithCredentialSchemaLoader l => {| cs_o := o; cs_loader := l; cs_doc := cs_doc s; cs_rdf := cs_rdf s; cs_diff := cs_diff s |}
    | WithJSONLDDocumentLoader d => {| cs_o := o; cs_loader := cs_loader s; cs_doc := d; cs_rdf := cs_rdf s; cs_diff := cs_diff s |}
    | WithJSONLDOnlyValidRDF => {| cs_o := o; cs_loader := cs_loader s; cs_doc := cs_doc s; cs_rdf := true; cs_diff := cs_diff s |}
    | WithJSONLDIncludeDetailedStructureDiffOnError => {| cs_o := o; cs_loader := cs_loader s; cs_doc := cs_doc s; cs_rdf := cs_rdf s; cs_diff := true |}
    end.
  (** credential.go:2130-2134 *)
  Definition default_copts : copts :=
    {| co_jwt_check := None; co_ld_check := None; co_cwt_check := None; co_no_proof := false; co_no_validation := false; co_no_related := false;
       co_no_custom := false; co_schema := ""; co_schema_of := None; co_mode := MCombined; co_contexts := []; co_types := []; co_strict := false;
       co_ld_types := false; co_external := []; co_di := None; co_di_purpose := ""; co_di_domain := ""; co_di_challenge := "" |}.
  Definition default_cstate : cstate := {| cs_o := default_copts; cs_loader := None; cs_doc := None; cs_rdf := false; cs_diff := false |}.
  Definition options (l : list copt) : cstate := fold_left apply_copt l default_cstate.

  (** What surrounds a parse: libraries, network and clock, given the JSON-LD document loader and the two JSON-LD flags; the loader of 2147-2152 *)
  Record world := { wo_env : option D -> bool -> bool -> venv; wo_loader : sloader }.
  Definition with_schema (E : venv) (f : sloader) : venv :=
    {| ve_time := ve_time E; ve_jwt := ve_jwt E; ve_members := ve_members E; ve_obj := ve_obj E; ve_sd := ve_sd E; ve_order := ve_order E; ve_cose := ve_cose E;
       ve_hex := ve_hex E; ve_cbor := ve_cbor E; ve_schema := f; ve_valid := ve_valid E; ve_jsonld := ve_jsonld E; ve_ext := ve_ext E; ve_ldproofs := ve_ldproofs E;
       ve_ldmsg := ve_ldmsg E; ve_di := ve_di E; ve_now := ve_now E; ve_related := ve_related E |}.
  (** 2136-2142 *)
  Definition env_of (W : world) (s : cstate) : venv :=
    with_schema (wo_env W (cs_doc s) (cs_rdf s) (cs_diff s)) (match cs_loader s with Some f => f | None => wo_loader W end).
  (** credential.go:1436-1510 ParseCredential, ParseCredentialJSON *)
  Definition parse_credential_with (W : world) (l : list copt) (data : string) : res credential :=
    let s := options l in parse_credential (env_of W s) (cs_o s) data.
  Definition parse_credential_json_with (W : world) (l : list copt) (m : gomap json) : res credential :=
    let s := options l in parse_credential_json (env_of W s) (cs_o s) m.
  (** credential.go:1607-1612 ValidateCredential, 2036-2039 CheckProof (the credential as it is left: contexts may have been added to its JSON form) *)
  Definition validate_with (W : world) (l : list copt) (v : credential) : res unit :=
    let s := options l in validate_credential (env_of W s) (cr_contents v) (cr_json v) (cs_o s).
  Definition check_proof_with (W : world) (l : list copt) (v : credential) : res credential :=
    let s := options l in check_cred_proof (env_of W s) (cs_o s) v.

  (** ** Presentations *)
  (** presentation.go:588-659, credential_testsuite.go:22-41 *)
  Inductive popt :=
  | WithPresProofChecker (c : option combined) | WithPresDisabledProofCheck | WithPresNoProofCheck | WithPresStrictValidation
  | WithPresJSONLDDocumentLoader (d : option D) | WithPresHolderCheck (b : bool) | WithPresRelatedResourceCheck (b : bool) | WithDisabledJSONLDChecks
  | WithPresDataIntegrityVerifier (v : option dverifier) | WithPresExpectedDataIntegrityFields (purpose domain challenge : string)
  | WithPresRequireVC | WithPresRequireProof.
  Record pstate := { ps_o : vopts; ps_doc : option D }.
  Definition apply_popt (s : pstate) (x : popt) : pstate :=
    let o := ps_o s in
    let upd chk noproof strict rvc rproof nold di p d c h r :=
      {| ps_o := {| vo_check := chk; vo_no_proof := noproof; vo_strict := strict; vo_require_vc := rvc; vo_require_proof := rproof; vo_no_jsonld := nold;
                    vo_di := di; vo_purpose := p; vo_domain := d; vo_challenge := c; vo_holder := h; vo_related := r |}; ps_doc := ps_doc s |} in
    let same f := f (vo_di o) (vo_purpose o) (vo_domain o) (vo_challenge o) (vo_holder o) (vo_related o) in
    match x with
    | WithPresProofChecker c => same (upd c (vo_no_proof o) (vo_strict o) (vo_require_vc o) (vo_require_proof o) (vo_no_jsonld o))
    | WithPresDisabledProofCheck | WithPresNoProofCheck => same (upd (vo_check o) true (vo_strict o) (vo_require_vc o) (vo_require_proof o) (vo_no_jsonld o))
    | WithPresStrictValidation => same (upd (vo_check o) (vo_no_proof o) true (vo_require_vc o) (vo_require_proof o) (vo_no_jsonld o))
    | WithPresRequireVC => same (upd (vo_check o) (vo_no_proof o) (vo_strict o) true (vo_require_proof o) (vo_no_jsonld o))
    | WithPresRequireProof => same (upd (vo_check o) (vo_no_proof o) (vo_strict o) (vo_require_vc o) true (vo_no_jsonld o))
    | WithDisabledJSONLDChecks => same (upd (vo_check o) (vo_no_proof o) (vo_strict o) (vo_require_vc o) (vo_require_proof o) true)
    | WithPresJSONLDDocumentLoader d => {| ps_o := o; ps_doc := d |}
    | WithPresHolderCheck b => upd (vo_check o) (vo_no_proof o) (vo_strict o) (vo_require_vc o) (vo_require_proof o) (vo_no_jsonld o) (vo_di o) (vo_purpose o) (vo_domain o) (vo_challenge o) b (vo_related o)
    | WithPresRelatedResourceCheck b => upd (vo_check o) (vo_no_proof o) (vo_strict o) (vo_require_vc o) (vo_require_proof o) (vo_no_jsonld o) (vo_di o) (vo_purpose o) (vo_domain o) (vo_challenge o) (vo_holder o) b
    | WithPresDataIntegrityVerifier v => upd (vo_check o) (vo_no_proof o) (vo_strict o) (vo_require_vc o) (vo_require_proof o) (vo_no_jsonld o) v (vo_purpose o) (vo_domain o) (vo_challenge o) (vo_holder o) (vo_related o)
    | WithPresExpectedDataIntegrityFields p d c => upd (vo_check o) (vo_no_proof o) (vo_strict o) (vo_require_vc o) (vo_require_proof o) (vo_no_jsonld o) (vo_di o) p d c (vo_holder o) (vo_related o)
    end.
  Definition default_pstate : pstate :=
    {| ps_o := {| vo_check := None; vo_no_proof := false; vo_strict := false; vo_require_vc := false; vo_require_proof := false; vo_no_jsonld := false; vo_di := None;
                  vo_purpose := ""; vo_domain := ""; vo_challenge := ""; vo_holder := false; vo_related := false |}; ps_doc := None |}.
  Definition poptions (l : list popt) : pstate := fold_left apply_popt l default_pstate.
  (** presentation.go:663-717 *)
  Definition parse_presentation_with (W : option D -> vpenv) (l : list popt) (data : string) : res presentation :=
    let s := poptions l in parse_presentation_vp (W (ps_doc s)) (ps_o s) data.

  (** ** DID documents *)
  (** did_ldp.go:29-78 *)
  Inductive didopt :=
  | WithDIDProofChecker (c : option ld_checker) | WithDIDDataIntegrityVerifier (v : option dverifier) | WithDIDExpectedDataIntegrityFields (purpose domain challenge : string)
  | WithDIDJSONLDDocumentLoader (d : option D) | WithDIDExternalJSONLDContext (l : list string) | WithDIDJSONLDOnlyValidRDF.
  Record dstate := { ds_o : didopts; ds_doc : option D; ds_rdf : bool }.
  Definition apply_didopt (s : dstate) (x : didopt) : dstate :=
    let o := ds_o s in
    let upd chk v p d c e := {| ds_o := {| do_ld_check := chk; do_di := v; do_purpose := p; do_domain := d; do_challenge := c; do_external := e |}; ds_doc := ds_doc s; ds_rdf := ds_rdf s |} in
    match x with
    | WithDIDProofChecker c => upd c (do_di o) (do_purpose o) (do_domain o) (do_challenge o) (do_external o)
    | WithDIDDataIntegrityVerifier v => upd (do_ld_check o) v (do_purpose o) (do_domain o) (do_challenge o) (do_external o)
    | WithDIDExpectedDataIntegrityFields p d c => upd (do_ld_check o) (do_di o) p d c (do_external o)
    | WithDIDExternalJSONLDContext l => upd (do_ld_check o) (do_di o) (do_purpose o) (do_domain o) (do_challenge o) l
    | WithDIDJSONLDDocumentLoader d => {| ds_o := o; ds_doc := d; ds_rdf := ds_rdf s |}
    | WithDIDJSONLDOnlyValidRDF => {| ds_o := o; ds_doc := ds_doc s; ds_rdf := true |}
    end.
  Definition default_dstate : dstate :=
    {| ds_o := {| do_ld_check := None; do_di := None; do_purpose := ""; do_domain := ""; do_challenge := ""; do_external := [] |}; ds_doc := None; ds_rdf := false |}.
  (** did_ldp.go:112-135, 137-151; [doc]: the members of the document *)
  Definition verify_did_with (W : world) (l : list didopt) (doc : gomap json) : res unit :=
    let s := fold_left apply_didopt l default_dstate in verify_did (wo_env W (ds_doc s) (ds_rdf s) false) (ds_o s) doc.
End Options.
Arguments WithDisabledProofCheck {D}. Arguments WithNoProofCheck {D}. Arguments WithEnabledJSONLDTypesCheck {D}. Arguments WithDisabledRelatedResourceCheck {D}.
Arguments WithCredDisableValidation {D}. Arguments WithSchema {D}. Arguments WithDefaultSchemaLoader {D}. Arguments WithNoCustomSchemaCheck {D}. Arguments WithProofChecker {D}.
Arguments WithLDProofChecker {D}. Arguments WithJWTProofChecker {D}. Arguments WithCWTProofChecker {D}. Arguments WithCredentialSchemaLoader {D}. Arguments WithJSONLDValidation {D}.
Arguments WithBaseContextValidation {D}. Arguments WithDataIntegrityVerifier {D}. Arguments WithExpectedDataIntegrityFields {D}. Arguments WithBaseContextExtendedValidation {D}.
Arguments WithJSONLDDocumentLoader {D}. Arguments WithStrictValidation {D}. Arguments WithExternalJSONLDContext {D}. Arguments WithJSONLDOnlyValidRDF {D}.
Arguments WithJSONLDIncludeDetailedStructureDiffOnError {D}.
Arguments WithPresProofChecker {D}. Arguments WithPresDisabledProofCheck {D}. Arguments WithPresNoProofCheck {D}. Arguments WithPresStrictValidation {D}.
Arguments WithPresJSONLDDocumentLoader {D}. Arguments WithPresHolderCheck {D}. Arguments WithPresRelatedResourceCheck {D}. Arguments WithDisabledJSONLDChecks {D}.
Arguments WithPresDataIntegrityVerifier {D}. Arguments WithPresExpectedDataIntegrityFields {D}. Arguments WithPresRequireVC {D}. Arguments WithPresRequireProof {D}.
Arguments WithDIDProofChecker {D}. Arguments WithDIDDataIntegrityVerifier {D}. Arguments WithDIDExpectedDataIntegrityFields {D}. Arguments WithDIDJSONLDDocumentLoader {D}.
Arguments WithDIDExternalJSONLDContext {D}. Arguments WithDIDJSONLDOnlyValidRDF {D}.
Arguments cs_o {D}. Arguments cs_loader {D}. Arguments cs_doc {D}. Arguments cs_rdf {D}. Arguments cs_diff {D}. Arguments ps_o {D}. Arguments ps_doc {D}.
Arguments apply_copt {D}. Arguments options {D}. Arguments wo_env {D}. Arguments wo_loader {D}. Arguments env_of {D}. Arguments parse_credential_with {D}.
Arguments parse_credential_json_with {D}. Arguments validate_with {D}. Arguments check_proof_with {D}. Arguments apply_popt {D}. Arguments poptions {D}. Arguments parse_presentation_with {D}. Arguments apply_didopt {D}. Arguments verify_did_with {D}.
Arguments default_cstate {D}. Arguments default_pstate {D}. Arguments default_dstate {D}. Arguments with_o {D}. Arguments ds_o {D}. Arguments ds_doc {D}. Arguments ds_rdf {D}.
