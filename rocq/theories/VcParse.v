(** Model of verifiable/credential_parser.go, the parsing, validation and proof checking parts of
    verifiable/credential.go, verifiable/embedded_proof.go, verifiable/linked_data_proof.go (checking),
    verifiable/lddocument/verifier.go, verifiable/data_integrity_proof.go (checking), cwt/cwt.go CheckProof,
    cwt/wrappers.go. *)
From Verif Require Import GoBase Base64 JwtSpec DiSpec VcSpec JwtModel SdSpec SdModel SdParse DiModel VcModel VcJwt.

(** did-go proof.Proof as the code reads it: type, PublicKeyID(), the signature bytes (getProofVerifyValue,
    verifiable/lddocument/verifier.go:98-107), and the member it was made from *)
Record ldproof := { lp_type : string; lp_pkid : res string; lp_sig : res string; lp_raw : json }.
(** default schema for data model 1.1, for 2.0, or a schema text *)
Inductive schema_doc := SchemaV1 | SchemaV2 | SchemaText (s : string).
Inductive vmode := MCombined | MJsonLD | MBase | MExtended.
(** proof checkers (verifiable/lddocument/verifier.go:17-27, cwt/interfaces.go) *)
Definition ld_checker := ldproof -> string -> string -> string -> res unit.
Definition cwt_checker := cwt_req -> string -> string -> string -> res unit.

(** verifiable/credential.go:1108-1127 credentialOpts (schemaLoader and the JSON-LD document loader are part of the
    environment) *)
Record copts := {
  co_jwt_check : option proof_checker; co_ld_check : option ld_checker; co_cwt_check : option cwt_checker;
  co_no_proof : bool; co_no_validation : bool; co_no_related : bool; co_no_custom : bool;
  co_schema : string; co_schema_of : option (contents -> string);
  co_mode : vmode; co_contexts : list string; co_types : list string;
  co_strict : bool; co_ld_types : bool; co_external : list string;
  co_di : option dverifier; co_di_purpose : string; co_di_domain : string; co_di_challenge : string }.

(** The environment of a parse: libraries, network, clock. *)
Record venv := {
  ve_time : tenv;
  ve_jwt : denv;
  ve_members : members_of;                     (* encoding/json: members of an object text (null: none) *)
  ve_obj : string -> bool;                     (* go-jose json: the text decodes into a map *)
  ve_sd : sdenv;
  ve_order : gomap disc -> list string;        (* map iteration order *)
  ve_cose : string -> option coset;            (* cbor.Unmarshal into a COSE_Sign1 message *)
  ve_hex : string -> option string;
  ve_cbor : string -> option (gomap json);     (* CBOR payload: its members, with the conversion of
                                                  credential_parser.go:117-142 applied inside; values that are not
                                                  JSON (byte strings, tags) are not modelled *)
  ve_schema : string -> res string;            (* getJSONSchema: schema text of a URL *)
  ve_valid : schema_doc -> gomap json -> res unit;                   (* gojsonschema.Validate *)
  ve_jsonld : copts -> string -> gomap json -> res unit;             (* did-go ValidateJSONLDMap / Types *)
  ve_ext : option json -> list string -> json; (* AppendExternalContexts *)
  ve_ldproofs : gomap json -> res (list ldproof);                    (* proof.GetProofs *)
  ve_ldmsg : ldproof -> gomap json -> res string;                    (* proof.CreateVerifyData *)
  ve_di : dienv;
  ve_now : gtime;
  ve_related : list relres -> res unit         (* DefaultRelatedResourceValidator.Validate *)
}.

(** ** Validation *)
(** credential.go:2192-2233 getSchemaLoader *)
Definition json_schema_types : list string := ["JsonSchemaValidator2018"; "JsonSchema"].
Fixpoint custom_schema (E : venv) (l : list typedid) (dflt : schema_doc) : res schema_doc :=
  match l with
  | [] => Ok dflt
  | t :: l' => if str_in (ti_type t) json_schema_types then rmap SchemaText (ve_schema E (ti_id t))
               else custom_schema E l' dflt
  end.
Definition get_schema (E : venv) (c : contents) (o : copts) : res schema_doc :=
  let dflt := if is_base_context (vc_context c) v2_context then SchemaV2 else SchemaV1 in
  if co_no_custom o then Ok dflt else
  if negb (String.eqb (co_schema o) "") then Ok (SchemaText (co_schema o)) else
  match co_schema_of o with
  | Some f => Ok (SchemaText (f c))
  | None => custom_schema E (vc_schemas c) dflt
  end.
(** credential.go:2171-2190 validateCredentialUsingJSONSchema *)
Definition validate_schema (E : venv) (m : gomap json) (c : contents) (o : copts) : res unit :=
  let* s := get_schema E c o in ve_valid E s m.
(** credential.go:1672-1708 validateJSONLD *)
Definition validate_jsonld (E : venv) (m : gomap json) (c : contents) (o : copts) : res unit :=
  let* b := get_base_context (vc_context c) in ve_jsonld E o b m.
(** credential.go:1643-1653 validateBaseContext *)
Definition validate_base (E : venv) (m : gomap json) (c : contents) (o : copts) : res unit :=
  let* _ := match vc_types c with
            | [] => Panic
            | t :: [] => guard (String.eqb t "VerifiableCredential") "violated type constraint"
            | _ => Err "violated type constraint"
            end in
  let* _ := match vc_context c with
            | [] => Panic
            | x :: [] => guard (str_in x (co_contexts o)) "violated @context constraint"
            | _ => Err "violated @context constraint"
            end in
  validate_schema E m c o.
(** credential.go:1655-1670 validateBaseContextWithExtendedValidation *)
Definition validate_extended (E : venv) (m : gomap json) (c : contents) (o : copts) : res unit :=
  let* _ := guard (forallb (fun x => str_in x (co_contexts o)) (vc_context c)) "not allowed @context" in
  let* _ := guard (forallb (fun x => str_in x (co_types o)) (vc_types c)) "not allowed type" in
  validate_schema E m c o.
(** credential.go:1614-1641 validateCredential *)
Definition validate_credential (E : venv) (c : contents) (m : gomap json) (o : copts) : res unit :=
  match co_mode o with
  | MCombined => let* _ := validate_schema E m c o in validate_jsonld E m c o
  | MJsonLD => validate_jsonld E m c o
  | MBase => validate_base E m c o
  | MExtended => validate_extended E m c o
  end.

(** ** Proof checking *)
(** embedded_proof.go:90-111 getProofs *)
Definition get_proofs (j : json) : res (list (gomap json)) :=
  match j with
  | JObj m => Ok [m]
  | JArr l => map_res (obj_of "invalid proof type") l
  | _ => Err "invalid proof type"
  end.
(** data_integrity_proof.go:131-146 checkDataIntegrityProof *)
Definition di_opts (o : copts) : popts :=
  {| o_purpose := if String.eqb (co_di_purpose o) "" then "assertionMethod" else co_di_purpose o;
     o_vmid := ""; o_vm := None; o_ptype := "DataIntegrityProof"; o_suite := "";
     o_domain := co_di_domain o; o_challenge := co_di_challenge o; o_created := zero_time; o_expires := zero_time |}.
Definition check_di (E : venv) (o : copts) (m : gomap json) : res unit :=
  match co_di o with
  | None => Err "data integrity proof needs data integrity verifier"
  | Some V => snd (verify_proof (ve_di E) V (ve_now E) (JObj m) (di_opts o))
  end.
(** lddocument/verifier.go:54-96 VerifyObject *)
Fixpoint verify_ld (E : venv) (chk : ld_checker) (m : gomap json) (iss : option string) (ps : list ldproof) : res unit :=
  match ps with
  | [] => Ok tt
  | p :: ps' =>
      let* msg := ve_ldmsg E p m in
      let* sig := lp_sig p in
      let* i := match iss with
                | Some i => Ok i
                | None => match lp_pkid p with Ok k => Ok (hd "" (split_on "#" k)) | Panic => Panic | _ => Err "public key is missed in proof" end
                end in
      let* _ := chk p i msg sig in
      verify_ld E chk m iss ps'
  end.
(** embedded_proof.go:63-65: len(proofs) > 0 and the first proof's type is the string "DataIntegrityProof" *)
Definition is_di (ps : list (gomap json)) : bool :=
  match ps with
  | p :: _ => match mget p "type" with Some (JStr t) => String.eqb t "DataIntegrityProof" | _ => false end
  | [] => false
  end.
(** embedded_proof.go:46-88 checkEmbeddedProof (returns the document, to which external contexts may have been added) *)
Definition check_embedded (E : venv) (o : copts) (m : gomap json) (iss : option string) : res (gomap json) :=
  match fld m "proof" with
  | None => Err "proof not found"
  | Some pj =>
      let* ps := get_proofs pj in
      let m := match co_external o with [] => m | ext => mset m "@context" (ve_ext E (mget m "@context") ext) end in
      if is_di ps then let* _ := check_di E o m in Ok m
      else match co_ld_check o with
           | None => Err "proofChecker is not defined"
           | Some chk => let* l := ve_ldproofs E m in let* _ := verify_ld E chk m iss l in Ok m
           end
  end.
(** cwt/wrappers.go:24-45 Verifier.Verify, cwt/cwt.go:91-120 CheckProof *)
Definition cwt_check_proof (chk : cwt_checker) (expected : string) (c : coset) (tbs : string) : res unit :=
  let* alg := co_alg c in
  let i := if String.eqb expected "" && negb (String.eqb (co_kid c) "") then hd "" (split_on "#" (co_kid c)) else expected in
  chk {| cw_kid := co_kid c; cw_key := co_key c; cw_alg := alg |} i tbs (co_sig c).
(** credential.go:2041-2087 checkProof *)
Definition upd_doc (v : credential) (m : gomap json) : credential :=
  {| cr_json := m; cr_contents := cr_contents v; cr_proofs := cr_proofs v; cr_jwt := cr_jwt v; cr_cwt := cr_cwt v |}.
Definition check_cred_proof (E : venv) (o : copts) (v : credential) : res credential :=
  match vc_issuer (cr_contents v) with
  | None => Err "proof check failuer: issuer is missed"
  | Some i =>
      match cr_jwt v with
      | Some je => match co_jwt_check o with
                   | None => Err "jwt proofChecker is not defined"
                   | Some pc => let* _ := check_proof (ve_jwt E) (je_jwt je) pc (Some (is_id i)) None in Ok v
                   end
      | None =>
          match cr_cwt v with
          | Some ce => match co_cwt_check o with
                       | None => Err "cwt proofChecker is not defined"
                       | Some pc => let* tbs := co_tbs (ce_msg ce) in
                                    let* _ := cwt_check_proof pc (is_id i) (ce_msg ce) tbs in Ok v
                       end
          | None => let* m := check_embedded E o (cr_json v) (Some (is_id i)) in Ok (upd_doc v m)
          end
      end
  end.

(** ** Parsing.  A parser returns [Ok None] when its error is (or wraps) errUnsupportedCredentialFormat. *)
(** credential.go:1954-1964 unQuote *)
Definition quote_char : ascii := Ascii.ascii_of_nat 34.
Fixpoint last_char (s : string) : option ascii :=
  match s with "" => None | String c "" => Some c | String _ s' => last_char s' end.
Definition un_quote (s : string) : string :=
  match s with
  | String c s' =>
      if (1 <? String.length s)%nat && Ascii.eqb c quote_char
         && match last_char s with Some d => Ascii.eqb d quote_char | None => false end
      then str_take (String.length s' - 1) s' else s
  | "" => ""
  end.
(** credential.go:1950-1978 externalJWTVC, unwrapStringVC *)
Definition unwrap_string (E : venv) (data : string) : string :=
  match ve_members E data with
  | Some ms => match fold_res str_step (occurrences "jwt" ms) "" with
               | Ok s => if String.eqb s "" then un_quote data else s
               | _ => un_quote data
               end
  | None => un_quote data
  end.
(** credential.go:1989-2034 tryParseAsJWSVC *)
Record jwsvc := { jv_jws : bool; jv_sd : bool; jv_jwt : string; jv_discs : list string; jv_binding : string }.
Definition try_parse_jws (E : venv) (s : string) : jwsvc :=
  let parts := split_on tilde s in
  let sd := (1 <? List.length parts)%nat in       (* strings.Contains(s, "~") *)
  let lst := last parts "" in
  let pres := String.eqb lst "" || is_jws (ve_obj E) lst in
  let cp := parse_presentation s in
  let ci := parse_issuance s in
  let '(tok, ds, hb) :=
    if sd then (if pres then (cp_jwt cp, cp_discs cp, cp_holder cp) else (ci_jwt ci, ci_discs ci, "")) else (s, [], "") in
  if is_jws (ve_obj E) tok
  then {| jv_jws := true; jv_sd := sd; jv_jwt := tok; jv_discs := ds; jv_binding := hb |}
  else {| jv_jws := false; jv_sd := false; jv_jwt := ""; jv_discs := []; jv_binding := "" |}.
(** credential.go:1563-1593 validateDisclosures *)
Definition validate_disclosures (E : venv) (m : gomap json) (ds : list string) : res unit :=
  match ds with
  | [] => Ok tt
  | _ =>
      let* m := if mhas m "_sd_alg" then Ok m else
                match mget m "credentialSubject" with
                | Some (JObj s) => Ok (match mget s "_sd_alg" with Some a => mset m "_sd_alg" a | None => m end)
                | _ => Err "unsupported type of credentialSubject"
                end in
      verify_disclosures (ve_sd E) ds m
  end.
(** credential.go:1933-1948 parseDisclosures *)
Definition parse_disclosures (E : venv) (ds : list string) (h : option hashalg) : res (list disc) :=
  match ds with
  | [] => Ok []
  | _ => match h with
         | None => Err "inconsistent state"
         | Some h => rmap (map snd) (get_disclosure_claims (ve_sd E) h ds (ve_order E))
         end
  end.
(** credential.go:1595-1605 parseCredentialJSON *)
Definition parse_json (E : venv) (s : string) : option (gomap json) := option_map to_map (ve_members E s).

(** credential_parser.go:32-111 CredentialJSONParser.Parse *)
Definition json_parser (E : venv) (o : copts) (data : string) : res (option credential) :=
  let s := unwrap_string E data in
  let r := try_parse_jws E s in
  let* hm := if jv_jws r then
               let* hm := decode_cred_jwt (ve_time E) (ve_jwt E) (ve_members E) (jv_jwt r) in
               let* _ := validate_disclosures E (snd hm) (jv_discs r) in
               Ok (Some hm)
             else if is_jwt_unsecured (ve_obj E) s then
               rmap Some (decode_cred_jwt (ve_time E) (ve_jwt E) (ve_members E) s)
             else Ok (option_map (fun m => ([], m)) (parse_json E data)) in
  match hm with
  | None => Ok None
  | Some (h, m) =>
      let* c := parse_contents (ve_time E) m (jv_sd r) in
      let* ps := parse_ld_proof (fld m "proof") in
      let* _ := if jv_jws r || co_no_validation o then Ok tt else validate_credential E c m o in
      let* ds := parse_disclosures E (jv_discs r) (vc_sdalg c) in
      Ok (Some {| cr_json := m; cr_contents := c; cr_proofs := ps;
                  cr_jwt := if jv_jws r then Some {| je_jwt := jv_jwt r; je_headers := h; je_discs := ds;
                                                     je_binding := jv_binding r |} else None;
                  cr_cwt := None |})
  end.
(** credential_parser.go:156-217 CredentialCBORParser.Parse *)
Definition cbor_parser (E : venv) (o : copts) (data : string) : res (option credential) :=
  let* dm := match ve_cose E data with
             | Some c => Ok (Some (data, c))
             | None => match ve_hex E (un_quote data) with
                       | None => Ok None
                       | Some b => match ve_cose E b with
                                   | Some c => Ok (Some (b, c))
                                   | None => Err "unmarshal cbor cred after hex failed"
                                   end
                       end
             end in
  match dm with
  | None => Ok None
  | Some (raw, msg) =>
      let* m := match ve_cbor E (co_payload msg) with
                | None => Err "unmarshal cbor credential payload"
                | Some p => match mget p "vc" with Some (JObj m) => Ok m | _ => Err "vc field not found in cbor credential" end
                end in
      let* c := parse_contents (ve_time E) m false in
      let* _ := if co_no_validation o then Ok tt else validate_credential E c m o in
      Ok (Some {| cr_json := m; cr_contents := c; cr_proofs := []; cr_jwt := None;
                  cr_cwt := Some {| ce_raw := raw; ce_msg := msg |} |})
  end.
(** credential.go:1541-1561 parseCredential *)
Definition parse_with (E : venv) (o : copts) (parser : string -> res (option credential)) (data : string)
  : res (option credential) :=
  let* r := parser data in
  match r with
  | None => Ok None
  | Some v =>
      let* v := if co_no_proof o then Ok v else check_cred_proof E o v in
      let* _ := if co_no_related o then Ok tt else ve_related E (vc_related (cr_contents v)) in
      Ok (Some v)
  end.
(** credential.go:1515-1539 parseCredentialDataURL *)
Definition vc_media_jwt : string := "application/vc-ld+jwt".
Definition vc_media_sdjwt : string := "application/vc-ld+sd-jwt".
Definition vc_media_cose : string := "application/vc-ld+cose".
Definition parse_data_url_cred (E : venv) (o : copts) (url : string) : res (option credential) :=
  let* u := parse_data_url url in
  let '(media, _, data) := u in
  if String.eqb media vc_media_jwt || String.eqb media vc_media_sdjwt then parse_with E o (json_parser E o) data
  else if String.eqb media vc_media_cose then parse_with E o (cbor_parser E o) data
  else Err "unsupported data URL media type".
Definition enveloped_type : string := "EnvelopedVerifiableCredential".
(** credential_parser.go:225-251 EnvelopedCredentialParser.Parse *)
Definition enveloped_parser (E : venv) (o : copts) (data : string) : res (option credential) :=
  match parse_json E data with
  | None => Ok None
  | Some m =>
      match decode_type (fld m "type") with
      | Ok ts =>
          if negb (str_in enveloped_type ts) then Ok None else
          match mget m "id" with
          | Some (JStr id) => parse_data_url_cred E o id
          | _ => Err "id is required for enveloped credential"
          end
      | _ => Ok None
      end
  end.
(** credential.go:1485-1510 ParseCredential *)
Fixpoint try_parsers (E : venv) (o : copts) (l : list (string -> res (option credential))) (data : string) : res credential :=
  match l with
  | [] => Err "unsupported credential format"
  | p :: l' => let* r := parse_with E o p data in
               match r with Some v => Ok v | None => try_parsers E o l' data end
  end.
Definition parse_credential (E : venv) (o : copts) (data : string) : res credential :=
  try_parsers E o [enveloped_parser E o; json_parser E o; cbor_parser E o] data.
(** credential.go:1436-1480 ParseCredentialJSON *)
Definition parse_credential_json (E : venv) (o : copts) (m : gomap json) : res credential :=
  let* ts := decode_type (fld m "type") in
  if str_in enveloped_type ts then
    match mget m "id" with
    | Some (JStr id) => let* r := parse_data_url_cred E o id in
                        match r with Some v => Ok v | None => Err "parse credential data URL" end
    | _ => Err "id is required for enveloped credential"
    end
  else
    let* ps := parse_ld_proof (fld m "proof") in
    let* c := parse_contents (ve_time E) m false in
    let* _ := if co_no_validation o then Ok tt else validate_credential E c m o in
    Ok {| cr_json := m; cr_contents := c; cr_proofs := ps; cr_jwt := None; cr_cwt := None |}.
