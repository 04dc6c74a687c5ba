(** Model of didconfig/verifier/didconfig.go and didconfig/client/didconfig.go (.well-known DID configuration). *)
From Verif Require Import GoBase JwtSpec DiSpec VcSpec JwtModel SdSpec SdModel SdParse DiModel VcModel VcJwt VcParse JwtProofs.

(** defaults.NewDefaultProofChecker (proof/defaults/defaults.go) over vermethod.NewVDRResolver *)
Definition dflt_jwt (C : cenv) (resolve : string -> res diddoc) : proof_checker :=
  check_jwt_proof (vdr_resolve resolve) default_jdescs (default_verifiers C).
Definition dflt_ld (C : cenv) (resolve : string -> res diddoc) : ld_checker := fun p iss msg sig =>
  check_ld_proof (vdr_resolve resolve) default_ldescs (fun _ => None) (default_verifiers C) (lp_type p) (lp_pkid p) iss msg sig.
Definition dflt_cwt (C : cenv) (resolve : string -> res diddoc) ck : cwt_checker := fun q iss msg sig =>
  check_cwt_proof (vdr_resolve resolve) default_jdescs (default_verifiers C) ck q iss msg sig.

(** Environment: the credential environment, signature primitives and DID resolver of the default checker,
    [dc_marshal] json.Marshal of a decoded object, [dc_did] did-go did.Parse succeeds, [dc_url] net/url Parse
    (scheme, host with port), [dc_http] the HTTP client (status code and body). *)
Record dcenv := {
  dc_v : venv; dc_c : cenv; dc_resolve : string -> res diddoc; dc_ck : string -> res (jwk * ktype);
  dc_marshal : gomap json -> res string; dc_did : string -> bool; dc_url : string -> option (string * string);
  dc_http : string -> res (Z * string) }.

(** didconfig.go:439-455 getParseCredentialOptions (defaults of verifiable/credential.go:2130-2145) *)
Definition dc_opts (D : dcenv) (no_proof : bool) : copts :=
  let chk {A} (x : A) := if no_proof then None else Some x in
  {| co_jwt_check := chk (dflt_jwt (dc_c D) (dc_resolve D)); co_ld_check := chk (dflt_ld (dc_c D) (dc_resolve D));
     co_cwt_check := chk (dflt_cwt (dc_c D) (dc_resolve D) (dc_ck D));
     co_no_proof := no_proof; co_no_validation := false; co_no_related := false; co_no_custom := true;
     co_schema := ""; co_schema_of := None; co_mode := MCombined; co_contexts := []; co_types := [];
     co_strict := true; co_ld_types := false; co_external := [];
     co_di := None; co_di_purpose := ""; co_di_domain := ""; co_di_challenge := "" |}.

(** didconfig.go:178-186 verifyAllowedProperties *)
Definition only_keys {V} (m : list (string * V)) (allowed : list string) : bool :=
  forallb (fun kv => str_in (fst kv) allowed) m.
(** didconfig.go:148-176 verifyDidConfigurationProperties, verifyRequiredProperties *)
Definition check_properties (m : gomap json) : res unit :=
  let* _ := guard (mhas m "@context" && mhas m "linked_dids") "property is required" in
  guard (only_keys m ["@context"; "linked_dids"]) "property is not allowed".
(** didconfig.go:83-86 rawDoc: a []interface{} field *)
Definition arr_step (l : list json) (j : json) : res (list json) :=
  match j with JArr l' => Ok l' | JNull => Ok [] | _ => Err "JSON unmarshalling of DID configuration bytes failed" end.

(** didconfig.go:363-383 validateOrigin (Port() is the part of Host after the colon, so equal hosts have equal ports) *)
Definition validate_origin (D : dcenv) (a b : string) : res unit :=
  match dc_url D a, dc_url D b with
  | Some (s1, h1), Some (s2, h2) => guard (String.eqb h1 h2 && String.eqb s1 s2) "origins are different"
  | _, _ => Err "url.Parse"
  end.
(** didconfig.go:313-361 validateSubject *)
Definition validate_subject (D : dcenv) (l : list subject) (did origin : string) : res unit :=
  match l with
  | [] => Panic
  | [s] =>
      let* _ := guard (negb (String.eqb (sj_id s) "")) "credentialSubject.id MUST be present" in
      let* _ := guard (dc_did D (sj_id s)) "credentialSubject.id MUST be a DID" in
      let* o := match mget (sj_custom s) "origin" with
                | Some (JStr o) => Ok o
                | Some _ => Err "credentialSubject.origin MUST be string"
                | None => Err "credentialSubject.origin MUST be present"
                end in
      let* _ := guard (String.eqb (sj_id s) did) "credential subject ID is different from requested DID" in
      validate_origin D o origin
  | _ => Err "encountered multiple subjects"
  end.
Definition linkage_type : string := "DomainLinkageCredential".
(** didconfig.go:200-222 validateDomainLinkageCredential (a nil slice and an empty one are not distinguished:
    parseSubject never makes an empty one that is not nil) *)
Definition validate_linkage (D : dcenv) (c : contents) (did origin : string) : res unit :=
  let* _ := guard (str_in linkage_type (vc_types c)) "credential is not of the type" in
  let* _ := guard (String.eqb (vc_id c) "") "id MUST NOT be present" in
  let* _ := guard (negb (is_none (vc_issued c))) "issuance date MUST be present" in
  let* _ := guard (negb (is_none (vc_expired c))) "expiration date MUST be present" in
  let* _ := guard (negb (is_empty (vc_subject c))) "subject MUST be present" in
  validate_subject D (vc_subject c) did origin.
(** didconfig.go:247-272 validateJWTHeader *)
Definition validate_header (h : headers) : res unit :=
  let* _ := guard (negb (is_none (h_alg h))) "alg MUST be present in the JWT Header" in
  let* _ := guard (negb (is_none (h_kid h))) "kid MUST be present in the JWT Header" in
  let* _ := match h_typ h with Some t => guard (String.eqb t "JWT") "typ is not JWT" | None => Ok tt end in
  guard (only_keys h ["alg"; "kid"; "typ"]) "JWT Header: property is not allowed".
(** didconfig.go:274-301 validateJWTPayload, validateJWTClaims *)
Definition validate_payload (v : credential) (p : gomap json) (did : string) : res unit :=
  let* _ := guard (only_keys p ["exp"; "iss"; "nbf"; "sub"; "vc"; "iat"]) "JWT Payload: property is not allowed" in
  let* c := new_jwt_claims v false in
  let* _ := guard (String.eqb (jc_iss c) did) "iss MUST be equal to credentialSubject.id" in
  guard (String.eqb (jc_sub c) did) "sub MUST be equal to credentialSubject.id".
(** didconfig.go:188-198, 224-245 isValidDomainLinkageCredential, validateJWT *)
Definition valid_linkage (D : dcenv) (v : credential) (did origin : string) : res unit :=
  match cr_jwt v with
  | Some je =>
      let* tp := jwt_parse (ve_jwt (dc_v D)) (je_jwt je) None false (fun _ => true) in
      let* _ := validate_header (tk_headers (fst tp)) in
      let* _ := validate_payload v (match tk_payload (fst tp) with Some p => p | None => [] end) did in
      validate_linkage D (cr_contents v) did origin
  | None => validate_linkage D (cr_contents v) did origin
  end.
(** didconfig.go:391-404 *)
Definition entry_text (D : dcenv) (j : json) : res string :=
  match j with
  | JStr s => Ok s
  | JObj m => dc_marshal D m
  | _ => Err "unexpected interface for linked DID"
  end.
(** didconfig.go:406-429: one entry; [Ok None]: skipped *)
Definition candidate (D : dcenv) (did domain text : string) : res (option string) :=
  match parse_credential (dc_v D) (dc_opts D true) text with
  | Panic => Panic
  | Err _ => Ok None
  | Ok v =>
      match vc_issuer (cr_contents v) with
      | None => Panic
      | Some i =>
          if negb (String.eqb (is_id i) did) then Ok None else
          match valid_linkage D v did domain with
          | Panic => Panic
          | Err _ => Ok None
          | Ok _ => Ok (Some text)
          end
      end
  end.
(** didconfig.go:385-437 getCredentials *)
Fixpoint candidates (D : dcenv) (did domain : string) (l : list json) : res (list string) :=
  match l with
  | [] => Ok []
  | j :: l' =>
      let* t := entry_text D j in
      let* c := candidate D did domain t in
      let* r := candidates D did domain l' in
      Ok (match c with Some x => x :: r | None => r end)
  end.
(** didconfig.go:116-132 *)
Fixpoint first_verified (D : dcenv) (l : list string) : res unit :=
  match l with
  | [] => Err "domain linkage credential(s) with valid proof not found"
  | t :: l' => match parse_credential (dc_v D) (dc_opts D false) t with
               | Ok _ => Ok tt
               | Err _ => first_verified D l'
               | Panic => Panic
               end
  end.
(** didconfig.go:90-133 VerifyDIDAndDomain (both passes over a credential see the same map iteration order; the order of
    its disclosures is all that depends on it) *)
Definition verify_did_and_domain (D : dcenv) (cfg did domain : string) : res unit :=
  match ve_members (dc_v D) cfg with
  | None => Err "JSON unmarshalling of DID configuration bytes failed"
  | Some ms =>
      let* _ := check_properties (to_map ms) in
      let* _ := fold_res str_step (occurrences "@context" ms) "" in
      let* l := fold_res arr_step (occurrences "linked_dids" ms) [] in
      let* cs := candidates D did domain l in
      let* _ := guard (negb (is_empty cs)) "domain linkage credential(s) not found" in
      first_verified D cs
  end.
(** client/didconfig.go:84-110 Client.VerifyDIDAndDomain *)
Definition well_known : string := "/.well-known/did-configuration.json".
Definition client_verify (D : dcenv) (did domain : string) : res unit :=
  let* r := dc_http D (domain ++ well_known) in
  let* _ := guard (fst r =? 200)%Z "endpoint returned status" in
  verify_did_and_domain D (snd r) did domain.
