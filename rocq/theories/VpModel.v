(** Model of verifiable/presentation.go, presentation_parser.go, presentation_jwt.go, presentation_jws.go,
    presentation_jwt_unsecured.go, presentation_cwt.go: parsing, checking, building and signing presentations. *)
From Verif Require Import GoBase Base64 JwtSpec DiSpec VcSpec JwtModel SdSpec SdModel SdParse DiModel PexModel VcModel VcJwt VcParse VcSign.

(** verifiable/credential.go CombinedProofChecker: one object with the three check methods *)
Record combined := { cc_jwt : proof_checker; cc_ld : ld_checker; cc_cwt : cwt_checker }.
(** presentation.go:570-586 presentationOpts (the JSON-LD document loader is part of the environment; no option sets an
    external context; requireVC and requireProof are set by options that exist under the build tag "testsuite" only) *)
Record vopts := {
  vo_check : option combined; vo_no_proof : bool; vo_strict : bool; vo_require_vc : bool; vo_require_proof : bool;
  vo_no_jsonld : bool; vo_di : option dverifier; vo_purpose : string; vo_domain : string; vo_challenge : string;
  vo_holder : bool; vo_related : bool }.
(** Environment: that of credentials, the two presentation schemas (gojsonschema; true: data model 2.0), did-go
    ValidateJSONLDMap (strict or not) and json.Marshal of an object. *)
Record vpenv := {
  pe_v : venv; pe_valid : bool -> gomap json -> res unit; pe_jsonld : bool -> gomap json -> res unit;
  pe_marshal : gomap json -> string }.

(** presentation_parser.go:108-112 VpCWT, presentation.go:337-350 Presentation *)
Record vpcwt := { vw_raw : string; vw_msg : coset; vw_map : gomap json }.
Record presentation := {
  pr_context : list string; pr_custom_ctx : list json; pr_id : string; pr_types : list string; pr_creds : list credential;
  pr_holder : string; pr_proofs : list (gomap json); pr_jwt : string; pr_cwt : option vpcwt; pr_custom : gomap json }.
(** presentation_parser.go:20-27 parsePresentationResponse (VPDataDecoded is not used by the caller) *)
Record vresp := { vr_raw : gomap json; vr_jwt : string; vr_cwt : option vpcwt }.

(** ** JWT claims *)
(** presentation_jwt.go:16-20 JWTPresClaims as encoding/json decodes it: whether the embedded *Claims was allocated,
    Issuer, ID, the "vp" map (None: nil).  The other claims must have their types but are not used. *)
Record pclaims := { pc_alloc : bool; pc_iss : string; pc_jti : string; pc_vp : option (gomap json) }.
Definition pres_claims (ms : list (string * json)) : res pclaims :=
  let* iss := fold_res str_step (occurrences "iss" ms) "" in
  let* _ := fold_res str_step (occurrences "sub" ms) "" in
  let* _ := fold_res aud_step (occurrences "aud" ms) [] in
  let* _ := fold_res date_step (occurrences "exp" ms) None in
  let* _ := fold_res date_step (occurrences "nbf" ms) None in
  let* _ := fold_res date_step (occurrences "iat" ms) None in
  let* jti := fold_res str_step (occurrences "jti" ms) "" in
  let* vp := fold_res map_step (occurrences "vp" ms) None in
  Ok {| pc_alloc := existsb (fun k => match occurrences k ms with [] => false | _ => true end) registered;
        pc_iss := iss; pc_jti := jti; pc_vp := vp |}.
Definition pres_claims_of (M : members_of) (payload : string) : res pclaims :=
  match M payload with None => Err "decode JWT claims" | Some ms => pres_claims ms end.
(** presentation_jwt.go:22-32 refineFromJWTClaims *)
Definition pres_refine (c : pclaims) : res (option (gomap json)) :=
  if negb (pc_alloc c) then Panic else
  let* m := if String.eqb (pc_iss c) "" then Ok (pc_vp c) else oset (pc_vp c) "holder" (JStr (pc_iss c)) in
  if String.eqb (pc_jti c) "" then Ok m else oset m "id" (JStr (pc_jti c)).
(** presentation_jws.go:20-42 unmarshalPresJWSClaims, decodeVPFromJWS; presentation_jwt.go:76-93 decodePresJWT.
    A nil map and an empty one are alike for everything that follows. *)
Definition of_nil (m : option (gomap json)) : gomap json := match m with Some x => x | None => [] end.
Definition decode_vp_jws (E : venv) (tok : string) (chk : option proof_checker) : res (gomap json) :=
  let* tp := jwt_parse (ve_jwt E) tok None true (fun p => is_ok (pres_claims_of (ve_members E) p)) in
  let* c := pres_claims_of (ve_members E) (snd tp) in
  let* _ := match chk with None => Ok tt | Some pc => check_proof (ve_jwt E) tok pc None None end in
  rmap of_nil (pres_refine c).
(** json.Marshal of a map writes its members sorted by name *)
Definition sorted_members (m : gomap json) : list (string * json) :=
  flat_map (fun k => match mget m k with Some v => [(k, v)] | None => [] end) (sort_strings (map fst m)).
(** presentation_jwt_unsecured.go:17-30, jwt_unsecured.go:25-32: the payload map is marshalled and decoded again *)
Definition decode_vp_unsecured (E : venv) (tok : string) : res (gomap json) :=
  let* tp := jwt_parse (ve_jwt E) tok None false (fun _ => true) in
  let* c := pres_claims (sorted_members (match tk_payload (fst tp) with Some p => p | None => [] end)) in
  rmap of_nil (pres_refine c).

(** ** Parsers (presentation_parser.go) *)
(** presentation_parser.go:66-71 embeddedProofCheckOpts *)
Definition embedded_opts (o : vopts) : copts :=
  {| co_jwt_check := None; co_ld_check := option_map cc_ld (vo_check o); co_cwt_check := None; co_no_proof := vo_no_proof o;
     co_no_validation := false; co_no_related := false; co_no_custom := false; co_schema := ""; co_schema_of := None;
     co_mode := MCombined; co_contexts := []; co_types := []; co_strict := false; co_ld_types := false; co_external := [];
     co_di := vo_di o; co_di_purpose := vo_purpose o; co_di_domain := vo_domain o; co_di_challenge := vo_challenge o |}.
(** embedded_proof.go:27-43 checkEmbeddedProofBytes on the text of [m] *)
Definition check_pres_embedded (E : venv) (o : vopts) (m : gomap json) : res unit :=
  if vo_no_proof o then Ok tt else
  let* _ := check_embedded E (embedded_opts o) (mdel m "jwt") None in Ok tt.
(** presentation_parser.go:39-108 PresentationJSONParser.parse *)
Definition vp_json_parser (P : vpenv) (o : vopts) (data : string) : res vresp :=
  let E := pe_v P in
  let s := un_quote data in
  if is_jws (ve_obj E) s then
    let* _ := guard (vo_no_proof o || negb (is_none (vo_check o))) "proof checker is not defined" in
    let* m := decode_vp_jws E s (if vo_no_proof o then None else option_map cc_jwt (vo_check o)) in
    Ok {| vr_raw := m; vr_jwt := s; vr_cwt := None |}
  else if is_jwt_unsecured (ve_obj E) s then
    let* m := decode_vp_unsecured E s in
    let* _ := check_pres_embedded E o m in
    Ok {| vr_raw := m; vr_jwt := ""; vr_cwt := None |}
  else match parse_json E data with
       | None => Err "JSON unmarshalling of verifiable presentation"
       | Some m =>
           let* _ := check_pres_embedded E o m in
           let* _ := guard (negb (vo_require_proof o) || negb (is_none (fld m "proof"))) "embedded proof is missing" in
           Ok {| vr_raw := m; vr_jwt := ""; vr_cwt := None |}
       end.
(** presentation_parser.go:120-176 (parse, parsePres) PresentationCWTParser.parse *)
Definition vp_cwt_parser (P : vpenv) (data : string) : res vresp :=
  let E := pe_v P in
  let* dm := match ve_cose E data with
             | Some c => Ok (data, c)
             | None => match ve_hex E (un_quote data) with
                       | None => Err "vpData is not a valid hex string"
                       | Some b => match ve_cose E b with
                                   | Some c => Ok (b, c)
                                   | None => Err "unmarshal cbor vp after hex failed"
                                   end
                       end
             end in
  match ve_cbor E (co_payload (snd dm)) with
  | None => Err "unmarshal cbor vp payload"
  | Some p => Ok {| vr_raw := match mget p "vp" with Some (JObj m) => m | _ => [] end; vr_jwt := "";
                    vr_cwt := Some {| vw_raw := fst dm; vw_msg := snd dm; vw_map := p |} |}
  end.
(** a []string field: an array of strings (null elements are empty strings) *)
Definition strs_step (_ : list string) (j : json) : res (list string) :=
  match j with
  | JNull => Ok []
  | JArr l => map_res (fun x => match x with JStr s => Ok s | JNull => Ok "" | _ => Err "unmarshal enveloped" end) l
  | _ => Err "unmarshal enveloped"
  end.
Definition vp_enveloped_type : string := "EnvelopedVerifiablePresentation".
Definition vp_media_jwt : string := "application/vp-ld+jwt".
Definition vp_media_cose : string := "application/vp-ld+cose".
(** presentation_parser.go:182-208 presentationEnvelopedParser.parse; the Envelope struct: credential.go:888-893 *)
Definition vp_enveloped_parser (P : vpenv) (o : vopts) (data : string) : res vresp :=
  match ve_members (pe_v P) data with
  | None => Err "unmarshal envelopedCredential"
  | Some ms =>
      let* id := fold_res str_step (occurrences "id" ms) "" in
      let* ts := fold_res strs_step (occurrences "type" ms) [] in
      let* _ := fold_res strs_step (occurrences "@context" ms) [] in
      let* _ := guard (str_in vp_enveloped_type ts) "not a verifiable presentation envelopedCredential" in
      let* u := parse_data_url id in
      let '(media, _, d) := u in
      if String.eqb media vp_media_jwt then vp_json_parser P o d
      else if String.eqb media vp_media_cose then vp_cwt_parser P d
      else Err "unsupported media type for enveloped presentation"
  end.

(** ** Contents *)
(** presentation.go:902-911 options for the enclosed credentials (defaults: credential.go:2130-2145) *)
Definition cred_opts (o : vopts) (no_validation : bool) : copts :=
  {| co_jwt_check := option_map cc_jwt (vo_check o); co_ld_check := option_map cc_ld (vo_check o);
     co_cwt_check := option_map cc_cwt (vo_check o); co_no_proof := vo_no_proof o;
     co_no_validation := no_validation; co_no_related := false; co_no_custom := false; co_schema := ""; co_schema_of := None;
     co_mode := MCombined; co_contexts := []; co_types := []; co_strict := false; co_ld_types := false; co_external := [];
     co_di := None; co_di_purpose := ""; co_di_domain := ""; co_di_challenge := "" |}.
Definition decode_one (E : venv) (o : vopts) (j : json) : res credential :=
  match j with
  | JStr s => parse_credential E (cred_opts o false) s
  | JObj m => parse_credential_json E (cred_opts o true) m
  | _ => Err "invalid credential type"
  end.
(** presentation.go:889-949 decodeCredentials *)
Definition decode_credentials (E : venv) (o : vopts) (v : option json) : res (list credential) :=
  match v with
  | None => Ok []
  | Some (JArr l) => map_res (decode_one E o) l
  | Some j => rmap (fun c => [c]) (decode_one E o j)
  end.
(** presentation.go:729-740 decodeHolder *)
Definition decode_holder (v : option json) : res string :=
  match v with
  | None => Ok ""
  | Some (JStr s) => Ok s
  | Some (JObj m) => parse_string_fld m "id"
  | Some _ => Err "holder must be string or map"
  end.
(** fmt.Sprint(m[k]) *)
Definition sprint (T : tenv) (v : option json) : string :=
  match v with None => "<nil>" | Some (JStr s) => s | Some j => te_sprint T j end.
Definition method_of (T : tenv) (p : gomap json) : string := sprint T (fld p "verificationMethod").
Definition controller (T : tenv) (p : gomap json) : string := hd "" (split_on "#" (method_of T p)).
(** presentation.go:743-806 validateHolder *)
Definition vp_methods (T : tenv) (ps : list (gomap json)) : list string :=
  map (controller T) (filter (fun p => negb (String.eqb (method_of T p) "")) ps).
Definition issuer_id (c : contents) : string := match vc_issuer c with Some i => is_id i | None => "" end.
Definition subject_ids (cs : list credential) : list string :=
  flat_map (fun c => map sj_id (vc_subject (cr_contents c))) cs.
Definition validate_holder (T : tenv) (ps : list (gomap json)) (cs : list credential) (holder : string) : res unit :=
  match ps with
  | [] => Ok tt
  | _ =>
      let ms := vp_methods T ps in
      if negb (List.length (nodup string_dec (subject_ids cs)) =? 1)%nat then Ok tt else
      let self c := existsb (fun p => str_in (controller T p) ms) (cr_proofs c) in
      guard (forallb (fun c => negb (self c) || (negb (String.eqb holder "") && String.eqb holder (issuer_id (cr_contents c)))) cs)
            "holder"
  end.
(** presentation.go:808-827 executeChecks *)
Definition execute_checks (E : venv) (o : vopts) (ps : list (gomap json)) (cs : list credential) (holder : string) : res unit :=
  let* _ := if vo_holder o then validate_holder (ve_time E) ps cs holder else Ok tt in
  if vo_related o then ve_related E (flat_map (fun c => vc_related (cr_contents c)) cs) else Ok tt.
Definition vp_fields : list string := ["@context"; "id"; "type"; "verifiableCredential"; "holder"; "proof"].
(** presentation.go:829-881 newPresentation *)
Definition new_presentation (E : venv) (o : vopts) (m : gomap json) : res presentation :=
  let* types := decode_type (fld m "type") in
  let* ctx := decode_context (fld m "@context") in
  let* creds := decode_credentials E o (fld m "verifiableCredential") in
  let* proofs := parse_ld_proof (fld m "proof") in
  let* id := parse_string_fld m "id" in
  let* holder := decode_holder (fld m "holder") in
  let* _ := execute_checks E o proofs creds holder in
  Ok {| pr_context := fst ctx; pr_custom_ctx := snd ctx; pr_id := id; pr_types := types; pr_creds := creds; pr_holder := holder;
        pr_proofs := proofs; pr_jwt := ""; pr_cwt := None; pr_custom := copy_except m vp_fields |}.
(** presentation.go:951-1002 validateVP *)
Definition validate_vp (P : vpenv) (o : vopts) (m : gomap json) : res unit :=
  let* b := get_base_context_raw m in
  let* _ := pe_valid P (String.eqb b v2_context) m in
  if vo_no_jsonld o then Ok tt else pe_jsonld P (vo_strict o) m.
(** presentation.go:663-717 ParsePresentation: the first parser that does not fail *)
Definition or_else (a b : res vresp) : res vresp := match a with Err _ => b | _ => a end.
Definition read_presentation (P : vpenv) (o : vopts) (data : string) : res vresp :=
  or_else (vp_enveloped_parser P o data) (or_else (vp_json_parser P o data) (vp_cwt_parser P data)).
Definition with_envelope (p : presentation) (jwt : string) (w : option vpcwt) : presentation :=
  {| pr_context := pr_context p; pr_custom_ctx := pr_custom_ctx p; pr_id := pr_id p; pr_types := pr_types p; pr_creds := pr_creds p;
     pr_holder := pr_holder p; pr_proofs := pr_proofs p; pr_jwt := jwt; pr_cwt := w; pr_custom := pr_custom p |}.
Definition parse_presentation_vp (P : vpenv) (o : vopts) (data : string) : res presentation :=
  let* r := read_presentation P o data in
  let* _ := validate_vp P o (vr_raw r) in
  let* p := new_presentation (pe_v P) o (vr_raw r) in
  let* _ := guard (negb (vo_require_vc o) || negb (is_empty (pr_creds p))) "verifiableCredential is required" in
  Ok (with_envelope p (vr_jwt r) (vr_cwt r)).

(** ** Building *)
(** presentation.go:355-389 NewPresentation with WithCredentials and WithBaseContext *)
Definition new_empty (ctx : string) (cs : list credential) : presentation :=
  {| pr_context := [ctx]; pr_custom_ctx := []; pr_id := ""; pr_types := ["VerifiablePresentation"]; pr_creds := cs; pr_holder := "";
     pr_proofs := []; pr_jwt := ""; pr_cwt := None; pr_custom := [] |}.
Definition set_text (k s : string) (m : gomap json) : gomap json := if String.eqb s "" then m else mset m k (JStr s).
(** presentation.go:494-540 raw; [U]: Credential.ToUniversalForm *)
Definition pres_raw (U : credential -> res json) (p : presentation) : res (gomap json) :=
  let m := opt_set "@context" (nonempty (pr_context p) (JArr (map JStr (pr_context p)))) [] in
  let m := set_text "id" (pr_id p) m in
  let m := opt_set "type" (nonempty (pr_types p) (types_json (pr_types p))) m in
  let m := set_text "holder" (pr_holder p) m in
  let m := opt_set "proof" (nonempty (pr_proofs p) (proofs_to_raw (pr_proofs p))) m in
  let* cs := map_res U (pr_creds p) in
  let m := opt_set "verifiableCredential" (nonempty cs (JArr cs)) m in
  Ok (add_custom m (pr_custom p)).
(** presentation_jwt.go:35-69 newJWTPresClaims; the members of json.Marshal of it.  go-jose writes a one-element audience as a
    string in JSON, as an array in CBOR. *)
Definition minimized (p : presentation) : presentation :=
  {| pr_context := pr_context p; pr_custom_ctx := pr_custom_ctx p; pr_id := ""; pr_types := pr_types p; pr_creds := pr_creds p;
     pr_holder := ""; pr_proofs := pr_proofs p; pr_jwt := pr_jwt p; pr_cwt := pr_cwt p; pr_custom := pr_custom p |}.
Definition aud_member (cbor : bool) (aud : list string) : gomap json :=
  match aud with [] => [] | [a] => [("aud", if cbor then JArr [JStr a] else JStr a)] | _ => [("aud", JArr (map JStr aud))] end.
Definition pres_payload (cbor : bool) (U : credential -> res json) (p : presentation) (aud : list string) (min : bool) : res (gomap json) :=
  let* m := pres_raw U (if min then minimized p else p) in
  Ok (opt_field "iss" (pr_holder p) ++ aud_member cbor aud ++ opt_field "jti" (pr_id p)
      ++ match m with [] => [] | _ => [("vp", JObj m)] end)%list.
(** presentation_jwt.go:96-118 CreateJWTVP *)
Definition create_jwt_vp (S : senv) (U : credential -> res json) (p : presentation) (aud : list string) (alg : Z) (kid : string)
  (min : bool) : res presentation :=
  let* c := pres_payload false U p aud min in
  let* a := se_alg S alg in
  let* th := se_jws S c a kid in
  Ok (with_envelope p (fst th) None).
(** presentation_cwt.go:44-79 CreateCWTVP *)
Definition create_cwt_vp (E : venv) (S : senv) (U : credential -> res json) (p : presentation) (aud : list string) (alg : Z) (kid : string)
  (min : bool) : res presentation :=
  let* c := pres_payload true U p aud min in
  let* rm := se_cose S c alg kid in
  match ve_cbor E (co_payload (snd rm)) with
  | None => Err "failed to unmarshal VP map"
  | Some mp => Ok (with_envelope p "" (Some {| vw_raw := fst rm; vw_msg := snd rm; vw_map := mp |}))
  end.
Definition is_jwt_vp (p : presentation) : bool := negb (String.eqb (pr_jwt p) "").
Definition cwt_of (p : presentation) : option vpcwt :=
  match pr_cwt p with Some w => if String.eqb (vw_raw w) "" then None else Some w | None => None end.
Definition vp_envelope (media data : string) : gomap json :=
  [("id", JStr (new_data_url media "" data)); ("type", JArr [JStr vp_enveloped_type]); ("@context", JArr [JStr v2_context])].
(** presentation.go:392-436 MarshalJSON, marshalEnveloped *)
Definition marshal_vp (P : vpenv) (S : senv) (U : credential -> res json) (p : presentation) : res string :=
  let v2 := is_base_context (pr_context p) v2_context in
  if v2 && is_jwt_vp p then Ok (pe_marshal P (vp_envelope vp_media_jwt (pr_jwt p))) else
  match (if v2 then cwt_of p else None) with
  | Some w => Ok (pe_marshal P (vp_envelope vp_media_cose (se_hex S (vw_raw w))))
  | None => if is_jwt_vp p then Ok (String quote_char (pr_jwt p ++ String quote_char ""))
            else rmap (pe_marshal P) (pres_raw U p)
  end.
