(** Model of verifiable/credential.go, common.go, jsonld.go, util/json/json.go, util/time/time.go:
    credential contents <-> JSON, contexts, data URLs, WithModified*, JWT/CWT claims.
    JSON objects are Go maps after json.Marshal/Unmarshal: Go-typed slices such as []JSONObject, which only exist
    before marshalling, are not distinguished from JSON arrays. *)
From Verif Require Import GoBase JwtSpec DiSpec VcSpec JwtModel SdSpec SdModel.

(** obj[k] as an interface{}: a missing member and null are both nil *)
Definition fld (m : gomap json) (k : string) : option json :=
  match mget m k with Some JNull | None => None | Some v => Some v end.

(** ** util/json/json.go:89-151 *)
(** SplitJSONObj 89-103 *)
Definition split_obj (m : gomap json) (flds : list string) : gomap json * gomap json :=
  (filter (fun kv => str_in (fst kv) flds) m, filter (fun kv => negb (str_in (fst kv) flds)) m).
(** AddCustomFields 78-86, MergeCustomFields 58-75 *)
Definition add_custom (m cf : gomap json) : gomap json :=
  fold_left (fun acc kv => if mhas acc (fst kv) then acc else mset acc (fst kv) (snd kv)) cf m.
(** CopyExcept 117-125 *)
Definition copy_except (m : gomap json) (flds : list string) : gomap json := fold_left mdel flds m.

(** ** util/time/time.go:87-101 parse, 117-126 ParseTimeWrapper, 106-112 FormatToString *)
Definition parse_wrapper (E : tenv) (s : string) : res twrap :=
  match te_parse E s with
  | Some t => Ok {| tw_time := t; tw_str := s |}
  | None => match te_parse E (s ++ "Z") with
            | Some t => Ok {| tw_time := t; tw_str := s |}
            | None => Err "time"
            end
  end.
Definition format_time (E : tenv) (t : twrap) : string :=
  if negb (String.eqb (tw_str t) "") then tw_str t else te_nano E (tw_time t).

(** ** verifiable/common.go *)
(** parseStringFld 328-342 *)
Definition parse_string_fld (m : gomap json) (k : string) : res string :=
  match fld m k with None => Ok "" | Some (JStr s) => Ok s | Some _ => Err "field should be string" end.
(** parseTimeFld 344-363 *)
Definition parse_time_fld (E : tenv) (m : gomap json) (k : string) : res (option twrap) :=
  match fld m k with
  | None => Ok None
  | Some (JStr s) => rmap Some (parse_wrapper E s)
  | Some _ => Err "time field should be json string"
  end.
(** parseTypedIDObj 146-164 *)
Definition parse_typed_obj (m : gomap json) : res typedid :=
  let '(f, rest) := split_obj m ["id"; "type"] in
  let* id := parse_string_fld f "id" in
  let* ty := parse_string_fld f "type" in
  Ok {| ti_id := id; ti_type := ty; ti_custom := rest |}.
(** serializeTypedIDObj 166-173 *)
Definition typed_obj (t : typedid) : gomap json :=
  mset (mset (ti_custom t) "id" (JStr (ti_id t))) "type" (JStr (ti_type t)).
(** loops that convert every element or fail *)
Fixpoint map_res {A B} (f : A -> res B) (l : list A) : res (list B) :=
  match l with
  | [] => Ok []
  | x :: xs => let* y := f x in let* ys := map_res f xs in Ok (y :: ys)
  end.
Definition obj_of (e : string) (j : json) : res (gomap json) := match j with JObj m => Ok m | _ => Err e end.
(** newTypedIDArray 175-219 (all elements are type-checked before the first is parsed) *)
Definition new_typed_array (v : option json) : res (list typedid) :=
  match v with
  | None => Ok []
  | Some (JObj m) => rmap (fun t => [t]) (parse_typed_obj m)
  | Some (JArr l) => let* ms := map_res (obj_of "should be json object") l in map_res parse_typed_obj ms
  | Some _ => Err "should be array of json objects"
  end.
(** stringSlice 230-243, decodeType 248-264 *)
Definition decode_type (v : option json) : res (list string) :=
  match v with
  | Some (JStr s) => Ok [s]
  | Some (JArr l) => map_res (fun j => match j with JStr s => Ok s | _ => Err "array element is not a string" end) l
  | _ => Err "credential type of unknown structure"
  end.
(** decodeContext 272-295 *)
Fixpoint take_strings (l : list json) : list string * list json :=
  match l with
  | JStr s :: l' => let '(a, b) := take_strings l' in (s :: a, b)
  | _ => ([], l)
  end.
Definition decode_context (v : option json) : res (list string * list json) :=
  match v with
  | Some (JStr s) => Ok ([s], [])
  | Some (JArr l) => Ok (take_strings l)
  | _ => Err "credential context of unknown type"
  end.
(** proofsToRaw 296-307, parseLDProof 309-326 *)
Definition proofs_to_raw (ps : list (gomap json)) : json :=
  match ps with [] => JNull | [p] => JObj p | _ => JArr (map JObj ps) end.
Definition parse_ld_proof (v : option json) : res (list (gomap json)) :=
  match v with
  | None => Ok []
  | Some (JObj m) => Ok [m]
  | Some (JArr l) => map_res (obj_of "unsupported proof value") l
  | Some _ => Err "unsupported proof value"
  end.

(** NewDataURL 399-405, ParseDataURL 410-439 *)
Definition new_data_url (media enc data : string) : string :=
  if String.eqb enc "" then "data:" ++ media ++ "," ++ data else "data:" ++ media ++ ";" ++ enc ++ "," ++ data.
Definition parse_data_url (url : string) : res (string * string * string) :=
  if negb (has_prefix "data:" url) then Err "invalid data URL format" else
  let u := str_drop 5 url in
  match str_index "," u with
  | None => Err "invalid data URL format"
  | Some i =>
      let full := str_take i u in
      if String.eqb full "" then Err "media type is required" else
      let data := str_drop (S i) u in
      match str_index ";" full with
      | None => Ok (full, "", data)
      | Some j => Ok (str_take j full, str_drop (S j) full, data)
      end
  end.

(** ** verifiable/jsonld.go *)
(** GetBaseContext 28-40 *)
Definition get_base_context (l : list string) : res string :=
  match l with
  | [] => Err "@context is required"
  | c :: _ => if String.eqb c v1_context || String.eqb c v2_context then Ok c else Err "unsupported @context"
  end.
(** GetBaseContextFromRawDocument 48-60 *)
Definition get_base_context_raw (m : gomap json) : res string :=
  if mhas m "@context" then let* c := decode_context (fld m "@context") in get_base_context (fst c)
  else Err "@context is required".
(** IsBaseContext 63-69 *)
Definition is_base_context (l : list string) (c : string) : bool :=
  match l with [] => false | x :: _ => String.eqb x c end.
(** HasBaseContext 72-83 *)
Definition has_base_context (m : gomap json) (c : string) : bool :=
  if mhas m "@context" then
    match decode_context (fld m "@context") with Ok (l, _) => is_base_context l c | _ => false end
  else false.

(** ** Issuer and subject (verifiable/credential.go) *)
(** IssuerFromJSON 762-779 *)
Definition issuer_from (m : gomap json) : res issuer :=
  let '(f, rest) := split_obj m ["id"] in
  let* id := parse_string_fld f "id" in
  let* _ := guard (negb (String.eqb id "")) "issuer ID is not defined" in
  Ok {| is_id := id; is_custom := rest |}.
(** IssuerToJSON 751-759 *)
Definition issuer_to (i : issuer) : gomap json :=
  if String.eqb (is_id i) "" then is_custom i else mset (is_custom i) "id" (JStr (is_id i)).
(** parseIssuer 1320-1337 *)
Definition parse_issuer (v : option json) : res (option issuer) :=
  match v with
  | None => Ok None
  | Some (JStr s) => if String.eqb s "" then Err "issuer ID is not defined"
                     else Ok (Some {| is_id := s; is_custom := [] |})
  | Some (JObj m) => rmap Some (issuer_from m)
  | Some _ => Err "should be json object or string"
  end.
(** serializeIssuer 1339-1345 *)
Definition issuer_json (i : issuer) : json :=
  match is_custom i with [] => JStr (is_id i) | _ => JObj (issuer_to i) end.
(** SubjectToJSON 792-800, SubjectFromJSON 803-816 *)
Definition subject_to (s : subject) : gomap json :=
  if String.eqb (sj_id s) "" then sj_custom s else mset (sj_custom s) "id" (JStr (sj_id s)).
Definition subject_from (m : gomap json) : res subject :=
  let '(f, rest) := split_obj m ["id"] in
  let* id := parse_string_fld f "id" in
  Ok {| sj_id := id; sj_custom := rest |}.
(** parseSubject 1350-1386 *)
Definition parse_subject (v : option json) : res (list subject) :=
  match v with
  | None => Ok []
  | Some (JStr s) => Ok [{| sj_id := s; sj_custom := [] |}]
  | Some (JObj m) => rmap (fun s => [s]) (subject_from m)
  | Some (JArr l) =>
      map_res (fun j => let* m := obj_of "verifiable credential subject of unsupported format" j in subject_from m) l
  | Some _ => Err "verifiable credential subject of unsupported format"
  end.
(** SerializeSubject 2156-2166 (called with at least one subject) *)
Definition subjects_json (l : list subject) : json :=
  match l with [s] => JObj (subject_to s) | _ => JArr (map (fun s => JObj (subject_to s)) l) end.
(** parseTypedID 1869-1903 *)
Definition parse_typed_id (v : option json) : res (list typedid) :=
  match v with
  | None => Ok []
  | Some (JObj m) => rmap (fun t => [t]) (parse_typed_obj m)
  | Some (JArr l) =>
      map_res (fun j => let* m := obj_of "slice with typeIDs of unsupported format" j in parse_typed_obj m) l
  | Some _ => Err "typeID of unsupported format"
  end.
(** typedIDsToRaw 2575-2582 *)
Definition typed_ids_json (l : list typedid) : json :=
  match l with [t] => JObj (typed_obj t) | _ => JArr (map (fun t => JObj (typed_obj t)) l) end.
(** parseRefreshService 1819-1830 *)
Definition parse_refresh (v : option json) : res (option typedid) :=
  let* l := parse_typed_id v in Ok (hd_error l).
(** stringify 1861-1867, parseRelatedResources 1832-1859 *)
Definition stringify (E : tenv) (v : option json) : string :=
  match v with None => "" | Some (JStr s) => s | Some j => te_sprint E j end.
Definition parse_related (E : tenv) (v : option json) : res (list relres) :=
  match v with
  | None => Ok []
  | Some (JArr l) =>
      map_res (fun j => let* m := obj_of "related resource of unsupported format" j in
        Ok {| rr_id := stringify E (fld m "id"); rr_sri := stringify E (fld m "digestSRI");
              rr_mb := stringify E (fld m "digestMultibase"); rr_media := stringify E (fld m "mediaType") |}) l
  | Some _ => Err "related resources of unsupported format"
  end.
(** encoding/json of RelatedResource (840-845; every field omitempty) *)
Definition relres_json (r : relres) : json :=
  JObj (opt_field "id" (rr_id r) ++ opt_field "digestSRI" (rr_sri r)
        ++ opt_field "digestMultibase" (rr_mb r) ++ opt_field "mediaType" (rr_media r))%list.

(** sdjwt/common/common.go:238-250 FormatCryptoHashAlg *)
Definition hash_name (h : hashalg) : string :=
  match h with SHA256 => "sha-256" | SHA384 => "sha-384" | SHA512 => "sha-512" end.
(** parseSDAlgValue 1923-1931, parseSDAlg 1905-1921 *)
Definition parse_sd_alg_value (s : string) (subs : list subject) : res hashalg :=
  match String.eqb s "", subs with
  | true, {| sj_custom := (_ :: _) as m |} :: _ => get_crypto_hash m
  | _, _ => parse_hash_alg s
  end.
Definition parse_sd_alg (m : gomap json) (subs : list subject) (sd : bool) : res (option hashalg) :=
  if sd then
    let* s := parse_string_fld m "_sd_alg" in
    rmap Some (parse_sd_alg_value s subs)
  else Ok None.

(** parseCredentialContents 1711-1817 *)
Definition parse_contents (E : tenv) (m : gomap json) (sd : bool) : res contents :=
  let* schemas := parse_typed_id (fld m "credentialSchema") in
  let* types := decode_type (fld m "type") in
  let* iss := parse_issuer (fld m "issuer") in
  let* ctx := decode_context (fld m "@context") in
  let* terms := parse_typed_id (fld m "termsOfUse") in
  let* refresh := parse_refresh (fld m "refreshService") in
  let* rel := parse_related E (fld m "relatedResource") in
  let* subs := parse_subject (fld m "credentialSubject") in
  let* alg := parse_sd_alg m subs sd in
  let* id := parse_string_fld m "id" in
  let* issued := parse_time_fld E m "issuanceDate" in
  let* issued := match issued with None => parse_time_fld E m "validFrom" | Some _ => Ok issued end in
  let* expired := parse_time_fld E m "expirationDate" in
  let* expired := match expired with None => parse_time_fld E m "validUntil" | Some _ => Ok expired end in
  let* sts := new_typed_array (fld m "credentialStatus") in
  Ok {| vc_context := fst ctx; vc_custom_ctx := snd ctx; vc_id := id; vc_types := types; vc_subject := subs;
        vc_issuer := iss; vc_issued := issued; vc_expired := expired; vc_status := sts; vc_schemas := schemas;
        vc_evidence := fld m "evidence"; vc_terms := terms; vc_refresh := refresh; vc_sdalg := alg;
        vc_related := rel |}.

(** serializeTypes 2551-2561, contextToRaw 2563-2573 *)
Definition types_json (l : list string) : json := match l with [t] => JStr t | _ => JArr (map JStr l) end.
Definition context_json (c : list string) (cc : list json) : list json := (map JStr c ++ cc)%list.

(** [if cond { m[k] = v }] *)
Definition opt_set (k : string) (v : option json) (m : gomap json) : gomap json :=
  match v with Some x => mset m k x | None => m end.
Definition nonempty {A} (l : list A) (v : json) : option json := match l with [] => None | _ => Some v end.
(** serializeCredentialContents 2456-2545 *)
Definition serialize_contents (E : tenv) (c : contents) (proofs : list (gomap json)) : gomap json :=
  let v2 := is_base_context (vc_context c) v2_context in
  let ctx := context_json (vc_context c) (vc_custom_ctx c) in
  let m := opt_set "@context" (nonempty ctx (JArr ctx)) [] in
  let m := opt_set "id" (if String.eqb (vc_id c) "" then None else Some (JStr (vc_id c))) m in
  let m := opt_set "type" (nonempty (vc_types c) (types_json (vc_types c))) m in
  let m := opt_set "credentialSubject" (nonempty (vc_subject c) (subjects_json (vc_subject c))) m in
  let m := opt_set "proof" (nonempty proofs (proofs_to_raw proofs)) m in
  let m := opt_set "credentialStatus" (nonempty (vc_status c) (typed_ids_json (vc_status c))) m in
  let m := opt_set "issuer" (option_map issuer_json (vc_issuer c)) m in
  let m := opt_set "credentialSchema" (nonempty (vc_schemas c) (typed_ids_json (vc_schemas c))) m in
  let m := opt_set "evidence" (vc_evidence c) m in
  let m := opt_set "refreshService" (option_map (fun t => JObj (typed_obj t)) (vc_refresh c)) m in
  let m := opt_set "relatedResource" (nonempty (vc_related c) (JArr (map relres_json (vc_related c)))) m in
  let m := opt_set "termsOfUse" (nonempty (vc_terms c) (typed_ids_json (vc_terms c))) m in
  let time t := JStr (format_time E t) in
  let m := opt_set (if v2 then "validFrom" else "issuanceDate") (option_map time (vc_issued c)) m in
  let m := opt_set (if v2 then "validUntil" else "expirationDate") (option_map time (vc_expired c)) m in
  opt_set "_sd_alg" (option_map (fun h => JStr (hash_name h)) (vc_sdalg c)) m.

(** ** Credential (848-858).  Envelopes: 861-874 *)
Record jenvelope := { je_jwt : string; je_headers : headers; je_discs : list disc; je_binding : string }.
(** a parsed COSE_Sign1 message (go-cose): the fields of its protected header that the code reads, payload, signature,
    and the result of GetProofValue (verifiable/cwt/cwt.go:16-42, the Sig_structure bytes) *)
Record coset := { co_alg : res Z; co_key : string; co_kid : string; co_payload : string; co_sig : string;
                  co_tbs : res string }.
Record cenvelope := { ce_raw : string; ce_msg : coset }.
Record credential := { cr_json : gomap json; cr_contents : contents; cr_proofs : list (gomap json);
                       cr_jwt : option jenvelope; cr_cwt : option cenvelope }.
Definition plain (m : gomap json) (c : contents) : credential :=
  {| cr_json := m; cr_contents := c; cr_proofs := []; cr_jwt := None; cr_cwt := None |}.

(** CreateCredentialWithProofs 1419-1433; CreateCredential 1404-1416 is the case without proofs *)
Definition create_with_proofs (E : tenv) (c : contents) (custom : gomap json) (ps : list (gomap json)) : credential :=
  {| cr_json := add_custom (serialize_contents E c ps) custom; cr_contents := c; cr_proofs := ps;
     cr_jwt := None; cr_cwt := None |}.
Definition create_credential (E : tenv) (c : contents) (custom : gomap json) : credential :=
  create_with_proofs E c custom [].
(** ToRawJSON 919-928 *)
Definition to_raw_json (v : credential) : gomap json :=
  match cr_proofs v with [] => cr_json v | ps => mset (cr_json v) "proof" (proofs_to_raw ps) end.

(** *** WithModified* (2634-2816): fresh credential, proofs and envelopes dropped. *)
Definition without_proofs (v : credential) : gomap json := mdel (cr_json v) "proof".
Definition upd_json (m : gomap json) (k : string) (v : option json) : gomap json :=
  match v with Some x => mset m k x | None => mdel m k end.
Definition set_id (c : contents) (s : string) : contents :=
  {| vc_context := vc_context c; vc_custom_ctx := vc_custom_ctx c; vc_id := s; vc_types := vc_types c;
     vc_subject := vc_subject c; vc_issuer := vc_issuer c; vc_issued := vc_issued c; vc_expired := vc_expired c;
     vc_status := vc_status c; vc_schemas := vc_schemas c; vc_evidence := vc_evidence c; vc_terms := vc_terms c;
     vc_refresh := vc_refresh c; vc_sdalg := vc_sdalg c; vc_related := vc_related c |}.
Definition set_issued (c : contents) (t : twrap) : contents :=
  {| vc_context := vc_context c; vc_custom_ctx := vc_custom_ctx c; vc_id := vc_id c; vc_types := vc_types c;
     vc_subject := vc_subject c; vc_issuer := vc_issuer c; vc_issued := Some t; vc_expired := vc_expired c;
     vc_status := vc_status c; vc_schemas := vc_schemas c; vc_evidence := vc_evidence c; vc_terms := vc_terms c;
     vc_refresh := vc_refresh c; vc_sdalg := vc_sdalg c; vc_related := vc_related c |}.
Definition set_expired (c : contents) (t : twrap) : contents :=
  {| vc_context := vc_context c; vc_custom_ctx := vc_custom_ctx c; vc_id := vc_id c; vc_types := vc_types c;
     vc_subject := vc_subject c; vc_issuer := vc_issuer c; vc_issued := vc_issued c; vc_expired := Some t;
     vc_status := vc_status c; vc_schemas := vc_schemas c; vc_evidence := vc_evidence c; vc_terms := vc_terms c;
     vc_refresh := vc_refresh c; vc_sdalg := vc_sdalg c; vc_related := vc_related c |}.
Definition set_context (c : contents) (l : list string) : contents :=
  {| vc_context := l; vc_custom_ctx := vc_custom_ctx c; vc_id := vc_id c; vc_types := vc_types c;
     vc_subject := vc_subject c; vc_issuer := vc_issuer c; vc_issued := vc_issued c; vc_expired := vc_expired c;
     vc_status := vc_status c; vc_schemas := vc_schemas c; vc_evidence := vc_evidence c; vc_terms := vc_terms c;
     vc_refresh := vc_refresh c; vc_sdalg := vc_sdalg c; vc_related := vc_related c |}.
Definition set_status (c : contents) (l : list typedid) : contents :=
  {| vc_context := vc_context c; vc_custom_ctx := vc_custom_ctx c; vc_id := vc_id c; vc_types := vc_types c;
     vc_subject := vc_subject c; vc_issuer := vc_issuer c; vc_issued := vc_issued c; vc_expired := vc_expired c;
     vc_status := l; vc_schemas := vc_schemas c; vc_evidence := vc_evidence c; vc_terms := vc_terms c;
     vc_refresh := vc_refresh c; vc_sdalg := vc_sdalg c; vc_related := vc_related c |}.
Definition set_refresh (c : contents) (r : option typedid) : contents :=
  {| vc_context := vc_context c; vc_custom_ctx := vc_custom_ctx c; vc_id := vc_id c; vc_types := vc_types c;
     vc_subject := vc_subject c; vc_issuer := vc_issuer c; vc_issued := vc_issued c; vc_expired := vc_expired c;
     vc_status := vc_status c; vc_schemas := vc_schemas c; vc_evidence := vc_evidence c; vc_terms := vc_terms c;
     vc_refresh := r; vc_sdalg := vc_sdalg c; vc_related := vc_related c |}.
Definition set_issuer (c : contents) (i : option issuer) : contents :=
  {| vc_context := vc_context c; vc_custom_ctx := vc_custom_ctx c; vc_id := vc_id c; vc_types := vc_types c;
     vc_subject := vc_subject c; vc_issuer := i; vc_issued := vc_issued c; vc_expired := vc_expired c;
     vc_status := vc_status c; vc_schemas := vc_schemas c; vc_evidence := vc_evidence c; vc_terms := vc_terms c;
     vc_refresh := vc_refresh c; vc_sdalg := vc_sdalg c; vc_related := vc_related c |}.
Definition set_subject (c : contents) (l : list subject) : contents :=
  {| vc_context := vc_context c; vc_custom_ctx := vc_custom_ctx c; vc_id := vc_id c; vc_types := vc_types c;
     vc_subject := l; vc_issuer := vc_issuer c; vc_issued := vc_issued c; vc_expired := vc_expired c;
     vc_status := vc_status c; vc_schemas := vc_schemas c; vc_evidence := vc_evidence c; vc_terms := vc_terms c;
     vc_refresh := vc_refresh c; vc_sdalg := vc_sdalg c; vc_related := vc_related c |}.
(** WithModifiedID 2634-2650 *)
Definition with_id (v : credential) (s : string) : credential :=
  plain (upd_json (without_proofs v) "id" (if String.eqb s "" then None else Some (JStr s))) (set_id (cr_contents v) s).
(** WithModifiedIssued 2653-2664, WithModifiedExpired 2667-2678, WithModifiedValidFrom 2681-2692,
    WithModifiedValidUntil 2695-2706 *)
Definition with_time (E : tenv) (field : string) (setter : contents -> twrap -> contents) (v : credential) (t : twrap)
  : credential :=
  plain (mset (without_proofs v) field (JStr (format_time E t))) (setter (cr_contents v) t).
Definition with_issued (E : tenv) := with_time E "issuanceDate" set_issued.
Definition with_expired (E : tenv) := with_time E "expirationDate" set_expired.
Definition with_valid_from (E : tenv) := with_time E "validFrom" set_issued.
Definition with_valid_until (E : tenv) := with_time E "validUntil" set_expired.
(** WithModifiedContext 2709-2726 *)
Definition with_context (v : credential) (l : list string) : credential :=
  let raw := context_json l (vc_custom_ctx (cr_contents v)) in
  plain (upd_json (without_proofs v) "@context" (nonempty raw (JArr raw))) (set_context (cr_contents v) l).
(** WithModifiedStatus 2729-2759 (nil entries are dropped first) *)
Definition somes {A} (l : list (option A)) : list A :=
  fold_right (fun o acc => match o with Some x => x :: acc | None => acc end) [] l.
Definition with_status (v : credential) (l : list (option typedid)) : credential :=
  let st := somes l in
  plain (upd_json (without_proofs v) "credentialStatus" (nonempty st (typed_ids_json st))) (set_status (cr_contents v) st).
(** WithModifiedRefreshService 2762-2778 *)
Definition with_refresh (v : credential) (r : option typedid) : credential :=
  plain (upd_json (without_proofs v) "refreshService" (option_map (fun t => JObj (typed_obj t)) r))
        (set_refresh (cr_contents v) r).
(** WithModifiedIssuer 2781-2797 *)
Definition with_issuer (v : credential) (i : option issuer) : credential :=
  plain (upd_json (without_proofs v) "issuer" (option_map issuer_json i)) (set_issuer (cr_contents v) i).
(** WithModifiedSubject 2800-2816 *)
Definition with_subject (v : credential) (l : list subject) : credential :=
  plain (upd_json (without_proofs v) "credentialSubject" (nonempty l (subjects_json l))) (set_subject (cr_contents v) l).
