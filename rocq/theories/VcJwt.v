(** Model of verifiable/credential_jwt.go, credential_cwt.go: JWT/CWT claims of a credential. *)
From Verif Require Import GoBase JwtSpec DiSpec VcSpec JwtModel SdSpec SdModel SdParse VcModel.

(** verifiable/credential_jwt.go:35-38 JWTCredClaims.  [jc_alloc]: the embedded *jwt.Claims is not nil.
    NumericDates are whole seconds. *)
Record jclaims := { jc_alloc : bool; jc_iss : string; jc_sub : string; jc_jti : string; jc_aud : list string;
                    jc_exp : option Z; jc_nbf : option Z; jc_iat : option Z; jc_vc : option (gomap json) }.

(** ** Decoding (encoding/json): the values given for one field, in textual order: names are matched ignoring
    (ASCII) case, and every occurrence is decoded into the same field. *)
Definition occurrences (k : string) (ms : list (string * json)) : list json :=
  map snd (filter (fun kv => equal_fold k (fst kv)) ms).
Definition fold_res {A} (step : A -> json -> res A) (l : list json) (a : A) : res A :=
  fold_left (fun acc j => let* x := acc in step x j) l (Ok a).
Definition str_step (s : string) (j : json) : res string :=
  match j with JStr s' => Ok s' | JNull => Ok s | _ => Err "unmarshal JWTCredClaims" end.
(** go-jose jwt.NumericDate: a number, truncated to whole seconds; null leaves the pointer nil *)
Definition date_step (d : option Z) (j : json) : res (option Z) :=
  match j with JNum q => Ok (Some (qtrunc q)) | JNull => Ok None | _ => Err "unmarshal JWTCredClaims" end.
(** go-jose jwt.Audience: a string or an array of strings *)
Definition aud_step (_ : list string) (j : json) : res (list string) :=
  match j with
  | JStr s => Ok [s]
  | JArr l => match all_strings l with Some r => Ok r | None => Err "unmarshal JWTCredClaims" end
  | _ => Err "unmarshal JWTCredClaims"
  end.
(** a map field: an object is decoded into the existing map *)
Definition map_step (m : option (gomap json)) (j : json) : res (option (gomap json)) :=
  match j with
  | JObj o => Ok (Some (fold_left (fun acc kv => mset acc (fst kv) (snd kv)) o (match m with Some x => x | None => [] end)))
  | JNull => Ok None
  | _ => Err "unmarshal JWTCredClaims"
  end.
Definition registered : list string := ["iss"; "sub"; "aud"; "exp"; "nbf"; "iat"; "jti"].

Definition decode_claims (ms : list (string * json)) : res jclaims :=
  let* iss := fold_res str_step (occurrences "iss" ms) "" in
  let* sub := fold_res str_step (occurrences "sub" ms) "" in
  let* aud := fold_res aud_step (occurrences "aud" ms) [] in
  let* exp := fold_res date_step (occurrences "exp" ms) None in
  let* nbf := fold_res date_step (occurrences "nbf" ms) None in
  let* iat := fold_res date_step (occurrences "iat" ms) None in
  let* jti := fold_res str_step (occurrences "jti" ms) "" in
  let* vc := fold_res map_step (occurrences "vc" ms) None in
  Ok {| jc_alloc := existsb (fun k => match occurrences k ms with [] => false | _ => true end) registered;
        jc_iss := iss; jc_sub := sub; jc_jti := jti; jc_aud := aud; jc_exp := exp; jc_nbf := nbf; jc_iat := iat;
        jc_vc := vc |}.

Definition omit_empty (k : string) (b : bool) : list string := if b then [] else [k].
Definition is_empty {A} (l : list A) : bool := match l with [] => true | _ => false end.
Definition is_none {A} (o : option A) : bool := match o with None => true | _ => false end.
Definition vc_len0 (c : jclaims) : bool := match jc_vc c with None | Some [] => true | _ => false end.
(** the member names of json.Marshal of the decoded value (every field is omitempty) *)
Definition field_names (c : jclaims) : list string :=
  (omit_empty "iss" (String.eqb (jc_iss c) "") ++ omit_empty "sub" (String.eqb (jc_sub c) "")
   ++ omit_empty "aud" (is_empty (jc_aud c)) ++ omit_empty "exp" (is_none (jc_exp c))
   ++ omit_empty "nbf" (is_none (jc_nbf c)) ++ omit_empty "iat" (is_none (jc_iat c))
   ++ omit_empty "jti" (String.eqb (jc_jti c) "") ++ omit_empty "vc" (vc_len0 c))%list.
(** json.Unmarshal into a map: the last value given for a name *)
Definition to_map (ms : list (string * json)) : gomap json := fold_left (fun acc kv => mset acc (fst kv) (snd kv)) ms [].
Definition set_vc (c : jclaims) (m : option (gomap json)) : jclaims :=
  {| jc_alloc := jc_alloc c; jc_iss := jc_iss c; jc_sub := jc_sub c; jc_jti := jc_jti c; jc_aud := jc_aud c;
     jc_exp := jc_exp c; jc_nbf := jc_nbf c; jc_iat := jc_iat c; jc_vc := m |}.
(** credential_jwt.go:81-98 JWTCredClaims.UnmarshalJSON, util/json/json.go:28-57 UnmarshalWithCustomFields *)
Definition unmarshal_claims (ms : list (string * json)) : res jclaims :=
  let* c := decode_claims ms in
  let custom := filter (fun kv => negb (str_in (fst kv) (field_names c))) (to_map ms) in
  Ok (if negb (is_empty custom) && vc_len0 c then set_vc c (Some custom) else c).

(** m[k] = v on a possibly nil map *)
Definition oset (m : option (gomap json)) (k : string) (v : json) : res (option (gomap json)) :=
  match m with Some x => Ok (Some (mset x k v)) | None => Panic end.
Definition oget (m : option (gomap json)) (k : string) : option json := match m with Some x => mget x k | None => None end.
Definition o_base (m : option (gomap json)) : bool := match m with Some x => has_base_context x v2_context | None => false end.

(** credential_jwt.go:227-260 refineVCIssuerFromJWTClaims *)
Definition refine_issuer (m : option (gomap json)) (iss : string) : res (option (gomap json)) :=
  match oget m "issuer" with
  | None => oset m "issuer" (JStr iss)
  | Some v =>
      let* id := match v with
                 | JStr s => Ok s
                 | JObj o => parse_string_fld o "id"
                 | _ => Ok ""
                 end in
      if has_prefix "did:" iss && has_prefix "did:" id && negb (String.eqb iss id)
      then Err "iss claim and vc.issuer.id missmatch" else
      match v with
      | JStr _ => oset m "issuer" (JStr iss)
      | JObj o => oset m "issuer" (JObj (mset o "id" (JStr iss)))
      | _ => Ok m
      end
  end.
Definition refine_date (E : tenv) (d : option Z) (m : option (gomap json)) (f2 f1 : string) : res (option (gomap json)) :=
  match d with
  | None => Ok m
  | Some n => oset m (if o_base m then f2 else f1) (JStr (te_rfc E n))
  end.
(** credential_jwt.go:182-225 refineFromJWTClaims *)
Definition refine (E : tenv) (c : jclaims) : res (option (gomap json)) :=
  if negb (jc_alloc c) then Panic else
  let* m := if String.eqb (jc_iss c) "" then Ok (jc_vc c) else refine_issuer (jc_vc c) (jc_iss c) in
  let* m := refine_date E (jc_nbf c) m "validFrom" "issuanceDate" in
  let* m := if String.eqb (jc_jti c) "" then Ok m else oset m "id" (JStr (jc_jti c)) in
  let* m := refine_date E (jc_iat c) m "validFrom" "issuanceDate" in
  refine_date E (jc_exp c) m "validUntil" "expirationDate".

(** [members_of]: encoding/json reading of a text as an object: its members in textual order (null: none) *)
Definition members_of := string -> option (list (string * json)).
Definition claims_of (M : members_of) (payload : string) : res jclaims :=
  match M payload with None => Err "decode JWT claims" | Some ms => unmarshal_claims ms end.
(** credential_jwt.go:160-180 decodeCredJWT, jws.go:42-52 unmarshalJWT.  The refined "vc" claim; a nil map is
    marshalled to null and read back as a nil map. *)
Definition decode_cred_jwt (E : tenv) (D : denv) (M : members_of) (tok : string) : res (headers * gomap json) :=
  let* tp := jwt_parse D tok None true (fun p => is_ok (claims_of M p)) in
  let* c := claims_of M (snd tp) in
  let* m := refine E c in
  Ok (tk_headers (fst tp), match m with Some x => x | None => [] end).

(** ** Encoding *)
(** go-jose jwt.NewNumericDate: nil for the zero time, else Unix seconds *)
Definition numeric_date (t : gtime) : option Z := if is_zero t then None else Some (unix t).
(** credential.go:2440-2454 SubjectID *)
Definition subject_id (l : list subject) : res string :=
  match l with
  | [] => Err "no subject is defined"
  | [s] => if String.eqb (sj_id s) "" then Err "subject id is not defined" else Ok (sj_id s)
  | _ => Err "more than one subject is defined"
  end.
Definition minimize (m : gomap json) : res (gomap json) :=
  let m := copy_except m ["expirationDate"; "issuanceDate"; "validUntil"; "validFrom"; "id"] in
  let* i := parse_issuer (fld m "issuer") in
  Ok (match i with
      | Some i => mset m "issuer" (issuer_json {| is_id := ""; is_custom := is_custom i |})
      | None => m
      end).
Definition o_date (t : option twrap) : option Z := match t with Some x => numeric_date (tw_time x) | None => None end.
(** credential_jwt.go:102-153 newJWTCredClaims *)
Definition new_jwt_claims (v : credential) (min : bool) : res jclaims :=
  let c := cr_contents v in
  let* sub := subject_id (vc_subject c) in
  match vc_issuer c with
  | None => Panic
  | Some i =>
      let* m := if min then minimize (cr_json v) else Ok (cr_json v) in
      Ok {| jc_alloc := true; jc_iss := is_id i; jc_sub := sub; jc_jti := vc_id c; jc_aud := [];
            jc_exp := o_date (vc_expired c); jc_nbf := o_date (vc_issued c); jc_iat := o_date (vc_issued c);
            jc_vc := Some m |}
  end.
Definition date_member (k : string) (d : option Z) : gomap json := match d with Some n => [(k, jnum n)] | None => [] end.
(** json.Marshal of JWTCredClaims (aud is never set by the code above) *)
Definition claims_json (c : jclaims) : gomap json :=
  (opt_field "iss" (jc_iss c) ++ opt_field "sub" (jc_sub c) ++ date_member "exp" (jc_exp c)
   ++ date_member "nbf" (jc_nbf c) ++ date_member "iat" (jc_iat c) ++ opt_field "jti" (jc_jti c)
   ++ match jc_vc c with Some ((_ :: _) as m) => [("vc", JObj m)] | _ => [] end)%list.
(** credential_jwt.go:62-77 ToSDJWTV5CredentialPayload *)
Definition v5_payload (c : jclaims) : gomap json :=
  add_custom (claims_json (set_vc c None)) (match jc_vc c with Some m => m | None => [] end).
(** credential_cwt.go:26-58 newCWTCredClaims: as above, but a missing issuance date panics *)
Definition new_cwt_claims (v : credential) : res jclaims :=
  let c := cr_contents v in
  let* sub := subject_id (vc_subject c) in
  match vc_issuer c, vc_issued c with
  | Some i, Some t =>
      Ok {| jc_alloc := true; jc_iss := is_id i; jc_sub := sub; jc_jti := vc_id c; jc_aud := [];
            jc_exp := o_date (vc_expired c); jc_nbf := numeric_date (tw_time t); jc_iat := numeric_date (tw_time t);
            jc_vc := Some (cr_json v) |}
  | _, _ => Panic
  end.
