(** Model of sdjwt/verifier and sdjwt/holder (on top of the JWT model and sdjwt/common). *)
From Verif Require Import GoBase Base64 JwtSpec JwtModel SdSpec SdModel.

(** ** sdjwt/common/verification.go, first part *)

(** verification.go:29-55 VerifySigningAlg and contains *)
Definition verify_signing_alg (h : headers) (algs : list string) : res unit :=
  match h_alg h with
  | None => Err "missing alg"
  | Some alg =>
      let* _ := guard (negb (String.eqb alg "none")) "alg value cannot be 'none'" in
      guard (str_in alg algs) "alg is not in the allowed list"
  end.
(** verification.go:88-101 VerifyTyp *)
Definition verify_typ (h : headers) (typ : string) : res unit :=
  match h_typ h with
  | None => Err "missing typ"
  | Some t => guard (String.eqb t typ) "unexpected typ"
  end.

(** mapstructure (WeaklyTypedInput, TagName json): the value a struct field is decoded from: the member with
    the field's name, else one whose name is equal under case folding. *)
Definition ms_field (m : gomap json) (k : string) : option json :=
  match mget m k with
  | Some v => Some v
  | None => match find (fun kv => equal_fold (fst kv) k) m with Some kv => Some (snd kv) | None => None end
  end.

(** Oracles of this file: time.Now (nanoseconds); the text of a number (json.Number); weak decoding of a
    non-number to an integer (mapstructure decodeInt); whether the remaining registered claims (iss, sub, aud,
    jti) decode; parsing of the [cnf.jwk] value (JWK.UnmarshalJSON). *)
Record penv := {
  pe_now : Z;
  pe_num : Q -> string;
  pe_weak : json -> res Z;
  pe_rest : gomap json -> bool;
  pe_jwk : json -> option jwk
}.

(** mapstructure decodeString in weak mode *)
Definition ms_string (P : penv) (m : gomap json) (k : string) : res string :=
  match ms_field m k with
  | None | Some JNull => Ok ""
  | Some (JStr s) => Ok s
  | Some (JBool b) => Ok (if b then "1" else "0")
  | Some (JNum q) => Ok (pe_num P q)
  | Some _ => Err "mapstructure: expected type string"
  end.
(** A NumericDate field: util/maphelpers/hooks.go:20-45 JSONNumberToJwtNumericDate on numbers (truncation
    towards zero; float64 rounding of the text not modelled), weak decoding otherwise. *)
Definition qtrunc (q : Q) : Z := Z.quot (Qnum q) (Zpos (Qden q)).
Definition ms_date (P : penv) (m : gomap json) (k : string) : res (option Z) :=
  match ms_field m k with
  | None | Some JNull => Ok None
  | Some (JNum q) => Ok (Some (qtrunc q))
  | Some v => rmap Some (pe_weak P v)
  end.
Definition second : Z := 1000000000.
(** verification.go:58-85 VerifyJWT, with go-jose Claims.ValidateWithLeeway for an empty Expected *)
Definition verify_jwt (P : penv) (m : gomap json) (leeway : Z) : res unit :=
  let* _ := guard (pe_rest P m) "mapstruct verifyJWT decode" in
  let* exp := ms_date P m "exp" in
  let* nbf := ms_date P m "nbf" in
  let* iat := ms_date P m "iat" in
  let* _ := guard (match nbf with Some d => negb (pe_now P + leeway <? d * second) | None => true end) "not valid yet" in
  let* _ := guard (match exp with Some d => negb (d * second <? pe_now P - leeway) | None => true end) "expired" in
  guard (match iat with Some d => negb (pe_now P + leeway <? d * second) | None => true end) "issued in the future".

(** ** sdjwt/verifier *)

(** verifier.go:40-56 parseOpts; 163-168 defaults.  No signature verifier: the interface is nil and calling
    it panics ([nil_checker]). *)
Definition nil_checker : proof_checker := fun _ _ _ _ => Panic.
Record vopts := {
  vo_det : option string; vo_check : proof_checker; vo_ialgs : list string; vo_halgs : list string;
  vo_required : bool; vo_aud : string; vo_nonce : string; vo_leeway : Z; vo_typ : string
}.
Definition default_vopts : vopts :=
  {| vo_det := None; vo_check := nil_checker; vo_ialgs := ["EdDSA"; "RS256"]; vo_halgs := ["EdDSA"; "RS256"];
     vo_required := false; vo_aud := ""; vo_nonce := ""; vo_leeway := 60 * second; vo_typ := "" |}.

(** verifier.go:243-261 checkForDuplicates *)
Fixpoint dups (seen : list string) (l : list string) : list string :=
  match l with
  | [] => []
  | x :: xs => if str_in x seen then x :: dups seen xs else dups (x :: seen) xs
  end.
Definition check_for_duplicates (l : list string) : res unit :=
  guard (Nat.eqb (List.length (dups [] l)) 0) "duplicate values found".

Definition no_dest : string -> bool := fun _ => true.
(** the payload map of a token parsed with the default options *)
Definition payload_of (t : token) : gomap json := match tk_payload t with Some m => m | None => [] end.

(** verifier.go:211-241 validateIssuerSignedSDJWT *)
Definition validate_issuer (D : denv) (P : penv) (o : vopts) (tok : string) (discs : list string) : res token :=
  let* tp := parse_and_check D tok (vo_check o) true (vo_det o) false no_dest in
  let t := fst tp in
  let* _ := verify_signing_alg (tk_headers t) (vo_ialgs o) in
  let* _ := verify_jwt P (payload_of t) (vo_leeway o) in
  let* _ := check_for_duplicates discs in
  Ok t.

(** common.go:297-312 GetCNF *)
Definition get_cnf (m : gomap json) : res (gomap json) :=
  match (match mget m "cnf" with Some o => Some o | None => get_key_from_vc "cnf" m end) with
  | None => Err "cnf must be present in SD-JWT"
  | Some (JObj c) => Ok c
  | Some _ => Err "cnf must be an object"
  end.
(** verifier.go:278-306: the verifiers configured for the embedded key (all defaults except BBS) *)
Definition cnf_verifiers (C : cenv) : list verifier :=
  [ {| sv_supports := fun k => ktype_eqb k ED25519Type; sv_verify := ed_verify C |};
    {| sv_supports := fun k => ktype_eqb k RSAPS256Type; sv_verify := rsa_verify C RSAPS256Type (c_pss C) |};
    {| sv_supports := fun k => ktype_eqb k RSARS256Type; sv_verify := rsa_verify C RSARS256Type (c_pkcs1 C) |};
    {| sv_supports := ec_supports ec_secp256k1; sv_verify := ec_verify C ec_secp256k1 |};
    {| sv_supports := ec_supports ec_es256; sv_verify := ec_verify C ec_es256 |};
    {| sv_supports := ec_supports ec_es384; sv_verify := ec_verify C ec_es384 |};
    {| sv_supports := ec_supports ec_es521; sv_verify := ec_verify C ec_es521 |} ].
(** verifier.go:263-306 getSignatureVerifier, getSignatureVerifierFromCNF *)
Definition cnf_checker (C : cenv) (P : penv) (m : gomap json) : res proof_checker :=
  let* cnf := get_cnf m in
  match mget cnf "jwk" with
  | None => Err "jwk must be present in cnf"
  | Some j => match pe_jwk P j with
              | None => Err "unmarshal jwk"
              | Some k => Ok (check_jwt_embedded (jwk_vm k) default_jdescs (cnf_verifiers C))
              end
  end.

(** keybidning.go:25-55 verifyKeyBindingJWT; holderbidning.go:25-56 verifyHolderBindingJWT (the same code) *)
Definition verify_binding (P : penv) (o : vopts) (m : gomap json) : res unit :=
  let* nonce := ms_string P m "nonce" in
  let* aud := ms_string P m "aud" in
  let* _ := ms_date P m "iat" in
  let* _ := guard (String.eqb (vo_nonce o) "" || String.eqb (vo_nonce o) nonce) "nonce value does not match" in
  guard (String.eqb (vo_aud o) "" || String.eqb (vo_aud o) aud) "audience value does not match".
(** verifier.go:364-390 verifyHolderVerificationJWT *)
Definition verify_holder_jwt (P : penv) (o : vopts) (t : token) : res unit :=
  let* _ := verify_signing_alg (tk_headers t) (vo_halgs o) in
  let* _ := verify_jwt P (payload_of t) (vo_leeway o) in
  match h_typ (tk_headers t) with
  | Some "kb+jwt" => verify_binding P o (payload_of t)
  | _ => verify_binding P o (payload_of t)
  end.
(** verifier.go:326-361 runHolderVerification *)
Definition run_holder_verification (D : denv) (C : cenv) (P : penv) (o : vopts) (payload : gomap json) (hv : string)
  : res unit :=
  if vo_required o && String.eqb hv "" then Err "holder verification is required" else
  if String.eqb hv "" then Ok tt else
  let* pc := cnf_checker C P payload in
  let* tp := jwt_parse D hv None false no_dest in
  let* _ := check_proof D hv pc (Some "") None in
  verify_holder_jwt P o (fst tp).

(** verifier.go:308-324 getDisclosedClaims; [order]: iteration order of the disclosure map *)
Definition vp_disclosed (E : sdenv) (h : hashalg) (ds : list string) (order : gomap disc -> list string)
  (payload : gomap json) : res (gomap json) :=
  let* m := get_disclosure_claims E h ds order in
  get_disclosed_claims m payload.

(** verifier.go:162-209 Parse *)
Definition verifier_parse (D : denv) (C : cenv) (P : penv) (E : sdenv) (order : gomap disc -> list string)
  (o : vopts) (s : string) : res (gomap json) :=
  let cfp := parse_presentation s in
  let* t := validate_issuer D P o (cp_jwt cfp) (cp_discs cfp) in
  let payload := payload_of t in
  let* _ := verify_disclosures E (cp_discs cfp) payload in
  let* _ := if String.eqb (vo_typ o) "" then Ok tt else verify_typ (tk_headers t) (vo_typ o) in
  let* _ := run_holder_verification D C P o payload (cp_holder cfp) in
  let* h := get_crypto_hash payload in
  vp_disclosed E h (cp_discs cfp) order payload.

(** ** sdjwt/holder *)

(** holder.go:306-313 NoopSignatureVerifier *)
Definition noop_checker : proof_checker := fun _ _ _ _ => Ok tt.
(** holder.go:31-42 parseOpts, 106-110 defaults *)
Record hopts := {
  ho_det : option string; ho_check : proof_checker; ho_algs : list string; ho_v5 : bool; ho_typ : string; ho_leeway : Z
}.
Definition default_hopts : hopts :=
  {| ho_det := None; ho_check := noop_checker; ho_algs := []; ho_v5 := false; ho_typ := ""; ho_leeway := 0 |}.

(** jwt/jwt.go:302-312 isValidJSON; [obj]: json.Unmarshal into a map succeeds (an object or null) *)
Definition is_valid_json (obj : string -> bool) (s : string) : bool :=
  match b64_decode s with Some b => obj b | None => false end.
(** jwt/jwt.go:283-300 IsJWS, IsJWTUnsecured *)
Definition is_jws (obj : string -> bool) (s : string) : bool :=
  match split_on "." s with
  | [a; b; c] => is_valid_json obj a && is_valid_json obj b && negb (String.eqb c "")
  | _ => false
  end.
Definition is_jwt_unsecured (obj : string -> bool) (s : string) : bool :=
  match split_on "." s with
  | [a; b; c] => is_valid_json obj a && is_valid_json obj b && String.eqb c ""
  | _ => false
  end.
(** holder.go:169-206 applySDJWTV5Validation *)
Definition v5_validation (P : penv) (obj : string -> bool) (o : hopts) (t : token) (ds : list string) : res unit :=
  let kb := last ds "" in
  let* _ := guard (negb (is_jws obj kb || is_jwt_unsecured obj kb)) "unexpected key binding JWT supplied" in
  let* _ := if String.eqb (ho_typ o) "" then Ok tt else verify_typ (tk_headers t) (ho_typ o) in
  let* _ := verify_signing_alg (tk_headers t) (ho_algs o) in
  verify_jwt P (payload_of t) (ho_leeway o).

(** holder.go:22-28 Claim *)
Record hclaim := { hc_disclosure : string; hc_name : string; hc_value : json }.
(** holder.go:145-165 getClaims *)
Definition get_claims (E : sdenv) (h : hashalg) (ds : list string) (order : gomap disc -> list string) : res (list hclaim) :=
  let* m := get_disclosure_claims E h ds order in
  Ok (map (fun kc => {| hc_disclosure := dc_str (snd kc); hc_name := dc_name (snd kc); hc_value := dc_value (snd kc) |}) m).
(** holder.go:106-143 Parse *)
Definition holder_parse (D : denv) (P : penv) (obj : string -> bool) (E : sdenv) (order : gomap disc -> list string)
  (o : hopts) (s : string) : res (list hclaim) :=
  let cfi := parse_issuance s in
  let* tp := parse_and_check D (ci_jwt cfi) (ho_check o) true (ho_det o) false no_dest in
  let t := fst tp in
  let* _ := if ho_v5 o then v5_validation P obj o t (ci_discs cfi) else Ok tt in
  let* _ := verify_disclosures E (ci_discs cfi) (payload_of t) in
  let* h := get_crypto_hash (payload_of t) in
  get_claims E h (ci_discs cfi) order.

(** holder.go:254-293 CreatePresentation; [hv]: the holder verification requested and the result of
    CreateHolderVerification (296-303) *)
Definition create_presentation (s : string) (sel : list string) (hv : option (res string)) : res string :=
  let cfi := parse_issuance s in
  let* _ := guard (negb (Nat.eqb (List.length (ci_discs cfi)) 0)) "no disclosures found in SD-JWT" in
  let* _ := guard (forallb (fun d => str_in d (ci_discs cfi)) sel) "disclosure not found in SD-JWT" in
  let* hb := match hv with None => Ok "" | Some r => r end in
  Ok (serialize_presentation {| cp_jwt := ci_jwt cfi; cp_discs := sel; cp_holder := hb |}).
