(** Model of jwt/jwt.go, jwt/jose_wrappers.go, proof/checker/checker.go, proof/jwtproofs, proof/ldproofs
    (descriptor tables), crypto-ext/verifiers (dispatch and signature framing), vermethod/vdrkeyresolver.go. *)
From Verif Require Import GoBase JwtSpec.

(** ** jose.Headers (kms-go): typed look-ups return the value only when it is a string. *)
Definition headers := gomap json.
Definition h_str (h : headers) (k : string) : option string :=
  match mget h k with Some (JStr s) => Some s | _ => None end.
Definition h_alg (h : headers) := h_str h "alg".
Definition h_kid (h : headers) := h_str h "kid".
Definition h_typ (h : headers) := h_str h "typ".

(** jwt/jwt.go:335-359 checkTypHeader *)
Definition check_typ_header (typ : json) : res unit :=
  match typ with
  | JStr t =>
      let chunks := split_on "+" t in
      match chunks with
      | _ :: c1 :: _ =>
          let ending := to_upper c1 in
          guard (String.eqb ending "JWT" || String.eqb ending "SD-JWT") "invalid typ header"
      | _ => guard (String.eqb t "JWT") "typ is not JWT"
      end
  | _ => Err "invalid typ header format"
  end.

(** jwt/jwt.go:315-333 CheckHeaders ([cty == TypeJWT] compares an interface with a string constant) *)
Definition check_headers (h : headers) : res unit :=
  let* _ := guard (mhas h "alg") "alg header is not defined" in
  let* _ := match mget h "typ" with Some t => check_typ_header t | None => Ok tt end in
  match mget h "cty" with
  | Some (JStr "JWT") => Err "nested JWT is not supported"
  | _ => Ok tt
  end.

(** ** Decoding oracles.
    [de_jws]: kms-go jose.ParseJWS up to (not including) the call of the verifier: splits the compact
    form, decodes headers, payload and signature and computes the signing input; a deterministic function
    of the token and the detached payload.  [de_compact]: jose.IsCompactJWS.
    [de_members]: the members of the JSON object at the start of a payload text, in textual order, with
    duplicates (None: not an object).  [de_gstr]: gjson's String() of a non-string value. *)
Record jws := { jws_headers : headers; jws_payload : string; jws_input : string; jws_sig : string }.
Record denv := {
  de_compact : string -> bool;
  de_jws : string -> option string -> res jws;
  de_members : string -> option (list (string * json));
  de_gstr : json -> string
}.

Fixpoint nodup_str (l : list string) : bool :=
  match l with [] => true | x :: xs => negb (str_in x xs) && nodup_str xs end.

(** jwt/jwt.go:362-399 PayloadToMap on bytes: the go-jose fork of encoding/json decodes the object and
    fails on a repeated member name. *)
Definition payload_to_map (E : denv) (b : string) : res (gomap json) :=
  match de_members E b with
  | None => Err "convert to map"
  | Some ms => if nodup_str (map fst ms) then Ok ms else Err "convert to map: duplicate key"
  end.

(** gjson.ParseBytes(payload).Get(name): the first member with that name (jwt/jwt.go:124-129);
    on something that is not an object nothing is found. *)
Definition gjson_get (E : denv) (b name : string) : option json :=
  match de_members E b with None => None | Some ms => mget ms name end.
(** gjson Result.String() *)
Definition gjson_string (E : denv) (j : json) : string :=
  match j with JStr s => s | JNull => "" | _ => de_gstr E j end.

(** jwt/jwt.go:89-95 JSONWebToken: headers and payload map ([None]: map decoding was skipped). *)
Record token := { tk_headers : headers; tk_payload : option (gomap json) }.

(** jwt/jwt.go:210-240 mapJWSToJWT (decodeClaimsDestination: caller-supplied target, [dest] says whether
    decoding into it succeeds) *)
Definition map_jws (E : denv) (ignore_map : bool) (dest : string -> bool) (j : jws) : res (token * string) :=
  let* _ := check_headers (jws_headers j) in
  let* pl := if ignore_map then Ok None
             else rmap Some (payload_to_map E (jws_payload j)) in
  let* _ := guard (dest (jws_payload j)) "decode JWT claims from payload" in
  Ok ({| tk_headers := jws_headers j; tk_payload := pl |}, jws_payload j).

(** jwt/jwt.go:195-208 parseJWT: ParseJWS with a verifier that accepts everything *)
Definition parse_jwt (E : denv) tok det ign dest : res (token * string) :=
  let* j := de_jws E tok det in
  map_jws E ign dest j.

(** jwt/jwt.go:98-110 Parse *)
Definition jwt_parse (E : denv) (tok : string) (det : option string) (ign : bool) (dest : string -> bool)
  : res (token * string) :=
  let* _ := guard (de_compact E tok) "JWT of compacted JWS form is supported only" in
  parse_jwt E tok det ign dest.

(** jwt/verifier.go:13-15: a proof checker: headers, expected issuer, message, signature *)
Definition proof_checker := headers -> string -> string -> string -> res unit.

(** jwt/jose_wrappers.go:49-68 joseVerifier.Verify *)
Definition jose_verify (pc : proof_checker) (expected : option string) (j : jws) : res unit :=
  let* iss := match expected with
              | Some i => Ok i
              | None => match h_kid (jws_headers j) with
                        | Some kid => Ok (hd "" (split_on "#" kid))
                        | None => Err "missed kid in jwt header"
                        end
              end in
  pc (jws_headers j) iss (jws_input j) (jws_sig j).

(** jwt/jwt.go:151-163 CheckProof *)
Definition check_proof (E : denv) (tok : string) (pc : proof_checker) (expected : option string)
  (det : option string) : res unit :=
  let* j := de_jws E tok det in
  jose_verify pc expected j.

(** jwt/jwt.go:114-148 ParseAndCheckProof *)
Definition parse_and_check (E : denv) (tok : string) (pc : proof_checker) (check_issuer : bool)
  (det : option string) (ign : bool) (dest : string -> bool) : res (token * string) :=
  let* tp := jwt_parse E tok det ign dest in
  let* exp := if check_issuer
              then match gjson_get E (snd tp) "iss" with
                   | None => Err "check jwt failure: iss claim is required"
                   | Some v => Ok (Some (gjson_string E v))
                   end
              else Ok None in
  let* _ := check_proof E tok pc exp det in
  Ok tp.

(** kms.KeyType constants used in the tables *)
Inductive ktype :=
| ED25519Type | ECDSAP256IEEE | ECDSAP256DER | ECDSAP384IEEE | ECDSAP384DER | ECDSAP521IEEE | ECDSAP521DER
| ECDSAk1IEEE | ECDSAk1DER | RSARS256Type | RSAPS256Type | BLS12381G2Type.
Definition ktype_eqb (a b : ktype) : bool :=
  match a, b with
  | ED25519Type, ED25519Type | ECDSAP256IEEE, ECDSAP256IEEE | ECDSAP256DER, ECDSAP256DER
  | ECDSAP384IEEE, ECDSAP384IEEE | ECDSAP384DER, ECDSAP384DER | ECDSAP521IEEE, ECDSAP521IEEE
  | ECDSAP521DER, ECDSAP521DER | ECDSAk1IEEE, ECDSAk1IEEE | ECDSAk1DER, ECDSAk1DER
  | RSARS256Type, RSARS256Type | RSAPS256Type, RSAPS256Type | BLS12381G2Type, BLS12381G2Type => true
  | _, _ => false
  end.

(** crypto-ext/pubkey/pubkey.go:18-26 *)
Record pubkey := { pk_type : ktype; pk_bytes : option string; pk_jwk : option jwk }.

(** proof/descriptor.go:24-31 SupportedVerificationMethod *)
Record svm := { sm_type : string; sm_kms : ktype; sm_kty : string; sm_crv : string; sm_req : bool }.
Definition mk t k y c r := {| sm_type := t; sm_kms := k; sm_kty := y; sm_crv := c; sm_req := r |}.
(** JWT/CWT proof descriptor: alg name, COSE number (0 = none), methods *)
Record jdesc := { jd_alg : string; jd_cose : Z; jd_vms : list svm }.

(** proof/jwtproofs/eddsa/eddsa.go:33-54 (and alg, cwt alg below it) *)
Definition d_eddsa := {| jd_alg := "EdDSA"; jd_cose := -8; jd_vms :=
  [mk "Ed25519VerificationKey2018" ED25519Type "OKP" "Ed25519" false;
   mk "JsonWebKey2020" ED25519Type "OKP" "Ed25519" true] |}.
(** proof/jwtproofs/es256/es256.go *)
Definition d_es256 := {| jd_alg := "ES256"; jd_cose := -7; jd_vms :=
  [mk "JsonWebKey2020" ECDSAP256IEEE "EC" "P-256" true;
   mk "JsonWebKey2020" ECDSAP256DER "EC" "P-256" true] |}.
(** proof/jwtproofs/es256k/es256k.go *)
Definition d_es256k := {| jd_alg := "ES256K"; jd_cose := 0; jd_vms :=
  [mk "EcdsaSecp256k1VerificationKey2019" ECDSAk1IEEE "EC" "secp256k1" false;
   mk "JsonWebKey2020" ECDSAk1IEEE "EC" "secp256k1" true;
   mk "EcdsaSecp256k1VerificationKey2019" ECDSAk1DER "EC" "secp256k1" false;
   mk "JsonWebKey2020" ECDSAk1DER "EC" "secp256k1" true] |}.
(** proof/jwtproofs/es384/es384.go *)
Definition d_es384 := {| jd_alg := "ES384"; jd_cose := -35; jd_vms :=
  [mk "JsonWebKey2020" ECDSAP384IEEE "EC" "P-384" true;
   mk "JsonWebKey2020" ECDSAP384DER "EC" "P-384" true] |}.
(** proof/jwtproofs/es521/es521.go *)
Definition d_es521 := {| jd_alg := "ES521"; jd_cose := 0; jd_vms :=
  [mk "JsonWebKey2020" ECDSAP521IEEE "EC" "P-521" true;
   mk "JsonWebKey2020" ECDSAP521DER "EC" "P-521" true] |}.
(** proof/jwtproofs/rs256/rs256.go *)
Definition d_rs256 := {| jd_alg := "RS256"; jd_cose := -257; jd_vms :=
  [mk "RsaVerificationKey2018" RSARS256Type "RSA" "" false;
   mk "JsonWebKey2020" RSARS256Type "RSA" "" true] |}.
(** proof/jwtproofs/ps256/ps256.go *)
Definition d_ps256 := {| jd_alg := "PS256"; jd_cose := -37; jd_vms :=
  [mk "RsaVerificationKey2018" RSAPS256Type "RSA" "" false;
   mk "JsonWebKey2020" RSAPS256Type "RSA" "" true] |}.
(** proof/defaults/all.go:38-40 *)
Definition default_jdescs := [d_eddsa; d_es256; d_es256k; d_es384; d_es521; d_rs256; d_ps256].

(** LD proof descriptors: proof type, methods *)
Record ldesc := { ld_type : string; ld_vms : list svm }.
(** proof/ldproofs/bbsblssignature2020 *)
Definition l_bbs := {| ld_type := "BbsBlsSignature2020"; ld_vms :=
  [mk "Bls12381G2Key2020" BLS12381G2Type "EC" "BLS12381_G2" false;
   mk "JsonWebKey2020" BLS12381G2Type "EC" "BLS12381_G2" true] |}.
(** proof/ldproofs/ecdsasecp256k1signature2019 *)
Definition l_k1 := {| ld_type := "EcdsaSecp256k1Signature2019"; ld_vms := jd_vms d_es256k |}.
(** proof/ldproofs/ed25519signature2018 *)
Definition l_ed18 := {| ld_type := "Ed25519Signature2018"; ld_vms := jd_vms d_eddsa |}.
(** proof/ldproofs/ed25519signature2020 *)
Definition l_ed20 := {| ld_type := "Ed25519Signature2020"; ld_vms :=
  [mk "Ed25519VerificationKey2020" ED25519Type "OKP" "Ed25519" false;
   mk "Ed25519VerificationKey2018" ED25519Type "OKP" "Ed25519" false;
   mk "JsonWebKey2020" ED25519Type "OKP" "Ed25519" true] |}.
(** proof/ldproofs/jsonwebsignature2020 *)
Definition l_jws20 := {| ld_type := "JsonWebSignature2020"; ld_vms :=
  [mk "JsonWebKey2020" ED25519Type "OKP" "Ed25519" true;
   mk "JsonWebKey2020" ECDSAk1IEEE "EC" "secp256k1" true;
   mk "JsonWebKey2020" ECDSAk1DER "EC" "secp256k1" true;
   mk "JsonWebKey2020" RSAPS256Type "RSA" "" true;
   mk "JsonWebKey2020" ECDSAP256IEEE "EC" "P-256" true;
   mk "JsonWebKey2020" ECDSAP256DER "EC" "P-256" true;
   mk "JsonWebKey2020" ECDSAP384IEEE "EC" "P-384" true;
   mk "JsonWebKey2020" ECDSAP384DER "EC" "P-384" true;
   mk "JsonWebKey2020" ECDSAP521IEEE "EC" "P-521" true;
   mk "JsonWebKey2020" ECDSAP521DER "EC" "P-521" true] |}.
(** proof/ldproofs/bbsblssignatureproof2020 (no JWK type/curve in its entry) *)
Definition l_bbsproof := {| ld_type := "BbsBlsSignatureProof2020"; ld_vms :=
  [mk "Bls12381G2Key2020" BLS12381G2Type "" "" false] |}.

(** ** Signature verifiers (crypto-ext/verifiers).
    The cryptographic primitives and key parsers are the fields of [cenv] (JwtSpec.v), arbitrary functions. *)
(** crypto-ext/verifiers/ed25519/verifier.go:34-63 *)
Definition ed_verify (C : cenv) (sig msg : string) (pk : pubkey) : res unit :=
  if negb (ktype_eqb (pk_type pk) ED25519Type) then Err "unsupported key type" else
  let value0 := match pk_bytes pk with Some b => b | None => "" end in
  let* value := match pk_jwk pk with
                | None => Ok value0
                | Some j => match jk_key j with KEd b => Ok b | _ => Err "public key not ed25519" end
                end in
  if negb (Nat.eqb (String.length value) 32) then Err "ed25519: invalid key" else
  guard (c_ed C value msg sig) "ed25519: invalid signature".

(** crypto-ext/verifiers/rsa/verifier.go:35-81 and 98-138 *)
Definition rsa_verify (C : cenv) (kt : ktype) (prim : string -> string -> string -> bool)
  (sig msg : string) (pk : pubkey) : res unit :=
  if negb (ktype_eqb (pk_type pk) kt) then Err "unsupported key type" else
  let* k1 := match pk_jwk pk with
             | None => Ok None
             | Some j => match jk_key j with KRsa k => Ok (Some k) | _ => Err "jwk public key not rsa.PublicKey" end
             end in
  let* k2 := match pk_bytes pk with
             | None => Ok k1
             | Some b => match c_rsakey C b with Some k => Ok (Some k) | None => Err "rsa: invalid public key" end
             end in
  match k2 with
  | None => Err "rsa: invalid public key"
  | Some k => guard (prim k msg sig) "verification error"
  end.

(** crypto-ext/verifiers/ecdsa/verifier.go:40-43, 145-193: a curve's parameters *)
Record ecpar := { ec_curve : curve; ec_size : nat; ec_hash : hashalg; ec_types : list ktype }.
Definition ec_secp256k1 := {| ec_curve := Secp256k1; ec_size := 32; ec_hash := SHA256; ec_types := [ECDSAk1IEEE; ECDSAk1DER] |}.
Definition ec_es256 := {| ec_curve := P256; ec_size := 32; ec_hash := SHA256; ec_types := [ECDSAP256IEEE; ECDSAP256DER] |}.
Definition ec_es384 := {| ec_curve := P384; ec_size := 48; ec_hash := SHA384; ec_types := [ECDSAP384IEEE; ECDSAP384DER] |}.
Definition ec_es521 := {| ec_curve := P521; ec_size := 66; ec_hash := SHA512; ec_types := [ECDSAP521IEEE; ECDSAP521DER] |}.
Definition ec_supports (p : ecpar) (k : ktype) : bool := existsb (ktype_eqb k) (ec_types p).

(** crypto-ext/verifiers/ecdsa/verifier.go:49-73 parseKey, 128-141 createECDSAPublicKey.
    A key with neither JWK nor bytes dereferences nil. *)
Definition ec_parse_key (C : cenv) (p : ecpar) (pk : pubkey) : res (curve * string) :=
  if negb (ec_supports p (pk_type pk)) then Err "unsupported key type" else
  match pk_jwk pk with
  | None => match pk_bytes pk with
            | None => Panic
            | Some b => match c_point C (ec_curve p) b with
                        | Some pt => Ok (ec_curve p, pt)
                        | None => Err "ecdsa: create JWK from public key bytes"
                        end
            end
  | Some j => match jk_key j with KEc c pt => Ok (c, pt) | _ => Err "ecdsa: invalid public key type" end
  end.

Fixpoint str_take (n : nat) (s : string) : string :=
  match n, s with S n', String c s' => String c (str_take n' s') | _, _ => "" end.
Fixpoint str_drop (n : nat) (s : string) : string :=
  match n, s with S n', String c s' => str_drop n' s' | _, _ => s end.

(** crypto-ext/verifiers/ecdsa/verifier.go:84-118: signature framing *)
Definition ec_parse_sig (C : cenv) (p : ecpar) (sig : string) : res (N * N) :=
  let n := String.length sig in
  if (n <? 2 * ec_size p)%nat then Err "ecdsa: invalid signature size" else
  if (2 * ec_size p <? n)%nat
  then match c_asn1 C sig with Some rs => Ok rs | None => Err "asn1" end
  else Ok (be_val (str_take (ec_size p) sig), be_val (str_drop (ec_size p) sig)).

(** crypto-ext/verifiers/ecdsa/verifier.go:76-126 Verify *)
Definition ec_verify (C : cenv) (p : ecpar) (sig msg : string) (pk : pubkey) : res unit :=
  let* k := ec_parse_key C p pk in
  let* rs := ec_parse_sig C p sig in
  guard (c_ecdsa C (fst k) (snd k) (ec_hash p) msg (fst rs) (snd rs)) "ecdsa: invalid signature".

(** strings.Index(s, sub) *)
Fixpoint str_index (sub s : string) : option nat :=
  if has_prefix sub s then Some 0%nat
  else match s with EmptyString => None | String _ s' => option_map S (str_index sub s') end.

(** crypto-ext/verifiers/bbs/verifier.go:120-145 transformFromBlankNode; slices out of range panic *)
Definition placeholder : string := "<urn:bnid:_:c14n".
Definition transform_blank (row : string) : res string :=
  match str_index placeholder row with
  | None => Ok row
  | Some pi =>
      match str_index ">" (str_drop pi row) with
      | None => Ok row
      | Some si0 =>
          let si := (si0 + pi)%nat in
          if (si <? pi + 10)%nat then Panic else
          Ok (str_take pi row ++ str_take (si - (pi + 10)) (str_drop (pi + 10) row) ++ str_drop (si + 1) row)
      end
  end.

(** crypto-ext/verifiers/bbs/verifier.go:40-62 *)
Definition bbs_verify (C : cenv) (sig msg : string) (pk : pubkey) : res unit :=
  if negb (ktype_eqb (pk_type pk) BLS12381G2Type) then Err "unsupported key type" else
  let* k := match pk_bytes pk with
            | Some b => Ok b
            | None => match pk_jwk pk with
                      | Some j => match c_jwkbytes C j with Some b => Ok b | None => Err "invalid jwk" end
                      | None => Err "incorrect pub key, should contain key bytes or jwk"
                      end
            end in
  guard (c_bbs C k (split_lines msg) sig) "bbs".

(** proof/checker/checker.go:32-37 a signature verifier *)
Record verifier := { sv_supports : ktype -> bool; sv_verify : string -> string -> pubkey -> res unit }.
(** proof/defaults/all.go:43-46 *)
Definition default_verifiers (C : cenv) : list verifier :=
  [ {| sv_supports := fun k => ktype_eqb k ED25519Type; sv_verify := ed_verify C |};
    {| sv_supports := fun k => ktype_eqb k BLS12381G2Type; sv_verify := bbs_verify C |};
    {| sv_supports := fun k => ktype_eqb k RSAPS256Type; sv_verify := rsa_verify C RSAPS256Type (c_pss C) |};
    {| sv_supports := fun k => ktype_eqb k RSARS256Type; sv_verify := rsa_verify C RSARS256Type (c_pkcs1 C) |};
    {| sv_supports := ec_supports ec_secp256k1; sv_verify := ec_verify C ec_secp256k1 |};
    {| sv_supports := ec_supports ec_es256; sv_verify := ec_verify C ec_es256 |};
    {| sv_supports := ec_supports ec_es384; sv_verify := ec_verify C ec_es384 |};
    {| sv_supports := ec_supports ec_es521; sv_verify := ec_verify C ec_es521 |} ].

(** ** proof/checker/checker.go *)

(** checker.go:369-399 convertToPublicKey, 401-407 createPublicKey *)
Definition create_public_key (vm : vmeth) (k : ktype) : pubkey :=
  match vm_jwk vm with
  | Some j => {| pk_type := k; pk_bytes := None; pk_jwk := Some j |}
  | None => {| pk_type := k; pk_bytes := Some (vm_value vm); pk_jwk := None |}
  end.
Definition svm_matches (vm : vmeth) (s : svm) : bool :=
  String.eqb (sm_type s) (vm_type vm)
  && negb (match vm_jwk vm with None => sm_req s | Some _ => false end)
  && match vm_jwk vm with
     | Some j => String.eqb (sm_kty s) (jk_kty j) && String.eqb (sm_crv s) (jk_crv j)
     | None => true
     end.
Definition convert_to_public_key (l : list svm) (vm : vmeth) : res pubkey :=
  match find (svm_matches vm) l with
  | Some s => Ok (create_public_key vm (sm_kms s))
  | None => Err "can't verifiy with verification method"
  end.

(** checker.go:419-427 getSupportedProofByAlg, 429-437 getSupportedCWTProofByAlg, 409-417 getSupportedProof *)
Definition supported_by_alg (ds : list jdesc) (alg : string) : res jdesc :=
  match find (fun d => String.eqb (jd_alg d) alg) ds with Some d => Ok d | None => Err "unsupported jwt alg" end.
Definition supported_by_cose (ds : list jdesc) (alg : Z) : res jdesc :=
  match find (fun d => Z.eqb (jd_cose d) alg) ds with Some d => Ok d | None => Err "unsupported cwt alg" end.
Definition supported_ld (ds : list ldesc) (t : string) : res ldesc :=
  match find (fun d => String.eqb (ld_type d) t) ds with Some d => Ok d | None => Err "unsupported proof type" end.
(** checker.go:439-447 getSignatureVerifier *)
Definition get_verifier (vs : list verifier) (k : ktype) : res verifier :=
  match find (fun v => sv_supports v k) vs with Some v => Ok v | None => Err "no vefiers with supported key type" end.

(** a verification method resolver: key id, expected controller *)
Definition resolver := string -> string -> res vmeth.

(** the common tail of the three Check functions *)
Definition verify_with (vs : list verifier) (vms : list svm) (vm : vmeth) (msg sig : string) : res unit :=
  let* pk := convert_to_public_key vms vm in
  let* v := get_verifier vs (pk_type pk) in
  sv_verify v sig msg pk.

(** checker.go:203-235 ProofChecker.CheckJWTProof *)
Definition check_jwt_proof (R : resolver) (ds : list jdesc) (vs : list verifier) : proof_checker :=
  fun h iss msg sig =>
  match h_kid h with
  | None => Err "missed kid in jwt header"
  | Some kid =>
      match h_alg h with
      | None => Err "missed alg in jwt header"
      | Some alg =>
          let* vm := R kid iss in
          let* d := supported_by_alg ds alg in
          verify_with vs (jd_vms d) vm msg sig
      end
  end.

(** checker.go:456-478 EmbeddedVMProofChecker.CheckJWTProof *)
Definition check_jwt_embedded (vm : vmeth) (ds : list jdesc) (vs : list verifier) : proof_checker :=
  fun h _ msg sig =>
  match h_alg h with
  | None => Err "missed alg in jwt header"
  | Some alg =>
      let* d := supported_by_alg ds alg in
      verify_with vs (jd_vms d) vm msg sig
  end.
(** checker.go:481-483 NewEmbeddedJWKProofChecker *)
Definition jwk_vm (j : jwk) : vmeth := {| vm_type := "JsonWebKey2020"; vm_value := ""; vm_jwk := Some j |}.

(** checker.go:148-179 CheckLDProof for proofs without their own verifier; [pkid]: proof.PublicKeyID().
    (BbsBlsSignatureProof2020 has its own verifier: [ex]) *)
Definition check_ld_proof (R : resolver) (ds : list ldesc) (ex : string -> option (string -> string -> pubkey -> res unit))
  (vs : list verifier) (ptype : string) (pkid : res string) (iss msg sig : string) : res unit :=
  let* k := pkid in
  let* vm := R k iss in
  let* d := supported_ld ds ptype in
  let* pk := convert_to_public_key (ld_vms d) vm in
  match ex (ld_type d) with
  | Some f => f sig msg pk
  | None => let* v := get_verifier vs (pk_type pk) in sv_verify v sig msg pk
  end.

(** checker.go:237-264 checkCWTProofByKeyID, 266-322 checkCWTProofByCOSEKey, 325-354 CheckCWTProof.
    [cosekey]: hex/CBOR decoding of the key material to a JWK and its KMS key type. *)
Record cwt_req := { cw_kid : string; cw_key : string; cw_alg : Z }.
Definition check_cwt_proof (R : resolver) (ds : list jdesc) (vs : list verifier)
  (cosekey : string -> res (jwk * ktype)) (q : cwt_req) (iss msg sig : string) : res unit :=
  let* _ := guard (negb (String.eqb (cw_kid q) "" && String.eqb (cw_key q) "")) "missed kid and COSE_Key in cwt header" in
  let* _ := guard (negb (Z.eqb (cw_alg q) 0)) "missed alg in cwt header" in
  if negb (String.eqb (cw_kid q) "") then
    let* vm := R (cw_kid q) iss in
    let* d := supported_by_cose ds (cw_alg q) in
    verify_with vs (jd_vms d) vm msg sig
  else
    let* _ := guard (String.eqb iss "") "checking expected issuer is not supported by CWT for COSE_KEY" in
    let* jk := cosekey (cw_key q) in
    let* d := supported_by_cose ds (cw_alg q) in
    let* pk := convert_to_public_key (jd_vms d) (jwk_vm (fst jk)) in
    let* v := get_verifier vs (snd jk) in
    sv_verify v sig msg pk.

(** checker.go:59-65, 357-367 FindIssuer; [get path]: gjson look-up of a path, its string value if a string *)
Definition issuer_paths := ["vc.issuer.id"; "vc.issuer"; "issuer.id"; "issuer"; "iss"].
Fixpoint find_issuer (get : string -> option string) (ps : list string) : string :=
  match ps with
  | [] => ""
  | p :: ps' => match get p with
                | Some s => if String.eqb s "" then find_issuer get ps' else s
                | None => find_issuer get ps'
                end
  end.

(** ** vermethod/vdrkeyresolver.go:33-56 ResolveVerificationMethod.
    A DID document's VerificationMethods() (did-go): relationship -> list of verification methods, a Go map. *)
Inductive relationship := RGeneral | RAuthentication | RAssertion | RDelegation | RInvocation | RKeyAgreement.
Record verification := { vf_rel : relationship; vf_id : string; vf_vm : vmeth }.
Definition diddoc := list (list verification).   (* grouped by relationship, iteration order *)
Definition is_key_agreement (r : relationship) : bool := match r with RKeyAgreement => true | _ => false end.
Definition vdr_resolve (resolve : string -> res diddoc) (kid controller : string) : res vmeth :=
  let* doc := resolve controller in
  match find (fun v => String.eqb (vf_id v) kid && negb (is_key_agreement (vf_rel v))) (List.concat doc) with
  | Some v => Ok (vf_vm v)
  | None => Err "public key with KID is not found"
  end.
