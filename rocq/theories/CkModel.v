(** Model of the options of proof checkers and creators: proof/checker/checker.go:68-145 (With... functions, New), 148-235, 449-496; the creator's are in LdModel. *)
From Verif Require Import GoBase Base64 JwtSpec DiSpec VcSpec JwtModel SdSpec SdModel SdParse DiModel VcModel VcJwt VcParse.

(** checker.go:39-42 signatureVerifierEx: signature, message, key and the proof *)
Definition exverifier := string -> string -> pubkey -> ldproof -> res unit.
(** checker.go:44-58, 68-73: ldCheckDescriptor (no own verifier: None), jwtCheckDescriptor, cwtCheckDescriptor; ProofCheckerBase *)
Record checker := { ck_lds : list (ldesc * option exverifier); ck_jwts : list jdesc; ck_cwts : list jdesc; ck_verifiers : list verifier }.
(** checker.go:83-133 *)
Inductive chkopt :=
| WithLDProofTypes (l : list ldesc) | WithLDProofTypeEx (d : ldesc) (f : option exverifier) | WithJWTAlgs (l : list jdesc) | WithCWTAlgs (l : list jdesc)
| WithSignatureVerifiers (l : list verifier).
Definition apply_chk (c : checker) (o : chkopt) : checker :=
  match o with
  | WithLDProofTypes l => {| ck_lds := (ck_lds c ++ map (fun d => (d, None)) l)%list; ck_jwts := ck_jwts c; ck_cwts := ck_cwts c; ck_verifiers := ck_verifiers c |}
  | WithLDProofTypeEx d f => {| ck_lds := (ck_lds c ++ [(d, f)])%list; ck_jwts := ck_jwts c; ck_cwts := ck_cwts c; ck_verifiers := ck_verifiers c |}
  | WithJWTAlgs l => {| ck_lds := ck_lds c; ck_jwts := (ck_jwts c ++ l)%list; ck_cwts := ck_cwts c; ck_verifiers := ck_verifiers c |}
  | WithCWTAlgs l => {| ck_lds := ck_lds c; ck_jwts := ck_jwts c; ck_cwts := (ck_cwts c ++ l)%list; ck_verifiers := ck_verifiers c |}
  | WithSignatureVerifiers l => {| ck_lds := ck_lds c; ck_jwts := ck_jwts c; ck_cwts := ck_cwts c; ck_verifiers := (ck_verifiers c ++ l)%list |}
  end.
(** checker.go:135-145 New, 485-496 NewEmbeddedVMProofChecker *)
Definition new_checker (opts : list chkopt) : checker := fold_left apply_chk opts {| ck_lds := []; ck_jwts := []; ck_cwts := []; ck_verifiers := [] |}.
(** checker.go:409-417 getSupportedProof *)
Definition checker_ld (c : checker) (t : string) : res (ldesc * option exverifier) :=
  match find (fun x => String.eqb (ld_type (fst x)) t) (ck_lds c) with Some x => Ok x | None => Err "unsupported proof type" end.
(** checker.go:148-179 CheckLDProof *)
Definition new_check_ld (R : resolver) (opts : list chkopt) : ld_checker := fun p iss msg sig =>
  let c := new_checker opts in
  let* k := lp_pkid p in
  let* vm := R k iss in
  let* x := checker_ld c (lp_type p) in
  let* pk := convert_to_public_key (ld_vms (fst x)) vm in
  match snd x with
  | Some f => f sig msg pk p
  | None => let* v := get_verifier (ck_verifiers c) (pk_type pk) in sv_verify v sig msg pk
  end.
(** checker.go:203-235 CheckJWTProof, 237-354 CheckCWTProof, 456-478 the embedded one's CheckJWTProof *)
Definition new_check_jwt (R : resolver) (opts : list chkopt) : proof_checker :=
  let c := new_checker opts in check_jwt_proof R (ck_jwts c) (ck_verifiers c).
Definition new_check_cwt (R : resolver) (cosekey : string -> res (jwk * ktype)) (opts : list chkopt) : cwt_checker :=
  let c := new_checker opts in check_cwt_proof R (ck_cwts c) (ck_verifiers c) cosekey.
Definition new_check_embedded (vm : vmeth) (opts : list chkopt) : proof_checker :=
  let c := new_checker opts in check_jwt_embedded vm (ck_jwts c) (ck_verifiers c).
