(** Model of proof/creator/creator.go, verifiable/lddocument/signer.go, verifiable/linked_data_proof.go (adding),
    verifiable/credential_ldp.go, presentation_ldp.go, did_ldp.go, did_data_integrity.go.
    did-go's package doc/ld/proof (CreateVerifyData, AddProof, CreateDetachedJWTHeader) is the record [ldlib]: arbitrary
    functions; what a theorem needs of them is a hypothesis of that theorem (LdSpec.v). *)
From Verif Require Import GoBase Base64 JwtSpec DiSpec VcSpec JwtModel SdSpec SdModel SdParse DiModel VcModel VcJwt VcParse VcSign VpModel VcAdd.

(** proof.SignatureRepresentation: 0, 1, any other number *)
Inductive sigrep := RepValue | RepJWS | RepOther.
(** did-go proof.Proof as signer.go:84-95 fills it *)
Record gproof := {
  gp_type : string; gp_rep : sigrep; gp_creator : string; gp_created : gtime; gp_domain : string; gp_nonce : string; gp_vm : string;
  gp_challenge : string; gp_purpose : string; gp_chain : option (list json); gp_value : string; gp_jws : string }.
(** a key type of the KMS: one of those the descriptors name, or another one *)
Definition keytype := option ktype.
Definition has_key (k : keytype) (s : svm) : bool := match k with Some k => ktype_eqb (sm_kms s) k | None => false end.

(** ** proof/creator/creator.go *)
(** cryptographicSigner 39-42 *)
Definition csigner := string -> res string.
(** proof/descriptor.go:35-46 LDProofDescriptor *)
Record lddesc := { le_desc : ldesc; le_canon : gomap json -> res string; le_digest : string -> string }.
(** creator.go:24-27 ProofCreator *)
Record creator := { pc_lds : list (lddesc * csigner); pc_jwts : list (jdesc * csigner) }.
(** 45-65 Opt, WithLDProofType, WithJWTAlg *)
Inductive copt := WithLDProofType (d : lddesc) (s : csigner) | WithJWTAlg (d : jdesc) (s : csigner).
Definition apply_copt (c : creator) (o : copt) : creator :=
  match o with
  | WithLDProofType d s => {| pc_lds := (pc_lds c ++ [(d, s)])%list; pc_jwts := pc_jwts c |}
  | WithJWTAlg d s => {| pc_lds := pc_lds c; pc_jwts := (pc_jwts c ++ [(d, s)])%list |}
  end.
(** 68-76 New *)
Definition new_creator (opts : list copt) : creator := fold_left apply_copt opts {| pc_lds := []; pc_jwts := [] |}.
(** 196-204 getSupportedProof *)
Definition creator_ld (c : creator) (t : string) : res (lddesc * csigner) :=
  match find (fun x => String.eqb (ld_type (le_desc (fst x))) t) (pc_lds c) with
  | Some x => Ok x
  | None => Err "unsupported proof type"
  end.
(** 206-214 getSupportedProofByCwtAlg *)
Definition creator_by_cwt (c : creator) (alg : Z) : res (jdesc * csigner) :=
  match find (fun x => Z.eqb (jd_cose (fst x)) alg) (pc_jwts c) with Some x => Ok x | None => Err "unsupported cwt alg" end.
(** 216-224 getSupportedProofByAlg *)
Definition creator_by_alg (c : creator) (alg : string) : res (jdesc * csigner) :=
  match find (fun x => String.eqb (jd_alg (fst x)) alg) (pc_jwts c) with Some x => Ok x | None => Err "unsupported jwt alg" end.
(** 138-149 filterSupportedMethodsByKeyType *)
Definition methods_for (k : keytype) (l : list svm) : list svm := filter (has_key k) l.
(** 79-93 SignLinkedDocument *)
Definition sign_linked (c : creator) (p : gproof) (k : keytype) (doc : string) : res string :=
  let* x := creator_ld c (gp_type p) in
  match methods_for k (ld_vms (le_desc (fst x))) with
  | [] => Err "ld proof not support keys"
  | _ => snd x doc
  end.
(** 96-104 GetLDPCanonicalDocument (processor options: part of the descriptor) *)
Definition ldp_canon (c : creator) (p : gproof) (doc : gomap json) : res string :=
  let* x := creator_ld c (gp_type p) in le_canon (fst x) doc.
(** 107-114 GetLDPDigest *)
Definition ldp_digest (c : creator) (p : gproof) (doc : string) : res string :=
  let* x := creator_ld c (gp_type p) in Ok (le_digest (fst x) doc).
(** 151-161 findJWTAlgByKeyType *)
Definition alg_by_key (c : creator) (k : keytype) : string :=
  match find (fun x => existsb (has_key k) (jd_vms (fst x))) (pc_jwts c) with Some x => jd_alg (fst x) | None => "" end.
(** 117-136 LDPJWTAlg *)
Definition ldp_jwt_alg (c : creator) (p : gproof) (k : keytype) : res string :=
  let* x := creator_ld c (gp_type p) in
  match methods_for k (ld_vms (le_desc (fst x))) with
  | [] => Err "ld proof not support keys"
  | _ => let a := alg_by_key c k in if String.eqb a "" then Err "no jwt algs that support key" else Ok a
  end.
(** 164-171 SignJWT, 174-181 SignCWT *)
Definition creator_sign_jwt (c : creator) (alg : string) (data : string) : res string := let* x := creator_by_alg c alg in snd x data.
Definition creator_sign_cwt (c : creator) (alg : Z) (data : string) : res string := let* x := creator_by_cwt c alg in snd x data.
(** 184-194 CreateJWTHeaders *)
Definition creator_headers (alg kid : string) : headers :=
  let h := [("alg", JStr alg)] in if String.eqb kid "" then h else mset h "kid" (JStr kid).

(** ** verifiable/lddocument/signer.go *)
(** 20-32 ProofCreator (the interface) *)
Record ldcreator := {
  lc_sign : gproof -> keytype -> string -> res string; lc_canon : gproof -> gomap json -> res string;
  lc_digest : gproof -> string -> res string; lc_alg : gproof -> keytype -> res string }.
Definition creator_iface (c : creator) : ldcreator :=
  {| lc_sign := sign_linked c; lc_canon := ldp_canon c; lc_digest := ldp_digest c; lc_alg := ldp_jwt_alg c |}.
(** the suite CreateVerifyData is given: verifier.go:115-137 signatureSuiteWrapper (a digest error is dropped) *)
Record suite := { su_canon : gomap json -> res string; su_digest : string -> string }.
Definition wrap_suite (c : ldcreator) (p : gproof) : suite :=
  {| su_canon := lc_canon c p; su_digest := fun s => match lc_digest c p s with Ok d => d | _ => "" end |}.
(** did-go doc/ld/proof *)
Record ldlib := {
  ll_header : string -> string;                                              (* CreateDetachedJWTHeader *)
  ll_vdata : suite -> gomap json -> gproof -> res string;                    (* CreateVerifyData *)
  ll_add : gomap json -> gproof -> gomap json * res unit }.                  (* AddProof: the object afterwards *)
(** 40-53 SigningContext *)
Record sctx := {
  sc_type : string; sc_creator : string; sc_key : keytype; sc_rep : sigrep; sc_created : option gtime; sc_domain : string;
  sc_nonce : string; sc_vm : string; sc_challenge : string; sc_purpose : string; sc_chain : option (list json) }.
(** 71-97: the proof before signing; [now]: time.Now() *)
Definition new_gproof (now : gtime) (x : sctx) : gproof :=
  {| gp_type := sc_type x; gp_rep := sc_rep x; gp_creator := sc_creator x;
     gp_created := match sc_created x with Some t => t | None => now end;
     gp_domain := sc_domain x; gp_nonce := sc_nonce x; gp_vm := sc_vm x; gp_challenge := sc_challenge x;
     gp_purpose := if String.eqb (sc_purpose x) "" then "assertionMethod" else sc_purpose x;
     gp_chain := sc_chain x; gp_value := ""; gp_jws := "" |}.
Definition with_jws (p : gproof) (s : string) : gproof :=
  {| gp_type := gp_type p; gp_rep := gp_rep p; gp_creator := gp_creator p; gp_created := gp_created p; gp_domain := gp_domain p;
     gp_nonce := gp_nonce p; gp_vm := gp_vm p; gp_challenge := gp_challenge p; gp_purpose := gp_purpose p; gp_chain := gp_chain p;
     gp_value := gp_value p; gp_jws := s |}.
Definition with_value (p : gproof) (s : string) : gproof :=
  {| gp_type := gp_type p; gp_rep := gp_rep p; gp_creator := gp_creator p; gp_created := gp_created p; gp_domain := gp_domain p;
     gp_nonce := gp_nonce p; gp_vm := gp_vm p; gp_challenge := gp_challenge p; gp_purpose := gp_purpose p; gp_chain := gp_chain p;
     gp_value := s; gp_jws := gp_jws p |}.
(** 127-134 applySignatureValue *)
Definition apply_signature (p : gproof) (s : string) : gproof :=
  match gp_rep p with
  | RepValue => with_value p s
  | RepJWS => with_jws p (gp_jws p ++ b64_encode s)
  | RepOther => p
  end.
(** 99-120: the proof with its signature *)
Definition make_proof (L : ldlib) (C : ldcreator) (now : gtime) (x : sctx) (doc : gomap json) : res gproof :=
  let* _ := guard (negb (String.eqb (sc_type x) "")) "signature type is missing" in
  let p := new_gproof now x in
  let* p := match sc_rep x with
            | RepJWS => let* a := lc_alg C p (sc_key x) in Ok (with_jws p (ll_header L a ++ ".."))
            | _ => Ok p
            end in
  let* msg := ll_vdata L (wrap_suite C p) doc p in
  let* s := lc_sign C p (sc_key x) msg in
  Ok (apply_signature p s).
(** 71-125 signObject: the document afterwards, and the error *)
Definition sign_object (L : ldlib) (C : ldcreator) (now : gtime) (x : sctx) (doc : gomap json) : gomap json * res unit :=
  match make_proof L C now x doc with
  | Ok p => ll_add L doc p
  | Err e => (doc, Err e)
  | Panic => (doc, Panic)
  end.

(** ** verifiable/linked_data_proof.go *)
(** 29-44 LinkedDataProofContext *)
Record ldctx := {
  lx_type : string; lx_creator : ldcreator; lx_key : keytype; lx_rep : sigrep; lx_created : option gtime; lx_vm : string;
  lx_challenge : string; lx_domain : string; lx_purpose : string; lx_chain : option (list json) }.
(** 99-111 mapContext *)
Definition map_context (c : ldctx) : sctx :=
  {| sc_type := lx_type c; sc_creator := ""; sc_key := lx_key c; sc_rep := lx_rep c; sc_created := lx_created c; sc_domain := lx_domain c;
     sc_nonce := ""; sc_vm := lx_vm c; sc_challenge := lx_challenge c; sc_purpose := lx_purpose c; sc_chain := lx_chain c |}.
(** 82-97 addLinkedDataProof: the document afterwards, and the proofs *)
Definition add_ld (L : ldlib) (now : gtime) (c : ldctx) (doc : gomap json) : gomap json * res (list (gomap json)) :=
  let '(d, r) := sign_object L (lx_creator c) now (map_context c) doc in
  match r with
  | Ok _ => (d, parse_ld_proof (fld d "proof"))
  | Err e => (d, Err e)
  | Panic => (d, Panic)
  end.
(** credential_ldp.go:13-22 AddLinkedDataProof: the credential afterwards, and the error *)
Definition add_ld_cred (L : ldlib) (now : gtime) (c : ldctx) (v : credential) : credential * res unit :=
  let '(d, r) := add_ld L now c (cr_json v) in
  ({| cr_json := d; cr_contents := cr_contents v; cr_proofs := match r with Ok ps => ps | _ => cr_proofs v end;
      cr_jwt := cr_jwt v; cr_cwt := cr_cwt v |}, rmap (fun _ => tt) r).
(** presentation_ldp.go:15-29 AddLinkedDataProof (raw() builds a fresh map, so the presentation only changes at the end) *)
Definition add_ld_pres (L : ldlib) (U : credential -> res json) (now : gtime) (c : ldctx) (p : presentation) : res presentation :=
  let* raw := pres_raw U p in
  let* ps := snd (add_ld L now c raw) in
  Ok (with_proofs p ps).

(** ** DID documents.  did.Doc is represented by the members of its JSON text (didToMap, did_ldp.go:137-151: JSONBytes and
    json.Unmarshal); did.ParseDocument, which makes a did.Doc of the signed members, is not modelled. *)
(** did_ldp.go:81-109 AddDIDLinkedDataProof: the members handed to did.ParseDocument *)
Definition add_ld_did (L : ldlib) (now : gtime) (c : ldctx) (doc : gomap json) : res (gomap json) :=
  let '(d, r) := sign_object L (lx_creator c) now (map_context c) doc in rmap (fun _ => d) r.
(** did_ldp.go:19-24 verifyDIDOpts, as options of the embedded proof check *)
Record didopts := {
  do_ld_check : option ld_checker; do_di : option dverifier; do_purpose : string; do_domain : string; do_challenge : string;
  do_external : list string }.
Definition did_copts (o : didopts) : copts :=
  {| co_jwt_check := None; co_ld_check := do_ld_check o; co_cwt_check := None; co_no_proof := false; co_no_validation := false;
     co_no_related := false; co_no_custom := false; co_schema := ""; co_schema_of := None; co_mode := MCombined; co_contexts := [];
     co_types := []; co_strict := false; co_ld_types := false; co_external := do_external o; co_di := do_di o;
     co_di_purpose := do_purpose o; co_di_domain := do_domain o; co_di_challenge := do_challenge o |}.
(** did_ldp.go:112-135 VerifyDIDProof: no expected issuer *)
Definition verify_did (E : venv) (o : didopts) (doc : gomap json) : res unit :=
  rmap (fun _ => tt) (check_embedded E (did_copts o) doc None).
(** did_data_integrity.go:18-54 AddDIDDataIntegrityProof: the members handed to did.ParseDocument *)
Definition add_di_did (S : dsigner) (now : gtime) (c : dictx) (doc : gomap json) : res (gomap json) :=
  let* ps := add_di S now c (JObj doc) in Ok (mset doc "proof" (proofs_to_raw ps)).
