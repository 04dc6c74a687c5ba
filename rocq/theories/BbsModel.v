(** Model of verifiable/bbs_selective_disclosure.go, verifiable/credential_bbs.go, and the derived-proof verifier of
    crypto-ext/verifiers/bbs/verifier.go.
    The JSON-LD processor of did-go (Compact, Frame, GetCanonicalDocument, TransformBlankNode) and did-go's NewProof are the
    record [bbslib]: arbitrary functions.  Processor options are part of these functions. *)
From Verif Require Import GoBase Base64 JwtSpec DiSpec VcSpec JwtModel SdSpec SdModel SdParse DiModel VcModel VcJwt VcParse VcSign VpModel ResSpec ResModel.

Record bbslib := {
  bl_compact : gomap json -> res (gomap json);          (* processor.Compact with {"@context": securityContext} *)
  bl_frame : gomap json -> gomap json -> res (gomap json);  (* processor.Frame (document, frame) with WithFrameBlankNodes *)
  bl_canon : gomap json -> res string;                  (* processor.GetCanonicalDocument *)
  bl_blank : string -> string;                          (* processor.TransformBlankNode *)
  bl_proof : gomap json -> res (res string * string) }. (* proof.NewProof: PublicKeyID(), ProofValue *)
(** bbs_selective_disclosure.go:28-45 BBSProofCreator; the derivation takes messages, signature, nonce, key, revealed indexes.
    (A resolver that returns no method and no error is not modelled.) *)
Record bbscreator := {
  bc_derive : list string -> string -> string -> string -> list nat -> res string;
  bc_resolve : resolver }.
(** 24 *)
Definition security_context : string := "https://w3id.org/security/v2".
(** strings.HasSuffix *)
Definition has_suffix (suf s : string) : bool :=
  (String.length suf <=? String.length s)%nat && String.eqb (str_drop (String.length s - String.length suf) s) suf.
(** 152-169 getBlsProofs (the context is written into the proof) *)
Definition is_bls (p : gomap json) : bool :=
  match mget p "type" with Some (JStr t) => has_suffix "BbsBlsSignature2020" t | _ => false end.
Definition get_bls_proofs (raw : json) : res (list (gomap json)) :=
  let* ps := get_proofs raw in
  Ok (map (fun p => mset p "@context" (JStr security_context)) (filter is_bls ps)).
(** 90-105 prepareDocAndProof *)
Definition prepare_doc (L : bbslib) (doc : gomap json) : res (gomap json * json) :=
  let* d := bl_compact L doc in
  match fld d "proof" with
  | None => Err "document does not have a proof"
  | Some p => Ok (mdel d "proof", p)
  end.
(** 257-272 createVerifyDocumentData; 274-281 createVerifyRevealData; 283-295 splitMessageIntoLines is [split_lines] *)
Definition doc_statements (L : bbslib) (doc : gomap json) : res (list string) :=
  let* c := bl_canon L doc in Ok (split_lines c).
(** 297-312 createVerifyProofData *)
Definition proof_statements (L : bbslib) (p : gomap json) : res (list string) :=
  doc_statements L (filter (fun kv => negb (String.eqb (fst kv) "proofValue")) p).
(** 228-239: documentStatementsMap, a map from statement to the index written last; a missing statement reads as 0 *)
Fixpoint last_index (l : list string) (s : string) (i acc : nat) : nat :=
  match l with
  | [] => acc
  | x :: l' => last_index l' s (S i) (if String.eqb x s then i else acc)
  end.
Definition statement_index (l : list string) (s : string) : nat := last_index l s 0 0.
(** 171-175 docVerificationData *)
Record docdata := { dd_reveal : list nat; dd_result : gomap json; dd_statements : list string }.
(** 209-246 buildDocVerificationData *)
Definition build_doc (L : bbslib) (doc reveal : gomap json) : res docdata :=
  let* ds := doc_statements L doc in
  let* r := bl_frame L doc reveal in
  let* rs := doc_statements L r in
  Ok {| dd_reveal := map (statement_index (map (bl_blank L) ds)) rs; dd_result := r; dd_statements := ds |}.
(** 182-207 buildVerificationData: messages and revealed indexes *)
Definition build_verification (L : bbslib) (p : gomap json) (d : docdata) : res (list string * list nat) :=
  let* ps := proof_statements L p in
  let n := List.length ps in
  Ok ((ps ++ dd_statements d)%list, (seq 0 n ++ map (Nat.add n) (dd_reveal d))%list).
(** 132-150 getPublicKeyAndSignature *)
Definition key_and_signature (L : bbslib) (R : resolver) (p : gomap json) : res (string * string) :=
  let* q := bl_proof L p in
  let* kid := fst q in
  let* vm := R kid (hd "" (split_on "#" kid)) in
  Ok (vm_value vm, snd q).
(** a map read of a missing key is nil, which marshals to null *)
Definition get_any (m : gomap json) (k : string) : json := match mget m k with Some j => j | None => JNull end.
(** 107-130 generateSignatureProof: creator.VerificationMethodResolver of a nil creator is a nil dereference *)
Definition derive_one (L : bbslib) (cr : option bbscreator) (nonce : string) (p : gomap json) (v : list string * list nat) : res (gomap json) :=
  match cr with
  | None => Panic
  | Some c =>
      let* ks := key_and_signature L (bc_resolve c) p in
      let* s := bc_derive c (fst v) (snd ks) nonce (fst ks) (snd v) in
      Ok [("type", JStr "BbsBlsSignatureProof2020"); ("nonce", JStr (std_encode nonce)); ("verificationMethod", get_any p "verificationMethod");
          ("proofPurpose", get_any p "proofPurpose"); ("created", get_any p "created"); ("proofValue", JStr (std_encode s))]
  end.
(** 47-88 BBSSelectiveDisclosure *)
Definition bbs_disclose (L : bbslib) (cr : option bbscreator) (doc reveal : gomap json) (nonce : string) : res (gomap json) :=
  let* dp := prepare_doc L doc in
  let* bs := get_bls_proofs (snd dp) in
  match bs with
  | [] => Err "no BbsBlsSignature2020 proof present"
  | _ =>
      let* d := build_doc L (fst dp) reveal in
      let* ps := map_res (fun p => let* v := build_verification L p d in derive_one L cr nonce p v) bs in
      Ok (mset (dd_result d) "proof" (JArr (map JObj ps)))
  end.

(** ** verifiable/credential_bbs.go *)
(** with WithDisabledProofCheck appended *)
Definition no_proof_check (o : copts) : copts :=
  {| co_jwt_check := co_jwt_check o; co_ld_check := co_ld_check o; co_cwt_check := co_cwt_check o; co_no_proof := true;
     co_no_validation := co_no_validation o; co_no_related := co_no_related o; co_no_custom := co_no_custom o; co_schema := co_schema o;
     co_schema_of := co_schema_of o; co_mode := co_mode o; co_contexts := co_contexts o; co_types := co_types o; co_strict := co_strict o;
     co_ld_types := co_ld_types o; co_external := co_external o; co_di := co_di o; co_di_purpose := co_di_purpose o;
     co_di_domain := co_di_domain o; co_di_challenge := co_di_challenge o |}.
(** 17-49 GenerateBBSSelectiveDisclosure; [txt]: json.Marshal of an object; ToMap: util/json/json.go:142-168 on the
    marshalled credential *)
Definition bbs_disclose_cred (E : venv) (D : senv) (sd : credential -> res string) (txt : gomap json -> string) (L : bbslib)
  (cr : option bbscreator) (o : copts) (v : credential) (reveal : gomap json) (nonce : string) : res credential :=
  match cr_proofs v with
  | [] => Err "expected at least one proof present"
  | _ =>
      match cr with
      | None => Err "bbs proof creator not defined"
      | Some _ =>
          let* j := to_universal D sd v in
          match j with
          | JObj doc => let* out := bbs_disclose L cr doc reveal nonce in
                        parse_credential E (no_proof_check o) (txt out)
          | _ => Err "json: cannot unmarshal into map"
          end
      end
  end.

(** ** crypto-ext/verifiers/bbs/verifier.go:77-118 G2SignatureProofVerifier.Verify; [vp key messages proof nonce]: VerifyProof *)
Definition bbs_verify_proof (C : cenv) (vp : string -> list string -> string -> string -> bool) (nonce : string)
  (sig msg : string) (pk : pubkey) : res unit :=
  let* k := match pk_bytes pk with
            | Some b => Ok b
            | None => match pk_jwk pk with
                      | Some j => match c_jwkbytes C j with Some b => Ok b | None => Err "invalid jwk" end
                      | None => Err "incorrect pub key, should contain key bytes or jwk"
                      end
            end in
  let* rows := map_res transform_blank (split_lines msg) in
  guard (vp k rows sig nonce) "bbs proof".
(** proof/ldproofs/bbsblssignatureproof2020/proof.go:65-76 GetCanonicalDocument; strings.Replace(docType, ProofType, ..., 1):
    the first occurrence.  The document handed in afterwards carries the changed type, and is canonicalised. *)
Definition replace_first (old new s : string) : string :=
  match str_index old s with
  | None => s
  | Some i => str_take i s ++ new ++ str_drop (i + String.length old) s
  end.
Definition bbs_proof_doc (doc : gomap json) : gomap json :=
  match mget doc "type" with
  | Some (JStr t) => if has_suffix "BbsBlsSignatureProof2020" t
                     then mset doc "type" (JStr (replace_first "BbsBlsSignatureProof2020" "BbsBlsSignature2020" t)) else doc
  | _ => doc
  end.
Definition bbs_proof_canon (L : bbslib) (doc : gomap json) : res string := bl_canon L (bbs_proof_doc doc).
