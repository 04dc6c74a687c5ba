(** C330: a credential signed as a CWT with a proof creator and parsed with a proof checker, down to the bytes. *)
From Coq Require Import Permutation Lia.
From Verif Require Import GoBase StrLemmas Base64 JwtSpec DiSpec VcSpec JwtModel JwtProofs SdSpec SdModel SdParse DiModel VcModel VcJwt VcParse
  VcProofs VcSign VcSignProofs JwtProps VcProps VcProps2 VcProps3 VcProps4 CwModel CwSpec CwProofs CwProofs2 CwProofs3 CwProofs4 CwProofs5 CwProps CwProps2 CkModel CkProps KaModel JnProps JnProps2.
From Verif Require LdModel.

(** the creator as the signer of verifiable/cose.go:19-80 marshalCOSE (84: proofCreator.SignCWT; the key id is not handed over: cwt.SignParameters.KeyID is not read by creator.go:174-181) *)
Definition cwt_signer (c : LdModel.creator) : Z -> string -> string -> res string := fun alg _ tbs => LdModel.creator_sign_cwt c alg tbs.

(** ** C330  A credential signed with CreateSignedCOSEVC and a proof creator is accepted by ParseCredential with a proof checker that has a descriptor for the COSE algorithm and accepts what
    the creator's first signer for it signs, when the key id resolves under the credential's issuer; what it gives is the credential, with exactly its JSON object. *)
Theorem C330_sign_then_parse : forall hok F Fd (E : venv) (S : senv) copts kopts (R : resolver) cosekey (o : VcParse.copts) (v v' : credential) alg kid i vm d ce,
  create_signed_cose S v alg kid = Ok v' -> cr_cwt v' = Some ce ->
  uses_cbor hok (cwt_signer (LdModel.new_creator copts)) F Fd E S ->
  coherent (ve_time E) v -> survives F Fd v -> int64 alg -> sized kid -> sized (ce_raw ce) ->
  (* the parser has the checker; key and checker fit the creator *)
  co_cwt_check o = Some (new_check_cwt R cosekey kopts) -> kid <> "" -> alg <> 0%Z ->
  vc_issuer (cr_contents v) = Some i -> R kid (is_id i) = Ok vm ->
  first_with (fun d => jd_cose d = alg) (given_cwts kopts) d ->
  (forall x data sig, first_with (fun x => jd_cose (fst x) = alg) (given_signers copts) x -> snd x data = Ok sig -> accepted_by (given_verifiers kopts) (jd_vms d) vm data sig) ->
  (co_no_validation o = true \/ forall c, same_contents (ve_time E) (cr_contents v) c -> validate_credential E c (cr_json v) o = Ok tt) ->
  (co_no_related o = true \/ ve_related E (vc_related (cr_contents v)) = Ok tt) ->
  exists w, parse_credential E o (hex_encode (ce_raw ce)) = Ok w
    /\ cr_json w = cr_json v /\ same_contents (ve_time E) (cr_contents v) (cr_contents w)
    /\ cr_cwt w = Some ce /\ cr_jwt w = None /\ cr_proofs w = [].
Proof.
  intros hok F Fd E S copts kopts R cosekey o v v' alg kid i vm d ce H Hce U Hco Hsv Ha Hk Hraw Hck Hkne Hane Hi Hr Hd Hx Hval Hrel.
  eapply C227_credential_bytes; try eassumption.
  right. intros i' Hi'. assert (i' = i) as -> by congruence. exists (new_check_cwt R cosekey kopts). split; [exact Hck|].
  intros tbs sig Hs. unfold cwt_signer in Hs. apply C313_first_cose_signer in Hs as (x & Hf & Hs).
  apply C312_cwt; [exact Hkne|]. split; [exact Hane|]. exists vm, d. repeat split; auto. eapply Hx; eassumption.
Qed.

(** an instance: the credential of C227 *)
Definition ja_copts : list LdModel.copt := jn_copts.
Definition ja_kopts : list chkopt := [WithCWTAlgs default_jdescs; WithSignatureVerifiers [jn_verifier]].
Definition ja_R : resolver := fun k i => if (String.eqb i "did:i" && String.eqb k "did:i#k")%bool then Ok ck_vm else Err "x".
Definition ja_senv : senv := {|
  se_alg := fun _ => Ok "EdDSA"; se_jws := fun _ _ _ => Err "x"; se_unsec := fun _ => Err "x";
  se_cose := fun c a k => rmap (fun rm => (fst rm, coset_of (snd rm))) (marshal_cose any_headers (cwt_signer (LdModel.new_creator ja_copts)) (enc (claims_item xF c)) a k);
  se_hex := hex_encode |}.
Definition ja_opts : VcParse.copts := with_checkers toyO None None (Some (new_check_cwt ja_R (fun _ => Err "none") ja_kopts)) None.
Definition ja_raw : string := Eval vm_compute in
  match create_signed_cose ja_senv sg_cred (-8) "did:i#k" with Ok v => match cr_cwt v with Some ce => ce_raw ce | None => "" end | _ => "" end.
Example C330_example :
  uses_cbor any_headers (cwt_signer (LdModel.new_creator ja_copts)) xF xFd xb_env ja_senv /\ survives xF xFd sg_cred /\
  (exists v' ce, create_signed_cose ja_senv sg_cred (-8) "did:i#k" = Ok v' /\ cr_cwt v' = Some ce /\ ce_raw ce = ja_raw) /\
  co_cwt_check ja_opts = Some (new_check_cwt ja_R (fun _ => Err "none") ja_kopts) /\ co_no_proof ja_opts = false /\
  (exists i, vc_issuer (cr_contents sg_cred) = Some i /\ ja_R "did:i#k" (is_id i) = Ok ck_vm) /\
  first_with (fun d => jd_cose d = (-8)%Z) (given_cwts ja_kopts) d_eddsa /\
  (forall x data sig, first_with (fun x => jd_cose (fst x) = (-8)%Z) (given_signers ja_copts) x -> snd x data = Ok sig -> accepted_by (given_verifiers ja_kopts) (jd_vms d_eddsa) ck_vm data sig) /\
  (exists w, parse_credential xb_env ja_opts (hex_encode ja_raw) = Ok w /\ cr_json w = cr_json sg_cred).
Proof.
  split; [constructor; reflexivity|]. split; [apply C227_example|]. split; [eexists; eexists; split; [vm_compute; reflexivity|split; reflexivity]|].
  split; [reflexivity|]. split; [reflexivity|]. split; [eexists; split; reflexivity|]. split; [|split].
  - exists [], (tl default_jdescs). repeat split. constructor.
  - intros x data sig Hx Hs. apply (find_first (fun x : jdesc * LdModel.csigner => Z.eqb (jd_cose (fst x)) (-8)) _ _ _ (fun y => Z.eqb_eq _ _)) in Hx. vm_compute in Hx. injection Hx as <-. cbn [snd] in Hs. injection Hs as <-.
    apply verify_with_ok. transitivity (if String.eqb ("sig:" ++ data) ("sig:" ++ data) then Ok tt else Err "signature"); [reflexivity|now rewrite String.eqb_refl].
  - eexists. split; vm_compute; reflexivity.
Qed.
Print Assumptions C330_sign_then_parse.
