(** Property theorems for credentials: what a successful ParseCredential says about proofs (C103-C108). *)
From Coq Require Import Permutation.
From Verif Require Import GoBase Base64 StatusModel PexModel StrLemmas JwtSpec DiSpec VcSpec JwtModel SdSpec SdModel SdParse DiModel
  VcModel VcJwt VcParse VcProofs VcView VcText VcMod VcSecure DiProofs DiProps JwtProofs JwtProps VcProps.

(** ** C103  With proof checking on, an accepted credential has an issuer, and a configured checker accepted, for exactly
    that issuer, a proof over exactly the object that is returned. *)
Theorem C103_accepted_means_checked : forall (E : venv) (o : copts) (data : string) (v : credential),
  parse_credential E o data = Ok v -> co_no_proof o = false ->
  exists i, vc_issuer (cr_contents v) = Some i /\ is_id i <> "" /\ issuer_in (cr_json v) (Some i)
    /\ secured E o v (is_id i).
Proof. exact parse_credential_secured. Qed.

(** example: a JWS credential under the default checker, one DID document *)
Definition ex_vm : vmeth :=
  {| vm_type := "JsonWebKey2020"; vm_value := ""; vm_jwk := Some {| jk_kty := "OKP"; jk_crv := "Ed25519"; jk_key := KEd ex_key |} |}.
Definition ex_resolve (did : string) : res diddoc :=
  if String.eqb did "did:i" then Ok [[{| vf_rel := RAssertion; vf_id := "did:i#k"; vf_vm := ex_vm |}]] else Err "x".
Definition ex_jwt_members : list (string * json) :=
  [("iss", JStr "did:i"); ("nbf", jnum 7);
   ("vc", JObj [("@context", JStr v1_context); ("type", JStr "VerifiableCredential"); ("issuer", JStr "did:i");
                ("credentialSubject", JObj [("id", JStr "did:s")])])].
Definition ex_seg : string := b64_encode "{}".
Definition ex_tok (sig : string) : string := ex_seg ++ "." ++ ex_seg ++ "." ++ sig.
Definition ex_jws (sig : string) : jws :=
  {| jws_headers := [("alg", JStr "EdDSA"); ("kid", JStr "did:i#k")]; jws_payload := "P"; jws_input := "m"; jws_sig := sig |}.
Definition ex_jenv : venv :=
  toyV0 [(ex_tok "good", ex_jws "sig:m"); (ex_tok "bad", ex_jws "sig:x")] [("P", ex_jwt_members); ("{}", [])].
Definition default_jwt (C : cenv) (resolve : string -> res diddoc) : proof_checker :=
  check_jwt_proof (vdr_resolve resolve) default_jdescs (default_verifiers C).
Definition default_ld (C : cenv) (resolve : string -> res diddoc) : ld_checker := fun p iss msg sig =>
  check_ld_proof (vdr_resolve resolve) default_ldescs (fun _ => None) (default_verifiers C) (lp_type p) (lp_pkid p) iss msg sig.
Definition default_cwt (C : cenv) (resolve : string -> res diddoc) ck : cwt_checker := fun q iss msg sig =>
  check_cwt_proof (vdr_resolve resolve) default_jdescs (default_verifiers C) ck q iss msg sig.
Definition with_checkers (o : copts) j l w d : copts :=
  {| co_jwt_check := j; co_ld_check := l; co_cwt_check := w; co_no_proof := false; co_no_validation := co_no_validation o;
     co_no_related := co_no_related o; co_no_custom := co_no_custom o; co_schema := co_schema o;
     co_schema_of := co_schema_of o; co_mode := co_mode o; co_contexts := co_contexts o; co_types := co_types o;
     co_strict := co_strict o; co_ld_types := co_ld_types o; co_external := co_external o; co_di := d;
     co_di_purpose := co_di_purpose o; co_di_domain := co_di_domain o; co_di_challenge := co_di_challenge o |}.
Definition ex_copts : copts :=
  with_checkers toyO (Some (default_jwt ex_cenv ex_resolve)) (Some (default_ld ex_cenv ex_resolve))
    (Some (default_cwt ex_cenv ex_resolve (fun _ => Err "x"))) None.
Example C103_example :
  (exists v, parse_credential ex_jenv ex_copts (ex_tok "good") = Ok v /\ cr_jwt v <> None
     /\ mget (cr_json v) "issuanceDate" = Some (JStr "T7"))
  /\ is_err (parse_credential ex_jenv ex_copts (ex_tok "bad")) = true
  /\ co_no_proof ex_copts = false.
Proof. split; [eexists; split; [vm_compute; reflexivity|split; [discriminate|reflexivity]]|split; vm_compute; reflexivity]. Qed.
Print Assumptions C103_accepted_means_checked.

(** ** C104  With the default checkers and a DID resolver, the key that verified sits in the DID document of the issuer
    named in the returned contents, under the id the proof names, outside key agreement, and fits the proof's algorithm. *)
Definition issuer_key (resolve : string -> res diddoc) (iss kid : string) (vm : vmeth) : Prop :=
  exists doc g x, resolve iss = Ok doc /\ In g doc /\ In x g /\ vf_id x = kid /\ vf_rel x <> RKeyAgreement /\ vf_vm x = vm.
Inductive signed_by_issuer (C : cenv) (resolve : string -> res diddoc) (E : venv) (v : credential) (iss : string) : Prop :=
| sbi_jwt je j kid alg vm sc :
    cr_jwt v = Some je -> de_jws (ve_jwt E) (je_jwt je) None = Ok j -> jwt_contents E (jws_payload j) (cr_json v) ->
    mget (jws_headers j) "kid" = Some (JStr kid) -> mget (jws_headers j) "alg" = Some (JStr alg) ->
    issuer_key resolve iss kid vm -> alg_scheme alg sc -> prim_ok C vm sc (jws_input j) (jws_sig j) ->
    signed_by_issuer C resolve E v iss
| sbi_cwt ce tbs alg p vm sc :
    cr_cwt v = Some ce -> co_tbs (ce_msg ce) = Ok tbs -> co_alg (ce_msg ce) = Ok alg ->
    ve_cbor E (co_payload (ce_msg ce)) = Some p -> mget p "vc" = Some (JObj (cr_json v)) ->
    issuer_key resolve iss (co_kid (ce_msg ce)) vm -> cose_scheme alg sc -> prim_ok C vm sc tbs (co_sig (ce_msg ce)) ->
    signed_by_issuer C resolve E v iss
| sbi_ld ps :
    cr_jwt v = None -> cr_cwt v = None -> ve_ldproofs E (cr_json v) = Ok ps ->
    Forall (fun p => exists kid vm sc msg sig, lp_pkid p = Ok kid /\ issuer_key resolve iss kid vm /\ ld_scheme (lp_type p) sc
              /\ ve_ldmsg E p (cr_json v) = Ok msg /\ lp_sig p = Ok sig /\ prim_ok C vm sc msg sig) ps ->
    signed_by_issuer C resolve E v iss.
Lemma resolved_key resolve kid iss vm : vdr_resolve resolve kid iss = Ok vm -> issuer_key resolve iss kid vm.
Proof. intros H. apply vdr_resolve_ok in H as (doc & x & g & H). exists doc, g, x. tauto. Qed.
Theorem C104_key_of_the_issuer : forall (C : cenv) resolve ck (E : venv) (o : copts) (data : string) (v : credential),
  co_no_proof o = false -> co_di o = None ->
  (forall pc, co_jwt_check o = Some pc -> pc = default_jwt C resolve) ->
  (forall chk, co_ld_check o = Some chk -> chk = default_ld C resolve) ->
  (forall pc, co_cwt_check o = Some pc -> pc = default_cwt C resolve ck) ->
  parse_credential E o data = Ok v ->
  exists i, vc_issuer (cr_contents v) = Some i /\ issuer_in (cr_json v) (Some i)
    /\ signed_by_issuer C resolve E v (is_id i).
Proof.
  intros C resolve ck E o data v Hp Hdi Hj Hl Hw H.
  apply C103_accepted_means_checked in H as (i & Hi & Hne & Hin & Hs); [|assumption].
  exists i. split; [assumption|]. split; [assumption|]. destruct Hs.
  - apply Hj in H0 as ->. apply C31_alg_key_agree in H3 as (kid & alg & vm & sc & Hk & Ha & HR & Hsc & Hpr & _).
    eapply sbi_jwt; eauto using resolved_key.
  - apply Hw in H1 as ->. apply C62_cwt_agree in H5 as (vm & sc & Hsc & Hpr & _ & [(Hk & HR)|(_ & He & _)]); [|contradiction].
    cbn [cw_kid cw_alg] in *. eapply sbi_cwt; eauto using resolved_key.
  - apply Hl in H1 as ->. eapply sbi_ld; eauto. rewrite Forall_forall in H3 |- *. intros p Hp'.
    destruct (H3 p Hp') as (msg & sig & H4 & H5 & H6). apply C61_ld_agree in H6 as (k & vm & sc & Hk & HR & Hsc & Hpr & _).
    exists k, vm, sc, msg, sig. split; [assumption|]. split; [now apply resolved_key|]. auto.
  - congruence.
Qed.
Example C104_example : (forall pc, co_jwt_check ex_copts = Some pc -> pc = default_jwt ex_cenv ex_resolve)
  /\ (forall chk, co_ld_check ex_copts = Some chk -> chk = default_ld ex_cenv ex_resolve)
  /\ (forall pc, co_cwt_check ex_copts = Some pc -> pc = default_cwt ex_cenv ex_resolve (fun _ => Err "x"))
  /\ co_di ex_copts = None /\ is_ok (parse_credential ex_jenv ex_copts (ex_tok "good")) = true.
Proof. repeat split; intros; try (cbn in *; congruence). Qed.
Print Assumptions C104_key_of_the_issuer.

(** ** C105  One format, one verdict: once the input is recognised as a JSON or JWT credential that is not an envelope,
    the outcome is that of its proof check; no other parser gets a chance. *)
Theorem C105_verdict_is_final : forall (E : venv) (o : copts) (data : string) (v0 : credential),
  enveloped_parser E o data = Ok None -> json_parser E o data = Ok (Some v0) -> co_no_proof o = false ->
  (forall v, check_cred_proof E o v0 <> Ok v) -> forall v, parse_credential E o data <> Ok v.
Proof.
  intros E o data v0 He Hj Hp Hc v H. unfold parse_credential in H. cbn [try_parsers] in H.
  unfold parse_with in H. rewrite He, Hj, Hp in H. cbn [bind] in H.
  apply bind_ok in H as (r & Hr & H). apply bind_ok in Hr as (v1 & Hv & _). exact (Hc _ Hv).
Qed.
(** in particular for JSON text: an object that is not an envelope is accepted only if its own proof check succeeds *)
Theorem C105_json_text : forall (E : venv) (o : copts) (data : string) (m : gomap json) ts v,
  json_text E data m -> decode_type (fld m "type") = Ok ts -> ~ In "EnvelopedVerifiableCredential" ts ->
  co_no_proof o = false -> parse_credential E o data = Ok v ->
  cr_jwt v = None /\ cr_cwt v = None /\ (co_external o = [] -> Permutation (cr_json v) m)
  /\ ~ absent m "proof".
Proof.
  intros E o data m ts v Ht Hty Hen Hp H. pose proof (enveloped_other E o _ _ _ Ht Hty Hen) as He.
  pose proof (json_parser_text E o _ _ Ht) as (ms & Hperm & Hjp).
  unfold parse_credential in H. cbn [try_parsers] in H. unfold parse_with in H. rewrite He, Hp in H. cbn [bind] in H.
  destruct (json_parser E o data) as [[v0|]| |] eqn:Ej; cbn [bind] in H; try discriminate.
  - apply bind_ok in H as (r & Hr & H). apply bind_ok in Hr as (v1 & Hv & Hr). apply bind_ok in Hr as (u & _ & Hr).
    injection Hr as <-. injection H as ->.
    symmetry in Hjp. apply bind_ok in Hjp as (c & _ & Hjp). apply bind_ok in Hjp as (ps & _ & Hjp).
    apply bind_ok in Hjp as (u' & _ & Hjp). injection Hjp as <-.
    pose proof (check_cred_same _ _ _ _ Hv) as (_ & _ & H3 & H4 & H5). cbn [cr_jwt cr_cwt cr_json] in *.
    split; [assumption|]. split; [assumption|]. split.
    + intros Hx. destruct H5 as [->|(_ & _ & Hne & _)]; [assumption|contradiction].
    + unfold check_cred_proof in Hv. cbn [cr_contents cr_jwt cr_cwt cr_json] in Hv.
      destruct (vc_issuer c); [|discriminate]. apply bind_ok in Hv as (m' & Hv & _).
      unfold check_embedded in Hv. intros Ha. apply fld_None in Ha.
      assert (Hnd : NoDup (map fst m)) by (destruct Ht as (? & ? & _ & _ & _ & ? & _); assumption).
      rewrite (fld_perm ms m) in Hv by assumption. rewrite Ha in Hv. discriminate.
  - symmetry in Hjp. apply bind_ok in Hjp as (c & _ & Hjp). apply bind_ok in Hjp as (ps & _ & Hjp).
    apply bind_ok in Hjp as (u' & _ & Hjp). discriminate.
Qed.
Example C105_example : enveloped_parser ex_jenv ex_copts (ex_tok "bad") = Ok None
  /\ (exists v0, json_parser ex_jenv ex_copts (ex_tok "bad") = Ok (Some v0)
       /\ is_ok (check_cred_proof ex_jenv ex_copts v0) = false).
Proof. split; [reflexivity|]. eexists. split; vm_compute; reflexivity. Qed.
Print Assumptions C105_verdict_is_final.
Print Assumptions C105_json_text.

(** ** C106  (refuted) ParseCredentialJSON does not check proofs: the outcome for an object that is not an envelope is the
    same whatever the checkers are, proof checking requested or not. *)
Definition proof_settings_differ (o o' : copts) : Prop :=
  co_no_validation o = co_no_validation o' /\ co_no_custom o = co_no_custom o' /\ co_schema o = co_schema o'
  /\ co_schema_of o = co_schema_of o' /\ co_mode o = co_mode o' /\ co_contexts o = co_contexts o' /\ co_types o = co_types o'.
Theorem C106_json_object_unchecked_refuted : forall (E : venv) (o o' : copts) (m : gomap json),
  proof_settings_differ o o' -> co_no_validation o = true ->
  (forall ts, decode_type (fld m "type") = Ok ts -> ~ In "EnvelopedVerifiableCredential" ts) ->
  parse_credential_json E o m = parse_credential_json E o' m.
Proof.
  intros E o o' m (H1 & _) Hv Ht. unfold parse_credential_json. destruct (decode_type (fld m "type")) as [ts| |] eqn:Et; [|reflexivity..].
  cbn [bind]. specialize (Ht ts eq_refl). apply str_in_nIn in Ht. unfold enveloped_type. rewrite Ht. rewrite <- H1, Hv. reflexivity.
Qed.
Definition ex_forged : gomap json :=
  [("@context", JStr v1_context); ("type", JStr "VerifiableCredential"); ("issuer", JStr "did:i");
   ("proof", JObj [("type", JStr "Ed25519Signature2018"); ("jws", JStr "forged")])].
Example C106_example :
  is_ok (parse_credential_json ex_jenv (with_checkers toyO None None None None) ex_forged) = true
  /\ is_ok (parse_credential (toyV0 [] [("{}", ex_forged)]) (with_checkers toyO None None None None) "{}") = false.
Proof. split; vm_compute; reflexivity. Qed.
Print Assumptions C106_json_object_unchecked_refuted.

(** ** C107  (refuted) A data-integrity proof is not tied to the issuer: it verifies whoever's method it names. *)
Definition di_cred : gomap json :=
  [("@context", JStr v1_context); ("type", JStr "VerifiableCredential"); ("issuer", JStr "did:b")].
(** signed with the key of did:a *)
Definition di_signed : gomap json :=
  match signed "did:a#k" "ecdsa-2019" "" 7 99 (JObj di_cred) with JObj m => m | _ => [] end.
Definition di_env : venv := toyV0 [] [("{}", di_signed)].
Definition di_copts : copts := with_checkers toyO None None None (Some toyV).
Theorem C107_data_integrity_issuer_refuted :
  ~ (forall E o V data v i p vm, co_no_proof o = false -> co_di o = Some V -> parse_credential E o data = Ok v ->
       vc_issuer (cr_contents v) = Some i -> fld (cr_json v) "proof" = Some (JObj p) ->
       mget p "verificationMethod" = Some (JStr vm) -> hd "" (split_on "#" vm) = is_id i).
Proof.
  intros H.
  destruct (parse_credential di_env di_copts "{}") as [v| |] eqn:Ev; [|vm_compute in Ev; discriminate..].
  assert (Hi : vc_issuer (cr_contents v) = Some {| is_id := "did:b"; is_custom := [] |}).
  { vm_compute in Ev. injection Ev as <-. reflexivity. }
  destruct (fld (cr_json v) "proof") as [[| | | | |p]|] eqn:Ep; try (vm_compute in Ev; injection Ev as <-; vm_compute in Ep; discriminate).
  assert (Hm : mget p "verificationMethod" = Some (JStr "did:a#k")).
  { vm_compute in Ev. injection Ev as <-. vm_compute in Ep. injection Ep as <-. reflexivity. }
  specialize (H di_env di_copts toyV "{}" v _ p "did:a#k" eq_refl eq_refl Ev Hi Ep Hm). discriminate H.
Qed.
(** the same for every object: once the data-integrity verifier accepts, any issuer passes *)
Theorem C107_any_issuer_refuted : forall (E : venv) (o : copts) V m c i ps (p0 : gomap json) rest,
  co_di o = Some V -> co_external o = [] ->
  fld m "proof" = Some ps -> get_proofs ps = Ok (p0 :: rest) -> mget p0 "type" = Some (JStr "DataIntegrityProof") ->
  snd (verify_proof (ve_di E) V (ve_now E) (JObj m) (di_opts o)) = Ok tt ->
  vc_issuer c = Some i ->
  let v := {| cr_json := m; cr_contents := c; cr_proofs := []; cr_jwt := None; cr_cwt := None |} in
  check_cred_proof E o v = Ok v.
Proof.
  intros E o V m c i ps p0 rest HV Hx Hf Hg Ht Hver Hi v. unfold check_cred_proof, v. cbn [cr_contents cr_jwt cr_cwt cr_json].
  rewrite Hi. unfold check_embedded. rewrite Hf, Hg, Hx. cbn [bind is_di]. rewrite Ht.
  change (String.eqb "DataIntegrityProof" "DataIntegrityProof") with true. cbn match. unfold check_di. rewrite HV, Hver. reflexivity.
Qed.
Print Assumptions C107_data_integrity_issuer_refuted.
Print Assumptions C107_any_issuer_refuted.

(** ** C108  An accepted credential carries a proof: a JWS, a COSE signature, or at least one embedded proof; provided the
    library that lists linked-data proofs does not report an empty list as success (vc-go itself does not check). *)
Theorem C108_at_least_one_proof : forall (E : venv) (o : copts) (data : string) (v : credential),
  (forall m, ve_ldproofs E m <> Ok []) -> parse_credential E o data = Ok v -> co_no_proof o = false ->
  (exists je, cr_jwt v = Some je) \/ (exists ce, cr_cwt v = Some ce)
  \/ (exists p ps, ve_ldproofs E (cr_json v) = Ok (p :: ps))
  \/ (exists V, co_di o = Some V /\ snd (verify_proof (ve_di E) V (ve_now E) (JObj (cr_json v)) (di_opts o)) = Ok tt
       /\ exists p ps, doc_proofs (JObj (cr_json v)) = p :: ps).
Proof.
  intros E o data v Hl H Hp. pose proof H as H'. apply parse_credential_ok in H as (d' & v0 & v1 & _ & _ & H1 & H2).
  unfold checked in *. rewrite Hp in *.
  assert (G : exists a, check_cred_proof E o a = Ok v) by (destruct H2 as [->|H2]; eauto). clear H1 H2 H'.
  destruct G as (a & Ha). pose proof (check_cred_same _ _ _ _ Ha) as (_ & _ & Hj & Hw & _).
  destruct (cr_jwt v) as [je|] eqn:Ej; [eauto|]. destruct (cr_cwt v) as [ce|] eqn:Ec; [eauto|].
  right. right. unfold check_cred_proof in Ha. rewrite <- Hj, <- Hw in Ha.
  destruct (vc_issuer (cr_contents a)) as [i|]; [|discriminate]. apply bind_ok in Ha as (m & Hm & Ha). injection Ha as <-.
  cbn [cr_json upd_doc]. unfold check_embedded in Hm.
  destruct (fld (cr_json a) "proof") as [pj|] eqn:Ef; [|discriminate]. apply bind_ok in Hm as (ps & Hg & Hm).
  set (m1 := match co_external o with [] => _ | _ :: _ => _ end) in Hm.
  destruct (is_di ps) eqn:Ed.
  - apply bind_ok in Hm as ([] & Hv & Hm). injection Hm as <-. unfold check_di in Hv.
    destruct (co_di o) as [V|]; [|discriminate]. right. exists V. split; [reflexivity|]. split; [assumption|].
    assert (Hmp : mget m1 "proof" = Some pj).
    { apply fld_Some in Ef. unfold m1. destruct (co_external o); [assumption|]. now rewrite mget_mset. }
    unfold doc_proofs, doc_proof. rewrite Hmp. destruct ps as [|p0 ps]; [discriminate|].
    destruct pj; try discriminate; cbn [get_proofs] in Hg; [|eexists _, _; reflexivity].
    destruct l as [|x l]; [discriminate|]. eexists _, _; reflexivity.
  - destruct (co_ld_check o) as [chk|]; [|discriminate]. apply bind_ok in Hm as (l & Hll & Hm).
    apply bind_ok in Hm as (u & _ & Hm). injection Hm as <-. left.
    destruct l as [|p l]; [now apply Hl in Hll|eauto].
Qed.
Example C108_example : exists v, parse_credential di_env di_copts "{}" = Ok v /\ co_no_proof di_copts = false
  /\ List.length (doc_proofs (JObj (cr_json v))) = 1%nat.
Proof. eexists. split; [vm_compute; reflexivity|split; reflexivity]. Qed.
Print Assumptions C108_at_least_one_proof.
