(** Property theorems: created credentials against the default schemas, and gaps of the schemas (C267-C271). *)
From Verif Require Import GoBase StatusModel PexModel StrLemmas JwtSpec DiSpec VcSpec SdSpec JwtModel SdModel SdParse DiModel VcModel VcJwt VcParse VcProofs VcProps VcProps2 VcProps5
  VpModel VpProofs VpProps JsModel JsSpec JsSchemas JsProofs JsDesc JsCred JsCred2 JsLoad JsCreate JsProps.

(** ** C267  A credential made with CreateCredential(WithProofs) under the 1.1 context, with the parts the data model asks for, has the
    1.1 shape and passes the default schema. *)
Theorem C267_created_v1_passes : forall re fmt ext custom_schema (E : tenv) (c : contents) (custom : gomap json) (ps : list (gomap json)),
  good_v1 fmt E c custom ps ->
  v1_credential fmt ["type"; "credentialSubject"; "issuer"; "issuanceDate"] (cr_json (create_with_proofs E c custom ps))
  /\ (wf_json (JObj (cr_json (create_with_proofs E c custom ps))) ->
      gojson_credential re fmt ext custom_schema SchemaV1 (cr_json (create_with_proofs E c custom ps)) = Ok tt).
Proof.
  intros re fmt ext cs E c custom ps G. pose proof (created_v1 fmt E c custom ps G) as H. split; [assumption|]. intros Hw.
  apply (C262_v1_schema re fmt ext [] _ _ Hw) in H; [|intros k; cbn; tauto]. cbn [gojson_credential]. unfold checked_against. rewrite H. reflexivity.
Qed.
Definition js_time : twrap := {| tw_time := {| gt_ns := 7; gt_off := 0 |}; tw_str := "T7" |}.
Definition js_c (ctx : string) (st : list typedid) : contents := {|
  vc_context := [ctx; "urn:c"]; vc_custom_ctx := [JObj [("x", JStr "y")]]; vc_id := "urn:1"; vc_types := ["VerifiableCredential"; "D"];
  vc_subject := [{| sj_id := "did:s"; sj_custom := [("n", JStr "v")] |}]; vc_issuer := Some {| is_id := "did:i"; is_custom := [("name", JStr "I")] |};
  vc_issued := Some js_time; vc_expired := None; vc_status := st; vc_schemas := [{| ti_id := "urn:sc"; ti_type := "X"; ti_custom := [] |}];
  vc_evidence := Some (JObj [("id", JStr "urn:e"); ("type", JStr "E")]); vc_terms := []; vc_refresh := None; vc_sdalg := None; vc_related := [] |}.
Definition js_st (n : string) : typedid := {| ti_id := "urn:" ++ n; ti_type := "S"; ti_custom := [("k", JStr n)] |}.
Lemma js_c_good st : (st = [] \/ exists t, st = [t]) -> (forall t, In t st -> js_fmt "uri" (ti_id t) = true) -> good_v1 js_fmt toyT (js_c v1_uri st) [("extra", JNull)] [].
Proof.
  intros Hs Hf. constructor; cbn.
  - exists ["urn:c"]. split; [reflexivity|]. nodups.
  - split; [intros x [<-|[]]; now eexists|]. unfold distinct. repeat constructor.
  - now left.
  - discriminate.
  - eexists. split; [reflexivity|]. split; [discriminate|reflexivity].
  - eexists. split; reflexivity.
  - discriminate.
  - assumption.
  - intros t [Ht|[[<-|[]]|Ht]]; [exact (Hf t Ht)|reflexivity|discriminate].
  - intros e [= <-]. right. left. eexists. split; [reflexivity|]. split; (eexists; split; [reflexivity|]); [now exists "urn:e"|left; now eexists].
  - intros p [].
  - intros k [<-|[]]. cbn. intuition discriminate.
Qed.
Example C267_example : good_v1 js_fmt toyT (js_c v1_uri [js_st "s"]) [("extra", JNull)] []
  /\ wf_json (JObj (cr_json (create_with_proofs toyT (js_c v1_uri [js_st "s"]) [("extra", JNull)] []))).
Proof.
  split; [apply js_c_good; [right; now eexists|]; intros t [<-|[]]; reflexivity|].
  cbn. repeat (constructor; cbn; try (intuition discriminate)).
Qed.
Print Assumptions C267_created_v1_passes.

(** ** C268  The same for the 2.0 context *)
Theorem C268_created_v2_passes : forall re fmt ext custom_schema (E : tenv) (c : contents) (custom : gomap json) (ps : list (gomap json)),
  good_v2 re E c custom ps ->
  v2_credential re ["type"; "credentialSubject"; "issuer"] (cr_json (create_with_proofs E c custom ps))
  /\ (wf_json (JObj (cr_json (create_with_proofs E c custom ps))) ->
      gojson_credential re fmt ext custom_schema SchemaV2 (cr_json (create_with_proofs E c custom ps)) = Ok tt).
Proof.
  intros re fmt ext cs E c custom ps G. pose proof (created_v2 re E c custom ps G) as H. split; [assumption|]. intros Hw.
  apply (C263_v2_schema re fmt ext [] _ _ Hw) in H; [|intros k; cbn; tauto]. cbn [gojson_credential]. unfold checked_against. rewrite H. reflexivity.
Qed.
Example C268_example : good_v2 js_re toyT (js_c v2_uri [js_st "s"; js_st "t"]) [("extra", JNull)] []
  /\ wf_json (JObj (cr_json (create_with_proofs toyT (js_c v2_uri [js_st "s"; js_st "t"]) [("extra", JNull)] []))).
Proof.
  split; [|cbn; repeat (constructor; cbn; try (intuition discriminate))].
  constructor; cbn.
  - now exists ["urn:c"].
  - now left.
  - split; [discriminate|]. intros s [<-|[]]. split; [left; discriminate|]. unfold no_key. cbn. intuition discriminate.
  - eexists. split; [reflexivity|discriminate].
  - intros t [[= <-]|[=]]. reflexivity.
  - intros e [= <-]. left. eexists. split; [reflexivity|]. split; [intros x [= <-]; now eexists|]. eexists. split; [reflexivity|]. left. now eexists.
  - intros p [].
  - intros k [<-|[]]. cbn. intuition discriminate.
Qed.
Print Assumptions C268_created_v2_passes.

(** ** C269  (refuted) "A 1.1 credential may have several statuses, as the typed contents allow": whatever the statuses, the default 1.1
    schema refuses it, so the library does not accept back what it creates; with one status it does, and the 2.0 schema accepts several. *)
Theorem C269_several_statuses_refused_refuted : forall re fmt ext custom_schema (E : tenv) (c : contents) (custom : gomap json) (ps : list (gomap json)) a b l,
  vc_status c = a :: b :: l -> wf_json (JObj (cr_json (create_with_proofs E c custom ps))) ->
  gojson_credential re fmt ext custom_schema SchemaV1 (cr_json (create_with_proofs E c custom ps)) <> Ok tt.
Proof.
  intros re fmt ext cs E c custom ps a b l Hs Hw H. apply gojson_v1 in H.
  apply (C262_v1_schema re fmt ext [] ["type"; "credentialSubject"; "issuer"; "issuanceDate"] _ Hw) in H; [|intros k; cbn; tauto].
  pose proof (v1_status_ok _ _ _ H) as Hst. unfold JsSpec.member in Hst. cbn [create_with_proofs cr_json] in Hst.
  rewrite mget_add_custom, serialize_member in Hst.
  assert (Em : VcProofs.member E c ps "credentialStatus" = Some (typed_ids_json (vc_status c))).
  { unfold VcProofs.member, VcProofs.members. destruct (v2 c); cbn [mget String.eqb Ascii.eqb Bool.eqb]; now rewrite Hs. }
  rewrite Em, Hs in Hst. destruct (Hst _ eq_refl) as [X|(m & X & _)]; discriminate.
Qed.
Example C269_example : vc_status (js_c v1_uri [js_st "s"; js_st "t"]) = [js_st "s"; js_st "t"]
  /\ is_ok (gojson_credential js_re js_fmt js_ext (fun _ _ => Ok tt) SchemaV1 (cr_json (create_with_proofs toyT (js_c v1_uri [js_st "s"; js_st "t"]) [] []))) = false
  /\ is_ok (gojson_credential js_re js_fmt js_ext (fun _ _ => Ok tt) SchemaV1 (cr_json (create_with_proofs toyT (js_c v1_uri [js_st "s"]) [] []))) = true.
Proof. repeat split; vm_compute; reflexivity. Qed.
Print Assumptions C269_several_statuses_refused_refuted.

(** ** C270  (refuted) "An accepted credential names the base context": the 1.1 schema takes an empty list of contexts, and in the
    validation mode with allowed contexts and types nothing else asks for one. *)
Definition empty_ctx (m : gomap json) : gomap json := mset m "@context" (JArr []).
Definition noctx_E : venv := with_valid (toyV0 [] [(ex_text, empty_ctx ex_raw)]) [] (gojson_credential js_re js_fmt js_ext (fun _ _ => Err "x")).
Theorem C270_empty_context_refuted :
  (forall fmt m, v1_credential fmt ["type"; "credentialSubject"; "issuer"; "issuanceDate"] m ->
     v1_credential fmt ["type"; "credentialSubject"; "issuer"; "issuanceDate"] (empty_ctx m))
  /\ exists v, parse_credential noctx_E (with_validation toyO MExtended) ex_text = Ok v /\ vc_context (cr_contents v) = [] /\ vc_custom_ctx (cr_contents v) = [].
Proof.
  split.
  - intros fmt m []. unfold empty_ctx. constructor; unfold JsSpec.member, has in *; rewrite ?mget_mset; cbn; auto.
    + eauto.
    + intros k Hk. rewrite mget_mset. specialize (v1_has k Hk). destruct (String.eqb k "@context"); eauto.
    + intros x [= <-]. right. exists []. split; [reflexivity|now left].
  - destruct (parse_credential noctx_E (with_validation toyO MExtended) ex_text) as [v| |] eqn:E; [|vm_compute in E; discriminate..].
    assert (E' := E). vm_compute in E'. injection E' as <-. eexists. split; [reflexivity|]. split; reflexivity.
Qed.
Print Assumptions C270_empty_context_refuted.

(** ** C271  (refuted) "Every proof of an accepted 1.1 presentation has the shape of a proof": only the first of several is looked at. *)
Theorem C271_later_proofs_refuted : forall re fmt ext (m : gomap json) p (l : list json), wf_json (JObj m) -> wf_json (JArr (JObj p :: l)) ->
  gojson_presentation re fmt ext false (mset m "proof" (JObj p)) = Ok tt ->
  gojson_presentation re fmt ext false (mset m "proof" (JArr (JObj p :: l))) = Ok tt.
Proof.
  intros re fmt ext m p l Hw Hl H.
  assert (W : forall x, wf_json x -> wf_json (JObj (mset m "proof" x))).
  { intros x Hx. apply wf_obj in Hw as [H1 H2]. apply wf_obj. split; [now apply mset_nodup|]. apply Forall_forall. intros [k y] Hy. cbn.
    apply mget_In_nodup in Hy; [|now apply mset_nodup]. rewrite mget_mset in Hy. destruct (String.eqb k "proof"); [congruence|].
    apply mget_In in Hy. rewrite Forall_forall in H2. apply (H2 (k, y) Hy). }
  apply wf_arr in Hl as Hl'. inversion Hl' as [|? ? Hp _]; subst.
  apply (C264_presentation_schemas re fmt ext _ (W _ Hp)) in H. apply (C264_presentation_schemas re fmt ext _ (W _ Hl)).
  destruct H. constructor; unfold JsSpec.member, has in *; rewrite ?mget_mset in *; cbn in *; auto.
  intros x [= <-]. right. eexists. split; [reflexivity|]. right. exists (JObj p), l. split; [reflexivity|].
  destruct (p1_proof_ok _ eq_refl) as [X|(k & X & _)]; [exact X|discriminate].
Qed.
Example C271_example :
  is_ok (gojson_presentation js_re js_fmt js_ext false (mset js_p "proof" (JArr [JObj [("type", JStr "P")]; JNull; JBool true; JObj []]))) = true
  /\ is_ok (gojson_presentation js_re js_fmt js_ext false (mset js_p "proof" (JArr [JObj []]))) = false.
Proof. split; vm_compute; reflexivity. Qed.
Print Assumptions C271_later_proofs_refuted.
