(** Property theorems for the embedded JSON schemas of credentials and presentations (C262-C270). *)
From Verif Require Import GoBase StatusModel PexModel StrLemmas JwtSpec DiSpec VcSpec SdSpec JwtModel SdModel SdParse DiModel VcModel VcJwt VcParse VcProofs VcProps VcProps2 VcProps5
  VpModel VpProofs VpProps JsModel JsSpec JsSchemas JsProofs JsDesc JsCred JsCred2 JsLoad.

Lemma guard_true b e : guard b e = Ok tt -> b = true.
Proof. destruct b; [reflexivity|discriminate]. Qed.
Lemma gojson_v1 re fmt ext custom m : gojson_credential re fmt ext custom SchemaV1 m = Ok tt -> js_valid re fmt ext (json_schema_loader_v1 []) (JObj m) = true.
Proof. unfold gojson_credential, checked_against. generalize (js_valid re fmt ext (json_schema_loader_v1 []) (JObj m)). intros b. apply guard_true. Qed.
Lemma gojson_v2 re fmt ext custom m : gojson_credential re fmt ext custom SchemaV2 m = Ok tt -> js_valid re fmt ext (json_schema_loader_v2 []) (JObj m) = true.
Proof. unfold gojson_credential, checked_against. generalize (js_valid re fmt ext (json_schema_loader_v2 []) (JObj m)). intros b. apply guard_true. Qed.
Lemma still_required_in ds xs k : In k (still_required ds xs) <-> In k ds /\ ~ In k xs.
Proof.
  unfold still_required. rewrite filter_In. apply and_iff_compat_l. rewrite <- (str_in_In k xs). destruct (str_in k xs); cbn; intuition congruence.
Qed.
Lemma v1_req fmt r r' m : (forall k, In k r <-> In k r') -> v1_credential fmt r m -> v1_credential fmt r' m.
Proof. intros H []. constructor; auto. intros k Hk. apply v1_has. now apply H. Qed.
Lemma v2_req fmt r r' m : (forall k, In k r <-> In k r') -> v2_credential fmt r m -> v2_credential fmt r' m.
Proof. intros H []. constructor; auto. intros k Hk. apply v2_has. now apply H. Qed.

(** ** C262  The 1.1 credential schema accepts exactly the documents of the 1.1 shape; disabling required fields removes exactly
    these fields from the required ones, and "@context" stays required. *)
Theorem C262_v1_schema : forall re fmt ext (disabled req : list string) (m : gomap json), wf_json (JObj m) ->
  (forall k, In k req <-> In k ["type"; "credentialSubject"; "issuer"; "issuanceDate"] /\ ~ In k disabled) ->
  js_valid re fmt ext (json_schema_loader_v1 disabled) (JObj m) = true <-> v1_credential fmt req m.
Proof.
  intros re fmt ext disabled req m Hw Hr. unfold js_valid, json_schema_loader_v1. rewrite cred1_accepts by (assumption || lia).
  split; apply v1_req; intros k; rewrite still_required_in, Hr; reflexivity.
Qed.
Definition js_fmt (f s : string) : bool := if String.eqb f "uri" then PexModel.contains ":" s else prefix "T" s.
Definition js_re (p s : string) : bool := prefix "T" s.
Definition js_ext (r : string) (d : json) : bool := false.
Definition js_m : gomap json :=
  [("@context", JArr [JStr v1_uri; JStr "urn:c"]); ("type", JArr [JStr "VerifiableCredential"; JStr "D"]); ("issuer", JObj [("id", JStr "did:i")]);
   ("credentialSubject", JObj [("id", JStr "did:s")]); ("issuanceDate", JStr "T7"); ("expirationDate", JNull); ("extra", JBool true);
   ("credentialStatus", JObj [("id", JStr "urn:s"); ("type", JStr "S")]); ("proof", JArr [JObj [("type", JStr "P")]; JObj [("type", JStr "Q")]])].
Lemma js_m_wf : wf_json (JObj js_m).
Proof. repeat (constructor; cbn; try (intuition discriminate)). Qed.
Example C262_example : wf_json (JObj js_m) /\ js_valid js_re js_fmt js_ext (json_schema_loader_v1 []) (JObj js_m) = true
  /\ v1_credential js_fmt ["type"; "credentialSubject"; "issuer"; "issuanceDate"] js_m
  /\ js_valid js_re js_fmt js_ext (json_schema_loader_v1 []) (JObj (mdel js_m "issuanceDate")) = false
  /\ js_valid js_re js_fmt js_ext (json_schema_loader_v1 ["issuanceDate"; "@context"]) (JObj (mdel js_m "issuanceDate")) = true
  /\ js_valid js_re js_fmt js_ext (json_schema_loader_v1 ["issuanceDate"; "@context"]) (JObj (mdel js_m "@context")) = false
  /\ js_valid js_re js_fmt js_ext (json_schema_loader_v1 []) (JObj (mset js_m "issuer" (JStr "me"))) = false.
Proof.
  split; [apply js_m_wf|]. split; [vm_compute; reflexivity|]. split.
  - rewrite <- (C262_v1_schema js_re js_fmt js_ext [] _ js_m js_m_wf); [vm_compute; reflexivity|]. intros k. cbn. tauto.
  - repeat split; vm_compute; reflexivity.
Qed.
Print Assumptions C262_v1_schema.

(** ** C263  The same for the 2.0 credential schema *)
Theorem C263_v2_schema : forall re fmt ext (disabled req : list string) (m : gomap json), wf_json (JObj m) ->
  (forall k, In k req <-> In k ["type"; "credentialSubject"; "issuer"] /\ ~ In k disabled) ->
  js_valid re fmt ext (json_schema_loader_v2 disabled) (JObj m) = true <-> v2_credential re req m.
Proof.
  intros re fmt ext disabled req m Hw Hr. unfold js_valid, json_schema_loader_v2. rewrite cred2_accepts by (assumption || lia).
  split; apply v2_req; intros k; rewrite still_required_in, Hr; reflexivity.
Qed.
Definition js_m2 : gomap json :=
  [("@context", JArr [JStr "urn:c"; JStr v2_uri]); ("type", JStr "VerifiableCredential"); ("issuer", JStr "me");
   ("credentialSubject", JArr [JObj [("id", JStr "did:s")]; JObj [("x", JNull)]]); ("validFrom", JStr "T7");
   ("evidence", JObj [("type", JArr [JStr "E"])]); ("termsOfUse", JArr [JObj [("type", JStr "X"); ("id", JStr "urn:x")]]);
   ("proof", JObj [("type", JStr "P"); ("proofPurpose", JStr "a"); ("verificationMethod", JStr "did:i#k")])].
Lemma js_m2_wf : wf_json (JObj js_m2).
Proof. repeat (constructor; cbn; try (intuition discriminate)). Qed.
Example C263_example : wf_json (JObj js_m2) /\ js_valid js_re js_fmt js_ext (json_schema_loader_v2 []) (JObj js_m2) = true
  /\ v2_credential js_re ["type"; "credentialSubject"; "issuer"] js_m2
  /\ js_valid js_re js_fmt js_ext (json_schema_loader_v2 []) (JObj (mset js_m2 "credentialSubject" (JObj []))) = false
  /\ js_valid js_re js_fmt js_ext (json_schema_loader_v2 []) (JObj (mset js_m2 "@context" (JStr v2_uri))) = false
  /\ js_valid js_re js_fmt js_ext (json_schema_loader_v2 []) (JObj (mset js_m2 "validUntil" JNull)) = false
  /\ js_valid js_re js_fmt js_ext (json_schema_loader_v2 ["issuer"]) (JObj (mdel js_m2 "issuer")) = true.
Proof.
  split; [apply js_m2_wf|]. split; [vm_compute; reflexivity|]. split.
  - rewrite <- (C263_v2_schema js_re js_fmt js_ext [] _ js_m2 js_m2_wf); [vm_compute; reflexivity|]. intros k. cbn. tauto.
  - repeat split; vm_compute; reflexivity.
Qed.
Print Assumptions C263_v2_schema.

(** ** C264  The presentation schemas accept exactly the documents of the shapes of their data models. *)
Theorem C264_presentation_schemas : forall re fmt ext (m : gomap json), wf_json (JObj m) ->
  (gojson_presentation re fmt ext false m = Ok tt <-> v1_presentation fmt m)
  /\ (gojson_presentation re fmt ext true m = Ok tt <-> v2_presentation re m).
Proof.
  intros re fmt ext m Hw. unfold gojson_presentation, checked_against, js_valid. split.
  - rewrite <- (pres1_accepts re fmt ext m (20 + 10 * depth (JObj m)) Hw) by lia. destruct (ev _ _ _ _ _ _ _); cbn; split; congruence.
  - rewrite <- (pres2_accepts re fmt ext m (20 + 10 * depth (JObj m)) Hw) by lia. destruct (ev _ _ _ _ _ _ _); cbn; split; congruence.
Qed.
Definition js_p : gomap json :=
  [("@context", JArr [JStr v1_uri]); ("type", JArr [JStr "X"; JStr "VerifiablePresentation"]); ("verifiableCredential", JArr [JStr "jwt"]);
   ("proof", JArr [JObj [("type", JStr "P")]]); ("holder", JStr "did:h")].
Definition js_p2 : gomap json :=
  [("@context", JArr [JStr v2_uri]); ("type", JStr "VerifiablePresentation"); ("verifiableCredential", JObj []);
   ("proof", JArr [JObj [("type", JStr "P"); ("proofPurpose", JStr "a"); ("verificationMethod", JStr "did:i#k"); ("created", JStr "T1")]])].
Example C264_example : wf_json (JObj js_p) /\ wf_json (JObj js_p2) /\ v1_presentation js_fmt js_p /\ v2_presentation js_re js_p2
  /\ is_ok (gojson_presentation js_re js_fmt js_ext true js_p) = false /\ is_ok (gojson_presentation js_re js_fmt js_ext false js_p2) = false.
Proof.
  assert (W1 : wf_json (JObj js_p)) by (repeat (constructor; cbn; try (intuition discriminate))).
  assert (W2 : wf_json (JObj js_p2)) by (repeat (constructor; cbn; try (intuition discriminate))).
  split; [exact W1|]. split; [exact W2|]. split; [|split; [|split; vm_compute; reflexivity]].
  - apply (C264_presentation_schemas js_re js_fmt js_ext js_p W1). vm_compute. reflexivity.
  - apply (C264_presentation_schemas js_re js_fmt js_ext js_p2 W2). vm_compute. reflexivity.
Qed.
Print Assumptions C264_presentation_schemas.

(** ** C265  A credential accepted as JSON (not as a JWT) with schema validation and no custom schema has the shape of its data model:
    2.0 when that base context comes first, 1.1 otherwise. *)
Definition no_own_schema (o : copts) (c : contents) : Prop :=
  co_no_custom o = true
  \/ co_schema o = "" /\ co_schema_of o = None /\ (forall t, In t (vc_schemas c) -> ti_type t <> "JsonSchemaValidator2018" /\ ti_type t <> "JsonSchema").
Theorem C265_accepted_credentials_have_the_shape : forall re fmt ext custom (E : venv) (o : copts) (data : string) (v : credential),
  ve_valid E = gojson_credential re fmt ext custom ->
  parse_credential E o data = Ok v -> co_no_validation o = false -> co_mode o <> MJsonLD -> cr_jwt v = None ->
  no_own_schema o (cr_contents v) -> co_external o = [] \/ co_no_proof o = true -> wf_json (JObj (cr_json v)) ->
  (forall l, vc_context (cr_contents v) = v2_uri :: l -> v2_credential re ["type"; "credentialSubject"; "issuer"] (cr_json v))
  /\ ((forall l, vc_context (cr_contents v) <> v2_uri :: l) -> v1_credential fmt ["type"; "credentialSubject"; "issuer"; "issuanceDate"] (cr_json v)).
Proof.
  intros re fmt ext custom E o data v Hv H Hn Hm Hj Ho Hx Hw.
  destruct (C119_validation_enforced E o data v H Hn Hj) as (m & Hval & _ & Hsame). rewrite (Hsame Hx) in *. clear Hsame.
  assert (Hs : schema_valid E o (cr_contents v) m).
  { unfold valid_for in Hval. destruct (co_mode o); intuition congruence. }
  destruct Hs as (s & Hf & Hs). rewrite Hv in Hs.
  assert (Hd : default_schema (cr_contents v) s).
  { destruct Ho as [Ho|(Ho1 & Ho2 & Ho3)].
    - destruct Hf; congruence || assumption.
    - destruct Hf as [|? ?|? ? ? ?|a t b s ? ? ? Hl Ht| ]; try congruence; try assumption. exfalso.
      assert (Hi : In t (vc_schemas (cr_contents v))) by (rewrite Hl; apply in_or_app; right; now left). destruct (Ho3 _ Hi). destruct Ht; congruence. }
  destruct Hd as [l Hl|Hl].
  - split; [|intros Hc; now destruct (Hc l)]. intros _ _. apply (C263_v2_schema re fmt ext [] _ m Hw); [intros k; cbn; tauto|].
    exact (gojson_v2 _ _ _ _ _ Hs).
  - split; [intros l Hc; now destruct (Hl l)|]. intros _. apply (C262_v1_schema re fmt ext [] _ m Hw); [intros k; cbn; tauto|].
    exact (gojson_v1 _ _ _ _ _ Hs).
Qed.
Definition js_E : venv := with_valid ex_venv [] (gojson_credential js_re js_fmt js_ext (fun _ _ => Err "x")).
Example C265_example : exists v, parse_credential js_E (with_validation toyO MCombined) ex_text = Ok v
  /\ cr_jwt v = None /\ no_own_schema (with_validation toyO MCombined) (cr_contents v) /\ wf_json (JObj (cr_json v))
  /\ vc_context (cr_contents v) <> [] /\ (forall l, vc_context (cr_contents v) <> v2_uri :: l).
Proof.
  destruct (parse_credential js_E (with_validation toyO MCombined) ex_text) as [v| |] eqn:E; [|vm_compute in E; discriminate..].
  assert (E' := E). vm_compute in E'. injection E' as <-. eexists. split; [exact E|]. clear E. split; [reflexivity|]. split.
  - right. split; [reflexivity|]. split; [reflexivity|]. cbn. intros t [].
  - split; [repeat (constructor; cbn; try (intuition discriminate))|]. split; [cbn; discriminate|cbn; discriminate].
Qed.
Print Assumptions C265_accepted_credentials_have_the_shape.

(** ** C266  An accepted presentation, in whatever form it came, has the shape of the data model its first context names. *)
Theorem C266_accepted_presentations_have_the_shape : forall re fmt ext (P : vpenv) (o : vopts) (data : string) (p : presentation),
  pe_valid P = gojson_presentation re fmt ext -> parse_presentation_vp P o data = Ok p ->
  exists m, vp_object (pe_v P) data m p /\ (wf_json (JObj m) ->
    (first_context m v1_uri /\ v1_presentation fmt m) \/ (first_context m v2_uri /\ v2_presentation re m)).
Proof.
  intros re fmt ext P o data p Hv H. destruct (C145_validation_enforced P o data p H) as (m & Ho & _ & Hs & _). exists m. split; [assumption|].
  intros Hw. rewrite Hv in Hs. destruct (C264_presentation_schemas re fmt ext m Hw) as [H1 H2]. destruct Hs as [[Hf Hs]|[Hf Hs]]; [left|right]; (split; [assumption|]); intuition.
Qed.
Definition js_P : vpenv := {| pe_v := pe_v ex_P; pe_valid := gojson_presentation js_re js_fmt js_ext; pe_jsonld := pe_jsonld ex_P; pe_marshal := pe_marshal ex_P |}.
Example C266_example : is_ok (parse_presentation_vp js_P ex_vopts (ex_tok "vp")) = true.
Proof. vm_compute. reflexivity. Qed.
Print Assumptions C266_accepted_presentations_have_the_shape.
