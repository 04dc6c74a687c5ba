(** Property theorems for credentials: validation and its gaps (C119-C127). *)
From Coq Require Import Permutation.
From Verif Require Import GoBase Base64 StatusModel PexModel StrLemmas JwtSpec DiSpec VcSpec JwtModel SdSpec SdModel SdParse DiModel
  VcModel VcJwt VcParse VcProofs VcView VcText VcMod VcSecure VcJwtProofs VcPanic VcSign VcSignProofs DiProps JwtProofs VcProps VcProps2 VcProps3 VcProps4.

(** ** C119  With validation on, an accepted credential that is not a JWT satisfies the configured validation. *)
(** the schema a credential is measured against *)
Inductive default_schema (c : contents) : schema_doc -> Prop :=
| ds_2 l : vc_context c = v2_context :: l -> default_schema c SchemaV2
| ds_1 : (forall l, vc_context c <> v2_context :: l) -> default_schema c SchemaV1.
Definition schema_type (t : typedid) : Prop := ti_type t = "JsonSchemaValidator2018" \/ ti_type t = "JsonSchema".
Inductive schema_for (E : venv) (o : copts) (c : contents) : schema_doc -> Prop :=
| sf_default s : co_no_custom o = true -> default_schema c s -> schema_for E o c s
| sf_option : co_no_custom o = false -> co_schema o <> "" -> schema_for E o c (SchemaText (co_schema o))
| sf_builder f : co_no_custom o = false -> co_schema o = "" -> co_schema_of o = Some f -> schema_for E o c (SchemaText (f c))
| sf_listed a t b s : co_no_custom o = false -> co_schema o = "" -> co_schema_of o = None -> vc_schemas c = (a ++ t :: b)%list ->
    schema_type t -> (forall x, In x a -> ~ schema_type x) -> ve_schema E (ti_id t) = Ok s -> schema_for E o c (SchemaText s)
| sf_none s : co_no_custom o = false -> co_schema o = "" -> co_schema_of o = None ->
    (forall x, In x (vc_schemas c) -> ~ schema_type x) -> default_schema c s -> schema_for E o c s.
Definition schema_valid (E : venv) (o : copts) (c : contents) (m : gomap json) : Prop :=
  exists s, schema_for E o c s /\ ve_valid E s m = Ok tt.
Definition jsonld_valid (E : venv) (o : copts) (c : contents) (m : gomap json) : Prop :=
  exists b l, vc_context c = b :: l /\ (b = v1_context \/ b = v2_context) /\ ve_jsonld E o b m = Ok tt.
(** what each validation mode promises *)
Definition valid_for (E : venv) (o : copts) (c : contents) (m : gomap json) : Prop :=
  match co_mode o with
  | MCombined => schema_valid E o c m /\ jsonld_valid E o c m
  | MJsonLD => jsonld_valid E o c m
  | MBase => vc_types c = ["VerifiableCredential"] /\ (exists x, vc_context c = [x] /\ In x (co_contexts o)) /\ schema_valid E o c m
  | MExtended => incl (vc_context c) (co_contexts o) /\ incl (vc_types c) (co_types o) /\ schema_valid E o c m
  end.
Lemma default_schema_ok c : default_schema c (if is_base_context (vc_context c) v2_context then SchemaV2 else SchemaV1).
Proof.
  unfold is_base_context. destruct (vc_context c) as [|x l] eqn:E; [right; intros l; rewrite E; discriminate|].
  destruct (String.eqb_spec x v2_context) as [->|]; [now apply (ds_2 _ l)|right; intros k; rewrite E; congruence].
Qed.
Lemma schema_type_in t : str_in (ti_type t) json_schema_types = true <-> schema_type t.
Proof. rewrite str_in_In. unfold schema_type. cbn. intuition congruence. Qed.
Lemma schema_type_nin t : str_in (ti_type t) json_schema_types = false <-> ~ schema_type t.
Proof. rewrite <- schema_type_in. destruct (str_in _ _); intuition congruence. Qed.
Lemma custom_schema_ok E dflt : forall l s, custom_schema E l dflt = Ok s ->
  (exists a t b x, l = (a ++ t :: b)%list /\ schema_type t /\ (forall y, In y a -> ~ schema_type y) /\ ve_schema E (ti_id t) = Ok x /\ s = SchemaText x)
  \/ ((forall y, In y l -> ~ schema_type y) /\ s = dflt).
Proof.
  induction l as [|t l IH]; intros s H; cbn [custom_schema] in H.
  - right. split; [intros y []|congruence].
  - destruct (str_in (ti_type t) json_schema_types) eqn:Et.
    + apply schema_type_in in Et. destruct (ve_schema E (ti_id t)) as [x| |] eqn:Ex; try discriminate. injection H as <-.
      left. exists [], t, l, x. repeat split; auto.
    + apply schema_type_nin in Et. destruct (IH s H) as [(a & u & b & x & -> & H1 & H2 & H3 & H4)|[H1 H2]].
      * left. exists (t :: a), u, b, x. repeat split; auto. intros y [<-|Hy]; auto.
      * right. split; [intros y [<-|Hy]; auto|assumption].
Qed.
Lemma validate_schema_ok E m c o : validate_schema E m c o = Ok tt -> schema_valid E o c m.
Proof.
  unfold validate_schema. intros H. apply bind_ok in H as (s & Hs & H). exists s. split; [|assumption].
  unfold get_schema in Hs. destruct (co_no_custom o) eqn:En; [injection Hs as <-; apply sf_default; auto using default_schema_ok|].
  destruct (String.eqb_spec (co_schema o) "") as [Ez|]; cbn [negb] in Hs; [|injection Hs as <-; now apply sf_option].
  destruct (co_schema_of o) as [f|] eqn:Ef; [injection Hs as <-; now apply sf_builder|].
  apply custom_schema_ok in Hs as [(a & t & b & x & H1 & H2 & H3 & H4 & ->)|[H1 ->]]; [eapply sf_listed; eauto|apply sf_none; auto using default_schema_ok].
Qed.
Lemma validate_jsonld_ok E m c o : validate_jsonld E m c o = Ok tt -> jsonld_valid E o c m.
Proof.
  unfold validate_jsonld, get_base_context. intros H. apply bind_ok in H as (b & Hb & H). destruct (vc_context c) as [|x l] eqn:Ec; [discriminate|].
  destruct (String.eqb_spec x v1_context) as [->|]; cbn [orb] in Hb; [injection Hb as <-; exists v1_context, l; auto|].
  destruct (String.eqb_spec x v2_context) as [->|]; [injection Hb as <-; exists v2_context, l; auto|discriminate].
Qed.
Lemma validate_credential_ok E c m o : validate_credential E c m o = Ok tt -> valid_for E o c m.
Proof.
  unfold validate_credential, valid_for. destruct (co_mode o); intros H.
  - apply bind_ok in H as ([] & H1 & H2). split; [now apply validate_schema_ok|now apply validate_jsonld_ok].
  - now apply validate_jsonld_ok.
  - unfold validate_base in H. apply bind_ok in H as ([] & H1 & H). apply bind_ok in H as ([] & H2 & H).
    destruct (vc_types c) as [|t ts]; [discriminate|]. destruct ts; [|discriminate]. destruct (vc_context c) as [|x xs]; [discriminate|]. destruct xs; [|discriminate].
    destruct (String.eqb t "VerifiableCredential") eqn:Et; [apply String.eqb_eq in Et; subst t|discriminate H1].
    destruct (str_in x (co_contexts o)) eqn:Ex; [|discriminate]. apply str_in_In in Ex.
    split; [reflexivity|]. split; [eauto|now apply validate_schema_ok].
  - unfold validate_extended in H. apply bind_ok in H as ([] & H1 & H). apply bind_ok in H as ([] & H2 & H).
    assert (G : forall l k e, guard (forallb (fun x => str_in x k) l) e = Ok tt -> incl l k).
    { intros l k e Hg. destruct (forallb _ l) eqn:Ef; [|discriminate]. rewrite forallb_forall in Ef. intros x Hx. apply str_in_In. auto. }
    split; [eapply G; eassumption|]. split; [eapply G; eassumption|now apply validate_schema_ok].
Qed.
Theorem C119_validation_enforced : forall (E : venv) (o : copts) (data : string) (v : credential),
  parse_credential E o data = Ok v -> co_no_validation o = false -> cr_jwt v = None ->
  exists m, valid_for E o (cr_contents v) m
    /\ (forall k, k <> "@context" -> mget m k = mget (cr_json v) k)
    /\ (co_external o = [] \/ co_no_proof o = true -> cr_json v = m).
Proof.
  intros E o data v H Hv Hj. apply parse_credential_ok in H as (d & v0 & v1 & _ & Hp & H1 & H2).
  assert (Hsame : forall a b, checked E o a b -> cr_jwt b = None -> cr_jwt a = None /\ cr_contents b = cr_contents a
     /\ (forall k, k <> "@context" -> mget (cr_json b) k = mget (cr_json a) k) /\ (co_external o = [] \/ co_no_proof o = true -> cr_json b = cr_json a)).
  { intros a b Hc Hb. pose proof (checked_same _ _ _ _ Hc) as Hsc. inversion Hsc as [x y A1 A2 A3 A4 A5]; subst x y.
    split; [congruence|]. split; [assumption|]. split.
    - intros k Hk. destruct A5 as [->|(_ & _ & j & ->)]; [reflexivity|]. rewrite mget_mset. now destruct (String.eqb_spec k "@context").
    - intros [He|He]; [now rewrite (checked_no_ext _ _ _ _ He Hc)|]. unfold checked in Hc. rewrite He in Hc. now subst b. }
  assert (Hall : cr_jwt v0 = None /\ cr_contents v = cr_contents v0
     /\ (forall k, k <> "@context" -> mget (cr_json v0) k = mget (cr_json v) k) /\ (co_external o = [] \/ co_no_proof o = true -> cr_json v = cr_json v0)).
  { destruct H2 as [->|H2].
    - destruct (Hsame _ _ H1 Hj) as (B1 & B2 & B3 & B4). repeat split; auto. intros k Hk. symmetry; auto.
    - destruct (Hsame _ _ H2 Hj) as (B1 & B2 & B3 & B4). destruct (Hsame _ _ H1 B1) as (D1 & D2 & D3 & D4).
      repeat split; auto; [congruence|intros k Hk; rewrite B3, D3; auto|intros Hx; rewrite B4, D4; auto]. }
  destruct Hall as (Hj0 & Hc0 & Ho & He). exists (cr_json v0). split; [|auto]. rewrite Hc0. apply validate_credential_ok.
  destruct Hp as [Hp|Hp].
  - unfold json_parser in Hp. apply bind_ok in Hp as (hm & _ & Hp). destruct hm as [[h m]|]; [|discriminate].
    apply bind_ok in Hp as (c & Hc & Hp). apply bind_ok in Hp as (ps & _ & Hp). apply bind_ok in Hp as ([] & Hx & Hp).
    apply bind_ok in Hp as (ds & _ & Hp). injection Hp as <-. cbn [cr_jwt] in Hj0. destruct (jv_jws _); [discriminate|].
    rewrite Hv in Hx. exact Hx.
  - unfold cbor_parser in Hp. apply bind_ok in Hp as (dm & _ & Hp). destruct dm as [[raw msg]|]; [|discriminate].
    apply bind_ok in Hp as (m & _ & Hp). apply bind_ok in Hp as (c & Hc & Hp). apply bind_ok in Hp as ([] & Hx & Hp).
    injection Hp as <-. rewrite Hv in Hx. exact Hx.
Qed.
(** example: options with validation, a validator that wants "issuanceDate" *)
Definition with_validation (o : copts) (mode : vmode) : copts :=
  {| co_jwt_check := co_jwt_check o; co_ld_check := co_ld_check o; co_cwt_check := co_cwt_check o; co_no_proof := co_no_proof o;
     co_no_validation := false; co_no_related := co_no_related o; co_no_custom := false; co_schema := co_schema o;
     co_schema_of := co_schema_of o; co_mode := mode; co_contexts := [v1_context]; co_types := ["VerifiableCredential"; "D"];
     co_strict := co_strict o; co_ld_types := co_ld_types o; co_external := co_external o; co_di := co_di o;
     co_di_purpose := co_di_purpose o; co_di_domain := co_di_domain o; co_di_challenge := co_di_challenge o |}.
Definition with_valid (E : venv) (schemas : gomap string) (valid : schema_doc -> gomap json -> res unit) : venv := {|
  ve_time := ve_time E; ve_jwt := ve_jwt E; ve_members := ve_members E; ve_obj := ve_obj E; ve_sd := ve_sd E; ve_order := ve_order E;
  ve_cose := ve_cose E; ve_hex := ve_hex E; ve_cbor := ve_cbor E;
  ve_schema := fun u => match mget schemas u with Some s => Ok s | None => Err "x" end; ve_valid := valid;
  ve_jsonld := ve_jsonld E; ve_ext := ve_ext E; ve_ldproofs := ve_ldproofs E; ve_ldmsg := ve_ldmsg E; ve_di := ve_di E;
  ve_now := ve_now E; ve_related := ve_related E |}.
(** a toy validator: the schema text is the name of a member that is required *)
Definition toy_valid (s : schema_doc) (m : gomap json) : res unit :=
  let k := match s with SchemaV1 => "issuanceDate" | SchemaV2 => "validFrom" | SchemaText t => t end in
  guard (mhas m k) "invalid".
Example C119_example : forall mode, exists v,
  parse_credential (with_valid ex_venv [] toy_valid) (with_validation toyO mode) ex_text = (if match mode with MBase => true | _ => false end then Err "violated type constraint" else Ok v)
  /\ cr_jwt v = None /\ vc_types (cr_contents v) = ["VerifiableCredential"; "D"]
  /\ is_ok (parse_credential (with_valid ex_venv [] (fun _ _ => Err "no")) (with_validation toyO mode) ex_text) = match mode with MJsonLD => true | _ => false end.
Proof.
  intros mode. destruct (parse_credential ex_venv toyO ex_text) as [v| |] eqn:E; [|vm_compute in E; discriminate|vm_compute in E; discriminate].
  vm_compute in E. injection E as <-. eexists. split; [destruct mode; vm_compute; reflexivity|].
  split; [reflexivity|]. split; [reflexivity|]. destruct mode; vm_compute; reflexivity.
Qed.
Print Assumptions C119_validation_enforced.

(** ** C120  (refuted) "With validation on, every accepted credential satisfies the configured validation."  JWT credentials
    are never validated, whatever the options. *)
Definition refusing : venv := with_valid ex_jenv [] (fun _ _ => Err "no").
Definition strict_opts : copts := with_validation ex_copts MCombined.
Definition unval_cred : credential :=
  Eval vm_compute in match parse_credential refusing strict_opts (ex_tok "good") with Ok v => v | _ => sg_cred end.
Lemma unval_parsed : parse_credential refusing strict_opts (ex_tok "good") = Ok unval_cred.
Proof. vm_compute. reflexivity. Qed.
Theorem C120_jwt_validated_refuted : ~ forall (E : venv) (o : copts) (data : string) (v : credential),
  parse_credential E o data = Ok v -> co_no_validation o = false -> exists m, valid_for E o (cr_contents v) m.
Proof.
  intros H. destruct (H _ _ _ _ unval_parsed eq_refl) as (m & (s & _ & Hs) & _). discriminate Hs.
Qed.
Print Assumptions C120_jwt_validated_refuted.

(** ** C121  (refuted) "Every credentialSchema of a supported type that an accepted JSON credential lists accepts it."
    Only the first supported one is consulted. *)
Definition two_schemas : gomap json :=
  [("@context", JArr [JStr v1_context]); ("type", JArr [JStr "VerifiableCredential"]); ("issuer", JStr "did:i");
   ("credentialSchema", JArr [JObj [("id", JStr "urn:a"); ("type", JStr "JsonSchema")]; JObj [("id", JStr "urn:b"); ("type", JStr "JsonSchema")]]);
   ("credentialSubject", JObj [("id", JStr "did:s")])].
Definition ts_env : venv := with_valid (toyV0 [] [(ex_text, two_schemas)]) [("urn:a", "issuer"); ("urn:b", "evidence")] toy_valid.
Definition ts_cred : credential :=
  Eval vm_compute in match parse_credential ts_env (with_validation toyO MCombined) ex_text with Ok v => v | _ => sg_cred end.
Lemma ts_parsed : parse_credential ts_env (with_validation toyO MCombined) ex_text = Ok ts_cred.
Proof. vm_compute. reflexivity. Qed.
Theorem C121_every_schema_enforced_refuted : ~ forall (E : venv) (o : copts) (data : string) (v : credential) t,
  parse_credential E o data = Ok v -> co_no_validation o = false -> co_no_custom o = false -> co_mode o = MCombined ->
  co_schema o = "" -> co_schema_of o = None -> co_external o = [] -> cr_jwt v = None ->
  In t (vc_schemas (cr_contents v)) -> schema_type t ->
  exists s, ve_schema E (ti_id t) = Ok s /\ ve_valid E (SchemaText s) (cr_json v) = Ok tt.
Proof.
  intros H. destruct (H ts_env (with_validation toyO MCombined) ex_text ts_cred {| ti_id := "urn:b"; ti_type := "JsonSchema"; ti_custom := [] |}
    ts_parsed eq_refl eq_refl eq_refl eq_refl eq_refl eq_refl eq_refl) as (s & Hs & Hv).
  - vm_compute. tauto.
  - now right.
  - vm_compute in Hs. assert (E : s = "evidence") by congruence. subst s. vm_compute in Hv. discriminate Hv.
Qed.
Print Assumptions C121_every_schema_enforced_refuted.

(** ** C122  (refuted) "The data URL of an accepted enveloping credential has no encoding parameter (such as ;base64)."
    The parameter is dropped: whatever it says, the text after the comma is taken as the token. *)
Definition enc_text : string := String brace "enc".
Definition enc_env : venv := toyV0 [(ex_tok "good", ex_jws "sig:m")]
  [("P", un_claims); ("{}", []); (enc_text, [("type", JStr enveloped_type); ("id", JStr (new_data_url vc_media_jwt "base64" (ex_tok "good")))])].
Theorem C122_data_url_encoding_refuted : ~ forall (E : venv) (o : copts) (data : string) (v : credential) m url media enc d,
  parse_credential E o data = Ok v -> parse_json E data = Some m -> mget m "type" = Some (JStr "EnvelopedVerifiableCredential") ->
  mget m "id" = Some (JStr url) -> parse_data_url url = Ok (media, enc, d) -> enc = "".
Proof.
  intros H.
  assert (E : "base64" = "") by (eapply (H enc_env ex_copts enc_text un_cred _ _ vc_media_jwt "base64" (ex_tok "good")); [vm_compute; reflexivity|vm_compute; reflexivity|vm_compute; reflexivity|vm_compute; reflexivity|vm_compute; reflexivity]).
  discriminate E.
Qed.
Print Assumptions C122_data_url_encoding_refuted.

(** ** C123  (refuted) "A credential made by CreateUnsecuredJWTVC and the credential parsed from its token agree on being a
    JWT credential."  Creation records a JWT envelope, parsing the same token (proof check off) does not. *)
Definition makes_unsecured (E : venv) (S : senv) : Prop :=
  forall claims t, NoDup (map fst claims) -> se_unsec S claims = Ok t ->
    split_on tilde t = [t] /\ ve_members E t = None /\ is_jws (ve_obj E) t = false /\ is_jwt_unsecured (ve_obj E) t = true
    /\ exists j ms, de_jws (ve_jwt E) t None = Ok j /\ ve_members E (jws_payload j) = Some ms /\ Permutation ms claims.
Definition us_tok : string := ex_seg ++ "." ++ ex_seg ++ ".".
Definition us_senv : senv := {|
  se_alg := fun _ => Ok "EdDSA"; se_jws := fun _ _ _ => Err "x";
  se_unsec := fun c => if json_eqb (JObj c) (JObj (sg_claims false)) then Ok us_tok else Err "x";
  se_cose := fun _ _ _ => Err "x"; se_hex := fun s => s |}.
Definition us_env : venv := toyV0 [(us_tok, {| jws_headers := [("alg", JStr "none")]; jws_payload := "P"; jws_input := ""; jws_sig := "" |})]
  [("P", sg_claims false); ("{}", [])].
Theorem C123_unsecured_envelope_refuted : ~ forall (E : venv) (S : senv) (o : copts) (v v' w : credential) je,
  create_unsecured_jwt S v false = Ok v' -> makes_unsecured E S -> cr_jwt v' = Some je ->
  parse_credential E o (je_jwt je) = Ok w -> (exists je', cr_jwt w = Some je').
Proof.
  intros H. destruct (create_unsecured_jwt us_senv sg_cred false) as [v'| |] eqn:E1; [|vm_compute in E1; discriminate|vm_compute in E1; discriminate].
  destruct (parse_credential us_env toyO us_tok) as [w| |] eqn:E2; [|vm_compute in E2; discriminate|vm_compute in E2; discriminate].
  specialize (H us_env us_senv toyO sg_cred v' w (envelope us_tok []) E1).
  assert (M : makes_unsecured us_env us_senv).
  { intros claims t Hn. cbn [us_senv se_unsec]. destruct (json_eqb _ _) eqn:E; [|discriminate]. apply json_eqb_eq in E. injection E as ->.
    intros [= <-]. repeat split; try (vm_compute; reflexivity). do 2 eexists. split; [vm_compute; reflexivity|]. split; [vm_compute; reflexivity|].
    apply Permutation_refl. }
  assert (J : cr_jwt v' = Some (envelope us_tok [])) by (vm_compute in E1; injection E1 as <-; reflexivity).
  destruct (H M J E2) as (je' & Hj). vm_compute in E2. injection E2 as <-. discriminate Hj.
Qed.
Print Assumptions C123_unsecured_envelope_refuted.

(** ** C124  Parsing does not look at the clock (unless a data integrity suite is configured): in particular neither
    expiry nor a future issuance date is checked. *)
Definition with_now (E : venv) (t : gtime) : venv := {|
  ve_time := ve_time E; ve_jwt := ve_jwt E; ve_members := ve_members E; ve_obj := ve_obj E; ve_sd := ve_sd E; ve_order := ve_order E;
  ve_cose := ve_cose E; ve_hex := ve_hex E; ve_cbor := ve_cbor E; ve_schema := ve_schema E; ve_valid := ve_valid E;
  ve_jsonld := ve_jsonld E; ve_ext := ve_ext E; ve_ldproofs := ve_ldproofs E; ve_ldmsg := ve_ldmsg E; ve_di := ve_di E;
  ve_now := t; ve_related := ve_related E |}.
Lemma now_check E t o v : co_di o = None -> check_cred_proof (with_now E t) o v = check_cred_proof E o v.
Proof.
  intros H. unfold check_cred_proof. destruct (vc_issuer (cr_contents v)) as [iss|]; [|reflexivity]. destruct (cr_jwt v); [reflexivity|]. destruct (cr_cwt v); [reflexivity|].
  assert (G : forall m i, check_embedded (with_now E t) o m i = check_embedded E o m i).
  { intros m i. unfold check_embedded. destruct (fld m "proof"); [|reflexivity]. destruct (get_proofs j) as [ps| |]; cbn [bind]; [|reflexivity..].
    unfold check_di. rewrite H. cbn [with_now ve_ext ve_ldproofs].
    assert (L : forall chk m l, verify_ld (with_now E t) chk m i l = verify_ld E chk m i l).
    { intros chk m' l. induction l as [|p l IH]; [reflexivity|]. cbn [verify_ld]. rewrite IH. reflexivity. }
    destruct (is_di ps); [reflexivity|]. destruct (co_ld_check o); [|reflexivity].
    match goal with |- (let* l := ?x in _) = _ => destruct x; cbn [bind]; [now rewrite L|reflexivity..] end. }
  now rewrite G.
Qed.
Lemma now_validate E t o c m : validate_credential (with_now E t) c m o = validate_credential E c m o.
Proof.
  assert (S : forall l d, custom_schema (with_now E t) l d = custom_schema E l d).
  { induction l as [|x l IH]; intros d; [reflexivity|]. cbn [custom_schema]. now rewrite IH. }
  assert (G : get_schema (with_now E t) c o = get_schema E c o) by (unfold get_schema; now rewrite S).
  assert (V : validate_schema (with_now E t) m c o = validate_schema E m c o) by (unfold validate_schema; now rewrite G).
  unfold validate_credential, validate_base, validate_extended. rewrite V. reflexivity.
Qed.
Lemma now_json E t o d : json_parser (with_now E t) o d = json_parser E o d.
Proof.
  unfold json_parser. cbv zeta.
  change (try_parse_jws (with_now E t) (unwrap_string (with_now E t) d)) with (try_parse_jws E (unwrap_string E d)).
  match goal with |- bind ?x _ = bind ?y _ => change x with y; destruct y as [[[h m]|]| |]; cbn [bind]; [|reflexivity..] end.
  change (ve_time (with_now E t)) with (ve_time E). destruct (parse_contents _ m _) as [c| |]; cbn [bind]; [|reflexivity..].
  rewrite now_validate. reflexivity.
Qed.
Lemma now_cbor E t o d : cbor_parser (with_now E t) o d = cbor_parser E o d.
Proof.
  unfold cbor_parser.
  match goal with |- bind ?x _ = bind ?y _ => change x with y; destruct y as [[[h m]|]| |]; cbn [bind]; [|reflexivity..] end.
  match goal with |- bind ?x _ = bind ?y _ => change x with y; destruct y as [p| |]; cbn [bind]; [|reflexivity..] end.
  change (ve_time (with_now E t)) with (ve_time E). destruct (parse_contents _ p _) as [c| |]; cbn [bind]; [|reflexivity..].
  rewrite now_validate. reflexivity.
Qed.
Theorem C124_clock_free : forall (E : venv) (o : copts) (t : gtime) (data : string),
  co_di o = None -> parse_credential (with_now E t) o data = parse_credential E o data.
Proof.
  intros E o t data H.
  assert (W : forall p p' d, p d = p' d -> parse_with (with_now E t) o p d = parse_with E o p' d).
  { intros p p' d Hp. unfold parse_with. rewrite Hp. destruct (p' d) as [[v|]| |]; cbn [bind]; [|reflexivity..].
    rewrite now_check by assumption. reflexivity. }
  unfold parse_credential. cbn [try_parsers].
  assert (J : forall d, json_parser (with_now E t) o d = json_parser E o d) by (intros; apply now_json).
  assert (C : forall d, cbor_parser (with_now E t) o d = cbor_parser E o d) by (intros; apply now_cbor).
  assert (V : enveloped_parser (with_now E t) o data = enveloped_parser E o data).
  { unfold enveloped_parser. cbn [with_now ve_members]. change (parse_json (with_now E t) data) with (parse_json E data).
    destruct (parse_json E data); [|reflexivity]. destruct (decode_type _); [|reflexivity..]. destruct (negb _); [reflexivity|].
    destruct (mget _ _) as [[]|]; try reflexivity. unfold parse_data_url_cred. destruct (parse_data_url s) as [[[md e] d]| |]; cbn [bind]; [|reflexivity..].
    rewrite !(W (json_parser (with_now E t) o) (json_parser E o) d (J d)), !(W (cbor_parser (with_now E t) o) (cbor_parser E o) d (C d)). reflexivity. }
  rewrite (W _ _ data V), (W _ _ data (J data)), (W _ _ data (C data)). reflexivity.
Qed.
Example C124_example : co_di ex_copts = None /\ is_ok (parse_credential (with_now (sg_env true) (of_unix 4000000000)) ex_copts (ex_tok "good")) = true.
Proof. split; vm_compute; reflexivity. Qed.
Print Assumptions C124_clock_free.

(** ** C125  (refuted) "ParseCredential never panics on a JSON credential."  In base-context validation mode, an empty
    type array (or an @context without a leading string) panics. *)
Definition no_types : gomap json :=
  [("@context", JArr [JStr v1_context]); ("type", JArr []); ("issuer", JStr "did:i"); ("credentialSubject", JObj [("id", JStr "did:s")])].
Definition no_ctx : gomap json :=
  [("@context", JArr [JObj []]); ("type", JStr "VerifiableCredential"); ("issuer", JStr "did:i"); ("credentialSubject", JObj [("id", JStr "did:s")])].
Theorem C125_base_validation_panics_refuted : ~ forall (E : venv) (o : copts) (data : string) (m : gomap json),
  json_text E data m -> (forall c d, ve_jsonld E o c d <> Panic) -> (forall s d, ve_valid E s d <> Panic) ->
  co_no_proof o = true -> co_no_related o = true -> parse_credential E o data <> Panic.
Proof.
  intros H. apply (H (toyV0 [] [(ex_text, no_types)]) (with_validation toyO MBase) ex_text no_types); [|discriminate|discriminate|reflexivity|reflexivity|vm_compute; reflexivity].
  exists "1", no_types. split; [reflexivity|]. split; [reflexivity|]. split; [apply Permutation_refl|]. split; [vm_compute; nodup_keys|].
  cbn. intros k [<-|[<-|[<-|[<-|[]]]]]; reflexivity.
Qed.
Example C125_example : parse_credential (toyV0 [] [(ex_text, no_ctx)]) (with_validation toyO MBase) ex_text = Panic.
Proof. vm_compute. reflexivity. Qed.
Print Assumptions C125_base_validation_panics_refuted.

(** ** C126  (refuted) "A JSON credential keeps its meaning whatever extra members it has."  A member called "jwt" (in any
    case) whose value is a string makes ParseCredential look at that string instead of the object. *)
Definition hijack : gomap json := (ex_raw ++ [("JWT", JStr (ex_tok "good"))])%list.
Definition hj_env : venv := toyV0 [(ex_tok "good", ex_jws "sig:m")] [(ex_text, hijack); ("P", ex_jwt_members); ("{}", [])].
Theorem C126_extra_member_refuted : ~ forall (E : venv) (o : copts) (data rest : string) (m : gomap json) v id,
  data = String brace rest -> ve_members E data = Some m -> NoDup (map fst m) -> mget m "type" <> Some (JStr "EnvelopedVerifiableCredential") ->
  parse_credential E o data = Ok v -> mget m "id" = Some (JStr id) -> vc_id (cr_contents v) = id.
Proof.
  intros H. destruct (parse_credential hj_env ex_copts ex_text) as [v| |] eqn:E; [|vm_compute in E; discriminate|vm_compute in E; discriminate].
  specialize (H hj_env ex_copts ex_text "1" hijack v "urn:1" eq_refl eq_refl).
  assert (X : vc_id (cr_contents v) = "urn:1").
  { apply H; [vm_compute; nodup_keys|vm_compute; discriminate|assumption|vm_compute; reflexivity]. }
  vm_compute in E. injection E as <-. discriminate X.
Qed.
Print Assumptions C126_extra_member_refuted.

(** ** C127  (refuted) "Parsing a JSON credential leaves its JSON form unchanged."  With an embedded proof and
    WithExternalJSONLDContext, the external contexts stay in the credential's own @context. *)
Definition with_external (o : copts) (l : list string) : copts :=
  {| co_jwt_check := co_jwt_check o; co_ld_check := Some (fun _ _ _ _ => Ok tt); co_cwt_check := co_cwt_check o; co_no_proof := false;
     co_no_validation := true; co_no_related := true; co_no_custom := co_no_custom o; co_schema := co_schema o;
     co_schema_of := co_schema_of o; co_mode := co_mode o; co_contexts := co_contexts o; co_types := co_types o;
     co_strict := co_strict o; co_ld_types := co_ld_types o; co_external := l; co_di := co_di o;
     co_di_purpose := co_di_purpose o; co_di_domain := co_di_domain o; co_di_challenge := co_di_challenge o |}.
Theorem C127_parse_keeps_json_refuted : ~ forall (E : venv) (o : copts) (data : string) (m : gomap json) v,
  json_text E data m -> decode_type (fld m "type") = Ok ["VerifiableCredential"; "D"] -> parse_credential E o data = Ok v ->
  forall k, mget (to_raw_json v) k = mget m k.
Proof.
  intros H. destruct (parse_credential ex_venv2 (with_external toyO ["urn:ctx"]) ex_text) as [v| |] eqn:E; [|vm_compute in E; discriminate|vm_compute in E; discriminate].
  specialize (H ex_venv2 (with_external toyO ["urn:ctx"]) ex_text ex_signed v ex_signed_text eq_refl E "@context").
  vm_compute in E. injection E as <-. vm_compute in H. discriminate H.
Qed.
Print Assumptions C127_parse_keeps_json_refuted.
