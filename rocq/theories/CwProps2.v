(** Property theorems for CWTs: issuers, signing, credentials (C223-C232). *)
From Coq Require Import Permutation Lia DecimalN DecimalString.
From Verif Require Import GoBase StrLemmas Base64 JwtSpec DiSpec VcSpec JwtModel JwtProofs SdSpec SdModel SdParse SdIssueV2 DiModel VcModel VcJwt VcParse
  VcProofs VcSign VcSignProofs JwtProps VcProps VcProps2 VcProps3 VcProps4 CwModel CwSpec CwProofs CwProofs2 CwProofs3 CwProofs4 CwProofs5 CwProps.

(** ** C223  With the default checker and a DID resolver, and the issuer check on, an accepted message whose issuer claim is not
    empty is signed by a key of that issuer's DID document, found under the key id of the header, of a kind that fits
    the header's algorithm; the signature is over the Sig_structure. *)
Theorem C223_key_of_the_issuer : forall C resolve ck hok any data m p iss,
  parse_and_check hok (payload_issuer any) (default_cwt C resolve ck) true data = Ok (m, p) -> issuer_claim any p iss -> iss <> "" ->
  exists c alg kid vm sc, is_bstr (s1_raw m) c /\ key_id_of (s1_prot m) kid /\ kid <> ""
    /\ algorithm_of (s1_prot m) alg /\ cose_scheme alg sc
    /\ issuer_key resolve iss kid vm
    /\ prim_ok C vm sc (sig_structure c (s1_payload m)) (s1_sig m).
Proof.
  intros C resolve ck hok any data m p iss H Hi Hne. apply payload_issuer_iff in Hi. apply accepted_iff in H as (c & key & alg & iss' & Hp & _ & _ & _ & -> & _ & Ha & Hx & Hc).
  cbn [expected_issuer] in Hx. assert (iss' = iss) by congruence. subst iss'. destruct (String.eqb_spec iss ""); [contradiction|].
  apply C62_cwt_agree in Hc as (vm & sc & Hsc & Hpr & _ & [(Hk & HR)|(_ & He & _)]); [|contradiction].
  exists c, alg, (header_kid (s1_prot m)), vm, sc. cbn [cw_kid cw_alg] in *. split; [destruct Hp as (? & ? & ? & _ & Hr & _); exact Hr|]. split; [now apply header_kid_iff|]. split; [assumption|].
  split; [now apply header_alg_iff|]. split; [assumption|]. split; [now apply resolved_key|assumption].
Qed.
Definition ex_good : string := Eval vm_compute in ex_signed (enc (IBytes (ex_hdr "did:i#k" true))) (ex_hdr "did:i#k" true) [] (iss_payload "did:i").
Example C223_example : match parse_and_check any_headers (payload_issuer any_value) ex_chk true ex_good with
                       | Ok (m, p) => payload_issuer any_value p = Ok "did:i" | _ => False end.
Proof. vm_compute. reflexivity. Qed.
Print Assumptions C223_key_of_the_issuer.

(** ** C224  (refuted) "With the issuer check on, the key that verified is bound to the issuer claim."  An empty issuer claim
    passes the check and switches it off: the result is that of a call without issuer check, and a message without key id is
    accepted with the key it carries. *)
Theorem C224_empty_issuer_refuted : forall hok any (chk : cwt_checker) data m,
  cwt_parse hok data = Ok m -> issuer_claim any match s1_payload m with Some s => s | None => "" end "" ->
  parse_and_check hok (payload_issuer any) chk true data = parse_and_check hok (payload_issuer any) chk false data.
Proof.
  intros hok any chk data m H Hi. apply payload_issuer_iff in Hi. unfold parse_and_check. rewrite H. cbn [bind]. cbn [coset_of co_payload]. rewrite Hi. reflexivity.
Qed.
Definition self_hdr : string := enc (IMap [(IUint 1, INeg 7); (IText "COSE_Key", IText "a1")]).
Definition self_chk : cwt_checker := default_cwt ex_cenv (fun _ => Err "no resolver") (fun _ => Ok ({| jk_kty := "OKP"; jk_crv := "Ed25519"; jk_key := KEd ex_key |}, ED25519Type)).
Example C224_example :
  is_ok (parse_and_check any_headers (payload_issuer any_value) self_chk true (ex_signed (enc (IBytes self_hdr)) self_hdr [] (iss_payload ""))) = true
  /\ is_ok (parse_and_check any_headers (payload_issuer any_value) self_chk true (ex_signed (enc (IBytes self_hdr)) self_hdr [] (iss_payload "did:i"))) = false.
Proof. split; vm_compute; reflexivity. Qed.
Print Assumptions C224_empty_issuer_refuted.

(** ** C225  marshalCOSE signs the Sig_structure of the header {alg, kid} and the payload, and Parse reads its bytes back: the
    same payload, algorithm, key id, signature and to-be-signed text. *)
Theorem C225_marshal_then_parse : forall hok sign payload alg kid raw m,
  marshal_cose hok sign payload alg kid = Ok (raw, m) -> int64 alg -> sized kid -> sized payload -> sized (s1_sig m) ->
  exists c, header_map_of c [(IUint 1, int_item alg); (IUint 4, IBytes kid)]
    /\ sign alg kid (sig_structure c (Some payload)) = Ok (s1_sig m)
    /\ exists m', cwt_parse hok raw = Ok m' /\ s1_payload m' = Some payload /\ s1_sig m' = s1_sig m
      /\ algorithm_of (s1_prot m') alg /\ key_id_of (s1_prot m') kid
      /\ get_proof_value m' = Ok (sig_structure c (Some payload)) /\ get_proof_value m = get_proof_value m'.
Proof.
  intros hok sign p alg kid raw m H Ha Hk Hp Hs. destruct (marshal_parse _ _ _ _ _ _ _ H Ha Hk Hp Hs) as (Em & Hsg & Hpa & Hv & Hne & _).
  exists (header_bytes alg kid). split; [apply header_map_iff; now apply header_map|]. split; [assumption|].
  exists (parsed_message p alg kid (s1_sig m)). split; [now apply cwt_parse_ok|]. split; [reflexivity|]. split; [reflexivity|]. split; [apply header_alg_iff, header_alg_cose|].
  split; [apply header_kid_iff; unfold parsed_message, header_kid; cbn [s1_prot label_n N.eqb Pos.eqb]; destruct alg; reflexivity|]. split; [assumption|]. rewrite Hv, Em. now apply cose_value.
Qed.
Definition ex_sign (alg : Z) (kid tbs : string) : res string := Ok ("sig:" ++ tbs).
Example C225_example : exists raw m, marshal_cose any_headers ex_sign "P" (-8) "did:i#k" = Ok (raw, m)
  /\ raw <> "" /\ is_ok (cwt_parse any_headers raw) = true /\ String.length (s1_sig m) = 32%nat.
Proof. eexists. eexists. split; [vm_compute; reflexivity|]. split; [discriminate|]. split; vm_compute; reflexivity. Qed.
Print Assumptions C225_marshal_then_parse.

(** ** C226  (refuted) "What the library signs with marshalCOSE, its ParseAndCheckProof can verify."  The signer never writes the
    COSE_Key header that ParseAndCheckProof demands: every such token is refused, whatever the checker. *)
Theorem C226_own_tokens_refused_refuted : forall hok sign payload alg kid raw m issuer chk check_issuer r,
  marshal_cose hok sign payload alg kid = Ok (raw, m) -> int64 alg -> sized kid -> sized payload -> sized (s1_sig m) ->
  parse_and_check hok issuer chk check_issuer raw <> Ok r.
Proof.
  intros hok sign p alg kid raw m issuer chk ci [m' p'] H Ha Hk Hp Hs Hr. destruct (marshal_parse _ _ _ _ _ _ _ H Ha Hk Hp Hs) as (_ & _ & Hpa & _).
  unfold parse_and_check, cwt_parse in Hr. rewrite Hpa in Hr. cbn [bind] in Hr. apply bind_ok in Hr as (? & _ & Hr). apply bind_ok in Hr as (? & Hg & _). discriminate Hg.
Qed.
Example C226_example : exists raw m, marshal_cose any_headers ex_sign (iss_payload "did:i") (-8) "did:i#k" = Ok (raw, m)
  /\ parse_and_check any_headers (payload_issuer any_value) ex_chk true raw = Err "check cwt failure: COSE_Key header is required"
  /\ (exists t, get_proof_value m = Ok t /\ ex_chk {| cw_kid := "did:i#k"; cw_key := ""; cw_alg := -8 |} "did:i" t (s1_sig m) = Ok tt).
Proof. eexists. eexists. split; [vm_compute; reflexivity|]. split; [vm_compute; reflexivity|]. eexists. split; vm_compute; reflexivity. Qed.
Print Assumptions C226_own_tokens_refused_refuted.

(** ** C227  A credential signed with CreateSignedCOSEVC, down to the bytes: parsing the hex text of the token gives back exactly
    the same JSON object, provided its values survive CBOR (UTF-8 texts, numbers that are float64, at most 31 levels). *)
Lemma hex_digit_char n : (n < 16)%N -> hex_char (hex_digit n) = true.
Proof.
  intros H. unfold hex_char, hex_digit, mk_byte. rewrite <- N2Nat.id with (a := n) in H |- *. remember (N.to_nat n) as k. clear Heqk n.
  do 16 (destruct k as [|k]; [reflexivity|]). lia.
Qed.
Lemma hex_is_hex s : is_hex (hex_encode s) = true.
Proof.
  induction s as [|a s IH]; [reflexivity|]. cbn [hex_encode is_hex]. pose proof (byte_lt a).
  rewrite !hex_digit_char; [exact IH|apply N.mod_lt; lia|apply N.div_lt_upper_bound; lia].
Qed.
Lemma hex_not_cose hok s : parse_sign1 hok (hex_encode s) = None.
Proof.
  destruct s as [|a s]; [reflexivity|]. cbn [hex_encode]. unfold parse_sign1. pose proof (byte_lt a).
  assert (H1 : (byte_n a / 16 < 16)%N) by (apply N.div_lt_upper_bound; lia).
  destruct (N.eqb_spec (byte_n (hex_digit (byte_n a / 16))) 210) as [E|]; [|reflexivity]. exfalso. unfold hex_digit in E. destruct (N.ltb_spec (byte_n a / 16) 10); rewrite byte_mk in E; lia.
Qed.
Lemma uses_makes hok sign F Fd E S claims alg kid : uses_cbor hok sign F Fd E S -> plain_claims F Fd claims -> sized (enc (claims_item F claims)) ->
  int64 alg -> sized kid -> (forall t s, sign alg kid t = Ok s -> sized s) -> makes_cose E S claims alg kid.
Proof.
  intros U Hp Hsz Ha Hk Hsg raw msg H. rewrite (uc_sign _ _ _ _ _ _ U) in H.
  destruct (marshal_cose hok sign (enc (claims_item F claims)) alg kid) as [[raw' m]| |] eqn:Em; try discriminate. cbn [rmap fst snd] in H. injection H as -> <-.
  assert (Hs : sized (s1_sig m)).
  { unfold marshal_cose in Em. apply bind_ok in Em as (t & _ & Em). apply bind_ok in Em as (s & Hs & Em). apply bind_ok in Em as (w & _ & Em). injection Em as _ <-. cbn. eauto. }
  destruct (marshal_parse _ _ _ _ _ _ _ Em Ha Hk Hsz Hs) as (E1 & _ & Hpa & _ & _ & _).
  split. { rewrite (uc_cose _ _ _ _ _ _ U), Hpa. cbn [option_map]. rewrite E1. cbn [cose_message s1_sig]. f_equal. now apply coset_same. }
  split. { exists claims. split; [|apply Permutation_refl]. rewrite (uc_cbor _ _ _ _ _ _ U). rewrite E1. cbn [coset_of cose_message co_payload s1_payload]. now apply claims_read. }
  rewrite (uc_enc _ _ _ _ _ _ U). split; [apply hex_is_hex|]. split; [rewrite (uc_hex _ _ _ _ _ _ U); apply hex_round|].
  split; [rewrite (uc_cose _ _ _ _ _ _ U); now rewrite hex_not_cose|apply (uc_json _ _ _ _ _ _ U)].
Qed.
(** the values of a credential survive CBOR *)
Definition survives (F : Q -> string) (Fd : string -> option Q) (v : credential) : Prop :=
  plain F Fd 31 (JObj (cr_json v))
  /\ (forall i, vc_issuer (cr_contents v) = Some i -> plain_text (is_id i)) /\ (forall s, In s (vc_subject (cr_contents v)) -> plain_text (sj_id s))
  /\ (forall t, vc_issued (cr_contents v) = Some t -> int64 (unix (tw_time t))) /\ (forall t, vc_expired (cr_contents v) = Some t -> int64 (unix (tw_time t))).


Lemma numeric_unix t z : numeric_date t = Some z -> z = unix t.
Proof. unfold numeric_date. destruct (is_zero t); congruence. Qed.
Lemma cred_claims_at F Fd D v cl : new_cwt_claims v = Ok cl -> plain F Fd D (JObj (cr_json v)) ->
  (forall i, vc_issuer (cr_contents v) = Some i -> plain_text (is_id i)) -> (forall s, In s (vc_subject (cr_contents v)) -> plain_text (sj_id s)) ->
  (forall t, vc_issued (cr_contents v) = Some t -> int64 (unix (tw_time t))) -> (forall t, vc_expired (cr_contents v) = Some t -> int64 (unix (tw_time t))) ->
  (List.length (cwt_claims_cbor cl) <= 6)%nat /\ Forall (fun kv => plain_text (fst kv) /\ plain_claim_at F Fd D (snd kv)) (cwt_claims_cbor cl).
Proof.
  intros H Hv Hi Hs H1 H2. unfold new_cwt_claims in H. apply bind_ok in H as (sub & Hsub & H).
  destruct (vc_issuer (cr_contents v)) as [i|]; [|discriminate]. destruct (vc_issued (cr_contents v)) as [t|]; [|discriminate]. injection H as <-.
  assert (Hsp : plain_text sub).
  { unfold subject_id in Hsub. destruct (vc_subject (cr_contents v)) as [|s [|]]; try discriminate. destruct (String.eqb (sj_id s) ""); [discriminate|]. injection Hsub as <-. apply Hs. now left. }
  unfold cwt_claims_cbor. cbn [jc_iss jc_sub jc_exp jc_nbf jc_iat jc_vc].
  assert (K : forall s, (s = "iss" \/ s = "sub" \/ s = "exp" \/ s = "nbf" \/ s = "iat" \/ s = "vc") -> plain_text s)
    by (intros s [->|[->|[->|[->|[->| ->]]]]]; (split; [reflexivity|vm_compute; reflexivity])).
  split.
  - rewrite !app_length. assert (Ho : forall k s, (List.length (opt_field k s) <= 1)%nat) by (intros k s; unfold opt_field; destruct (String.eqb s ""); cbn; lia).
    assert (Hd : forall k d, (List.length (date_member k d) <= 1)%nat) by (intros k d; destruct d; cbn; lia).
    pose proof (Ho "iss" (is_id i)). pose proof (Ho "sub" sub). pose proof (Hd "exp" (o_date (vc_expired (cr_contents v)))).
    pose proof (Hd "nbf" (numeric_date (tw_time t))). pose proof (Hd "iat" (numeric_date (tw_time t))). destruct (cr_json v); cbn [List.length]; lia.
  - assert (Hnd : forall z, numeric_date (tw_time t) = Some z -> int64 z) by (intros z Hz; rewrite (numeric_unix _ _ Hz); now apply H1).
    assert (Hed : forall z, o_date (vc_expired (cr_contents v)) = Some z -> int64 z).
    { intros z Hz. unfold o_date in Hz. destruct (vc_expired (cr_contents v)) as [x|]; [|discriminate]. rewrite (numeric_unix _ _ Hz). now apply H2. }
    assert (Kt : forall k s, plain_text s -> plain_text k -> Forall (fun kv => plain_text (fst kv) /\ plain_claim_at F Fd D (snd kv)) (opt_field k s)).
    { intros k s Hp Hk. unfold opt_field. destruct (String.eqb s ""); constructor; [|constructor]. split; assumption. }
    assert (Kd : forall k d, (forall z, d = Some z -> int64 z) -> plain_text k -> Forall (fun kv => plain_text (fst kv) /\ plain_claim_at F Fd D (snd kv)) (date_member k d)).
    { intros k [z|] Hp Hk; constructor; [|constructor]. split; [exact Hk|]. exists z. split; [reflexivity|auto]. }
    repeat (apply Forall_app; split).
    + apply Kt; [now apply Hi|apply K; tauto].
    + apply Kt; [assumption|apply K; tauto].
    + apply Kd; [assumption|apply K; tauto].
    + apply Kd; [assumption|apply K; tauto].
    + apply Kd; [assumption|apply K; tauto].
    + destruct (cr_json v) as [|x m] eqn:Ej; constructor; [|constructor]. split; [apply K; tauto|exact Hv].
Qed.
Lemma cred_claims F Fd v cl : new_cwt_claims v = Ok cl -> survives F Fd v -> plain_claims F Fd (cwt_claims_cbor cl).
Proof.
  intros H (Hv & Hi & Hs & H1 & H2). destruct (cred_claims_at F Fd 31 v cl H Hv Hi Hs H1 H2) as [Hl Hf]. split; [unfold max_elements; lia|]. split; [apply cbor_keys|exact Hf].
Qed.
Theorem C227_credential_bytes : forall hok sign F Fd (E : venv) (S : senv) (o : copts) (v v' : credential) alg kid ce,
  create_signed_cose S v alg kid = Ok v' -> cr_cwt v' = Some ce -> uses_cbor hok sign F Fd E S ->
  coherent (ve_time E) v -> survives F Fd v -> int64 alg -> sized kid -> sized (ce_raw ce) ->
  (co_no_proof o = true \/ forall i, vc_issuer (cr_contents v) = Some i ->
     exists pc, co_cwt_check o = Some pc
       /\ forall tbs sig, sign alg kid tbs = Ok sig -> pc {| cw_kid := kid; cw_key := ""; cw_alg := alg |} (is_id i) tbs sig = Ok tt) ->
  (co_no_validation o = true \/ forall c, same_contents (ve_time E) (cr_contents v) c -> validate_credential E c (cr_json v) o = Ok tt) ->
  (co_no_related o = true \/ ve_related E (vc_related (cr_contents v)) = Ok tt) ->
  exists w, parse_credential E o (hex_encode (ce_raw ce)) = Ok w
    /\ cr_json w = cr_json v /\ same_contents (ve_time E) (cr_contents v) (cr_contents w)
    /\ cr_cwt w = Some ce /\ cr_jwt w = None /\ cr_proofs w = [].
Proof.
  intros hok sign F Fd E S o v v' alg kid ce H Hce U Hco Hsv Ha Hk Hraw Hck Hval Hrel.
  pose proof H as Hs. unfold create_signed_cose in Hs. apply bind_ok in Hs as (cl & Hcl & Hs). apply bind_ok in Hs as ([raw msg] & Hm & Hs). injection Hs as <-.
  cbn [cr_cwt fst snd] in Hce. injection Hce as <-. cbn [ce_raw ce_msg] in *.
  rewrite (uc_sign _ _ _ _ _ _ U) in Hm. destruct (marshal_cose hok sign (enc (claims_item F (cwt_claims_cbor cl))) alg kid) as [[raw' m]| |] eqn:Em; try discriminate.
  cbn [rmap fst snd] in Hm. injection Hm as -> <-.
  (* lengths are bounded by that of the token *)
  assert (Hlen : sized (enc (claims_item F (cwt_claims_cbor cl))) /\ sized (s1_sig m) /\ s1_sig m = s1_sig m /\ m = cose_message (enc (claims_item F (cwt_claims_cbor cl))) alg kid (s1_sig m)
     /\ exists t, get_proof_value (cose_message (enc (claims_item F (cwt_claims_cbor cl))) alg kid "") = Ok t /\ sign alg kid t = Ok (s1_sig m)).
  { unfold marshal_cose in Em. apply bind_ok in Em as (t & Ht & Em). apply bind_ok in Em as (s & Hs & Em). apply bind_ok in Em as (w & Hw & Em). injection Em as -> <-.
    cbn [s1_sig cose_message]. unfold marshal_sign1 in Hw. apply bind_ok in Hw as (? & _ & Hw). apply bind_ok in Hw as (? & _ & Hw). assert (G : forall a b : string, Ok a = Ok b -> a = b) by congruence. apply G in Hw. clear G.
    unfold sized, slen in *. rewrite <- Hw in Hraw. cbn [cose_message s1_payload s1_sig bytes_item] in Hraw. rewrite !append_length in Hraw. cbn [enc] in Hraw. rewrite !append_length in Hraw.
    split; [lia|]. split; [lia|]. split; [reflexivity|]. split; [reflexivity|]. eauto. }
  destruct Hlen as (Hp & Hsg & _ & Hmm & t & Ht & Hst).
  assert (Hmk : makes_cose E S (cwt_claims_cbor cl) alg kid).
  { intros raw' msg' Hx. rewrite (uc_sign _ _ _ _ _ _ U), Em in Hx. cbn [rmap fst snd] in Hx. injection Hx as <- <-.
    destruct (marshal_parse _ _ _ _ _ _ _ Em Ha Hk Hp Hsg) as (E1 & _ & Hpa & _ & _ & _).
    split. { rewrite (uc_cose _ _ _ _ _ _ U), Hpa. cbn [option_map]. rewrite E1. cbn [cose_message s1_sig]. f_equal. now apply coset_same. }
    split. { exists (cwt_claims_cbor cl). split; [|apply Permutation_refl]. rewrite (uc_cbor _ _ _ _ _ _ U). rewrite E1. cbn [coset_of cose_message co_payload s1_payload]. apply claims_read. eapply cred_claims; eassumption. }
    rewrite (uc_enc _ _ _ _ _ _ U). split; [apply hex_is_hex|]. split; [rewrite (uc_hex _ _ _ _ _ _ U); apply hex_round|].
    split; [rewrite (uc_cose _ _ _ _ _ _ U); now rewrite hex_not_cose|apply (uc_json _ _ _ _ _ _ U)]. }
  rewrite <- (uc_enc _ _ _ _ _ _ U).
  destruct (C116_cose_then_parse E S o v _ alg kid {| ce_raw := raw; ce_msg := coset_of m |} H eq_refl Hco) as (_ & _ & w & Hw & K); try assumption.
  - intros cl' Hcl'. assert (cl' = cl) by congruence. now subst cl'.
  - destruct Hck as [|Hck]; [now left|right]. intros i Hi. destruct (Hck i Hi) as (pc & Hpc & Hok). exists pc, alg, t. split; [assumption|]. cbn [ce_msg].
    rewrite Hmm. cbn [coset_of co_alg co_tbs co_kid co_key co_sig s1_prot s1_sig]. split; [apply header_alg_cose|]. split; [exact Ht|].
    assert (K1 : header_kid [(IUint 1, int_item alg); (IUint 4, IBytes kid)] = kid) by (destruct alg; reflexivity).
    change (s1_prot (cose_message (enc (claims_item F (cwt_claims_cbor cl))) alg kid (s1_sig m))) with [(IUint 1, int_item alg); (IUint 4, IBytes kid)].
    rewrite K1. change (header_key [(IUint 1, int_item alg); (IUint 4, IBytes kid)]) with "". now apply Hok.
  - exists w. split; [exact Hw|exact K].
Qed.
(** an environment with these codecs; numbers are natural *)
Definition xF (q : Q) : string := be 8 (Z.to_N (Qnum q)).
Definition xFd (s : string) : option Q := match be_read 8 0 s with Some (n, "") => Some (inject_Z (Z.of_N n)) | _ => None end.
Definition xb_senv : senv := {|
  se_alg := fun _ => Ok "EdDSA"; se_jws := fun _ _ _ => Err "x"; se_unsec := fun _ => Err "x";
  se_cose := fun c a k => rmap (fun rm => (fst rm, coset_of (snd rm))) (marshal_cose any_headers ex_sign (enc (claims_item xF c)) a k);
  se_hex := hex_encode |}.
Definition xb_env : venv := let E := toyV0 [] [] in {|
  ve_time := ve_time E; ve_jwt := ve_jwt E; ve_members := ve_members E; ve_obj := ve_obj E; ve_sd := ve_sd E; ve_order := ve_order E;
  ve_cose := fun s => option_map coset_of (parse_sign1 any_headers s); ve_hex := hex_decode; ve_cbor := cbor_claims xFd; ve_schema := ve_schema E; ve_valid := ve_valid E;
  ve_jsonld := ve_jsonld E; ve_ext := ve_ext E; ve_ldproofs := ve_ldproofs E; ve_ldmsg := ve_ldmsg E; ve_di := ve_di E;
  ve_now := ve_now E; ve_related := ve_related E |}.
Lemma xb_uses : uses_cbor any_headers ex_sign xF xFd xb_env xb_senv.
Proof. constructor; reflexivity. Qed.
Definition xb_raw : string := Eval vm_compute in
  match create_signed_cose xb_senv sg_cred (-8) "did:i#k" with Ok v => match cr_cwt v with Some ce => ce_raw ce | None => "" end | _ => "" end.
Lemma small_text s : utf8_valid s = true -> (slen s <? two64)%N = true -> plain_text s.
Proof. intros H L. split; [exact H|now apply N.ltb_lt]. Qed.
Example C227_example :
  uses_cbor any_headers ex_sign xF xFd xb_env xb_senv /\ survives xF xFd sg_cred /\ (String.length xb_raw = 543)%nat
  /\ (exists v' ce, create_signed_cose xb_senv sg_cred (-8) "did:i#k" = Ok v' /\ cr_cwt v' = Some ce /\ ce_raw ce = xb_raw)
  /\ is_ok (parse_credential xb_env ex_copts (hex_encode xb_raw)) = true /\ co_no_proof ex_copts = false.
Proof.
  split; [exact xb_uses|]. split.
  { split; [|split; [|split; [|split]]].
    - vm_compute cr_json. cbn [plain fold_right map fst]. repeat match goal with
        | |- _ /\ _ => split
        | |- plain_text _ => apply small_text; reflexivity
        | |- True => exact I
        | |- NoDup _ => nodup_keys
        | |- (_ <= _)%N => vm_compute; discriminate
        end.
    - intros i [= <-]. apply small_text; reflexivity.
    - intros s [<-|[]]. apply small_text; reflexivity.
    - intros t [= <-]. vm_compute. split; [discriminate|reflexivity].
    - intros t [= <-]. vm_compute. split; [discriminate|reflexivity]. }
  split; [reflexivity|]. split.
  { eexists. eexists. split; [vm_compute; reflexivity|]. split; reflexivity. }
  split; [vm_compute; reflexivity|reflexivity].
Qed.
Print Assumptions C227_credential_bytes.

(** ** C228  (refuted) "Whatever credential CreateSignedCOSEVC signs can be parsed again."  The CBOR decoder reads at most 32 nested
    arrays and maps, the encoder has no limit: a credential with more than 31 levels is signed, and its token is refused. *)
Theorem C228_deep_credentials_refuted : forall hok sign F Fd (E : venv) (S : senv) (o : copts) (v v' : credential) alg kid ce D w,
  create_signed_cose S v alg kid = Ok v' -> cr_cwt v' = Some ce -> uses_cbor hok sign F Fd E S ->
  plain F Fd D (JObj (cr_json v)) ->
  (forall i, vc_issuer (cr_contents v) = Some i -> plain_text (is_id i)) -> (forall s, In s (vc_subject (cr_contents v)) -> plain_text (sj_id s)) ->
  (forall t, vc_issued (cr_contents v) = Some t -> int64 (unix (tw_time t))) -> (forall t, vc_expired (cr_contents v) = Some t -> int64 (unix (tw_time t))) ->
  int64 alg -> sized kid -> sized (enc (claims_item F (match new_cwt_claims v with Ok cl => cwt_claims_cbor cl | _ => [] end))) -> (forall t s, sign alg kid t = Ok s -> sized s) ->
  (31 < levels (JObj (cr_json v)))%nat ->
  parse_credential E o (hex_encode (ce_raw ce)) <> Ok w.
Proof.
  intros hok sign F Fd E S o v v' alg kid ce D w H Hce U Hv Hi Hs H1 H2 Ha Hk Hp Hsz Hdeep.
  unfold create_signed_cose in H. apply bind_ok in H as (cl & Hcl & H). apply bind_ok in H as ([raw msg] & Hm & H). injection H as <-.
  cbn [cr_cwt fst snd] in Hce. injection Hce as <-. cbn [ce_raw] in *. rewrite Hcl in Hp.
  rewrite (uc_sign _ _ _ _ _ _ U) in Hm. destruct (marshal_cose hok sign (enc (claims_item F (cwt_claims_cbor cl))) alg kid) as [[raw' m]| |] eqn:Em; try discriminate.
  cbn [rmap fst snd] in Hm. injection Hm as -> <-.
  assert (Hsg : sized (s1_sig m)).
  { unfold marshal_cose in Em. apply bind_ok in Em as (t & _ & Em). apply bind_ok in Em as (s & Hs' & Em). apply bind_ok in Em as (x & _ & Em). injection Em as _ <-. cbn. eauto. }
  destruct (marshal_parse _ _ _ _ _ _ _ Em Ha Hk Hp Hsg) as (E1 & _ & Hpa & _ & _ & _).
  assert (Hcb : ve_cbor E (co_payload (coset_of (parsed_message (enc (claims_item F (cwt_claims_cbor cl))) alg kid (s1_sig m)))) = None).
  { rewrite (uc_cbor _ _ _ _ _ _ U). cbn [parsed_message coset_of co_payload s1_payload]. unfold cbor_claims.
    destruct (cred_claims_at F Fd D v cl Hcl Hv Hi Hs H1 H2) as [Hl Hf].
    rewrite (too_deep true max_depth (Datatypes.S D) (claims_item F (cwt_claims_cbor cl))); [reflexivity| |].
    - eapply claims_fit; [unfold max_elements; lia|exact Hf].
    - assert (Hin : In ("vc", JObj (cr_json v)) (cwt_claims_cbor cl)).
      { unfold new_cwt_claims in Hcl. apply bind_ok in Hcl as (sub & _ & Hcl). destruct (vc_issuer (cr_contents v)); [|discriminate]. destruct (vc_issued (cr_contents v)); [|discriminate].
        injection Hcl as <-. unfold cwt_claims_cbor. cbn [jc_vc]. rewrite !in_app_iff. do 5 right. destruct (cr_json v); [cbn in Hdeep; lia|now left]. }
      pose proof (claims_levels F _ _ _ Hin I). unfold max_depth. lia. }
  assert (Hnm : ve_members E (hex_encode raw) = None) by apply (uc_json _ _ _ _ _ _ U).
  unfold parse_credential. cbn [try_parsers]. unfold parse_with at 1. rewrite (enveloped_not_json _ _ _ Hnm). cbn [bind].
  unfold parse_with at 1. rewrite (json_parser_hex E o _ (hex_is_hex raw) Hnm). cbn [bind].
  unfold parse_with. unfold cbor_parser. rewrite !(uc_cose _ _ _ _ _ _ U), hex_not_cose. cbn [option_map]. rewrite (hex_unquoted _ (hex_is_hex raw)), (uc_hex _ _ _ _ _ _ U), hex_round.
  rewrite (uc_cose _ _ _ _ _ _ U), Hpa. cbn [option_map bind]. rewrite Hcb. discriminate.
Qed.
Fixpoint nest (n : nat) : json := match n with O => JBool true | S k => JObj [("x", nest k)] end.
Definition xb_deep (n : nat) : credential := create_credential toyT sg_contents [("extra", nest n)].
Definition xb_deep_raw (n : nat) : string :=
  match create_signed_cose xb_senv (xb_deep n) (-8) "did:i#k" with Ok v => match cr_cwt v with Some ce => ce_raw ce | None => "" end | _ => "" end.
Example C228_example : (31 < levels (JObj (cr_json (xb_deep 31))))%nat
  /\ is_ok (create_signed_cose xb_senv (xb_deep 31) (-8) "did:i#k") = true
  /\ is_ok (parse_credential xb_env ex_copts (hex_encode (xb_deep_raw 31))) = false
  /\ is_ok (parse_credential xb_env ex_copts (hex_encode (xb_deep_raw 30))) = true
  /\ plain xF xFd 32 (JObj (cr_json (xb_deep 31))).
Proof.
  split; [vm_compute; lia|]. split; [vm_compute; reflexivity|]. split; [vm_compute; reflexivity|]. split; [vm_compute; reflexivity|].
  vm_compute cr_json. cbn [plain fold_right map fst]. repeat match goal with
        | |- _ /\ _ => split
        | |- plain_text _ => apply small_text; reflexivity
        | |- True => exact I
        | |- NoDup _ => nodup_keys
        | |- (_ <= _)%N => vm_compute; discriminate
        end.
Qed.
Print Assumptions C228_deep_credentials_refuted.

(** ** C229  No cross-format reuse: the bytes signed for a CWT are never the signing input of a compact JWS, whatever its header and payload. *)
Theorem C229_not_a_jws_input : forall c p header payload,
  sig_structure c p <> b64_encode header ++ "." ++ payload.
Proof.
  intros c p header payload H. unfold sig_structure in H. cbn [enc] in H. change (head 4 (N.of_nat (List.length [IText "Signature1"; IBytes c; IBytes ""; match p with Some s => IBytes s | None => ISimple 22 end]))) with (String "132" "") in H.
  cbn [append] in H. destruct (b64_encode header) as [|a r] eqn:E; cbn [append] in H; injection H as Ha _.
  - discriminate Ha.
  - assert (Hin : In a (list_ascii_of_string (b64_encode header))) by (rewrite E; now left). subst a.
    assert (K : forall s x, In x (list_ascii_of_string (b64_encode s)) -> exists n, (n < 64)%N /\ x = b64_char n).
    { clear. intros s. induction s using string_ind3; cbn [b64_encode list_ascii_of_string]; intros x Hx.
      - contradiction.
      - destruct Hx as [<-|[<-|[]]]; eexists; (split; [|reflexivity]); rewrite ?land63; try apply mod64_lt.
      - destruct Hx as [<-|[<-|[<-|[]]]]; eexists; (split; [|reflexivity]); rewrite ?land63; try apply mod64_lt.
      - destruct Hx as [<-|[<-|[<-|[<-|Hx]]]]; [eexists; (split; [|reflexivity]); rewrite ?land63; try apply mod64_lt..|auto]. }
    apply K in Hin as (n & Hn & Hc). rewrite <- N2Nat.id with (a := n) in Hn, Hc. remember (N.to_nat n) as k. clear - Hn Hc.
    do 64 (destruct k as [|k]; [discriminate Hc|]). lia.
Qed.
Example C229_example : exists r, sig_structure "h" (Some "p") = String "132" r /\ b64_encode "{}" ++ "." ++ b64_encode "{}" = "e30.e30".
Proof. eexists. split; vm_compute; reflexivity. Qed.
Print Assumptions C229_not_a_jws_input.

(** ** C230  The claims object made from a decoded CBOR map does not depend on the order in which Go visits the map, when the texts
    of the keys are distinct: one member per entry, under the text of its key. *)
Lemma all_some_inv {A} (l : list (option A)) r : all_some l = Some r -> l = map Some r.
Proof.
  revert r. induction l as [|[x|] l IH]; intros r; cbn [all_some]; [intros [= <-]; reflexivity| |discriminate].
  destruct (all_some l) as [r'|]; [|discriminate]. intros [= <-]. cbn [map]. now rewrite (IH r').
Qed.
Lemma all_some_perm {A B} (f : A -> option B) l l' r r' : Permutation l l' -> all_some (map f l) = Some r -> all_some (map f l') = Some r' -> Permutation r r'.
Proof.
  intros Hp H H'. apply all_some_inv in H, H'. assert (P : Permutation (map Some r) (map Some r')) by (rewrite <- H, <- H'; now apply Permutation_map).
  apply (Permutation_map (fun o => match o with Some x => [x] | None => [] end)) in P. rewrite !map_map in P.
  assert (K : forall (a b : list (list B)), Permutation a b -> Permutation (List.concat a) (List.concat b)).
  { intros a b Hab. induction Hab; cbn; [constructor|now apply Permutation_app_head|rewrite !app_assoc; apply Permutation_app_tail, Permutation_app_comm|etransitivity; eassumption]. }
  apply K in P. assert (C : forall (x : list B), List.concat (map (fun y => [y]) x) = x) by (induction x; cbn; congruence). now rewrite !C in P.
Qed.
Definition decimal (s : string) (n : N) : Prop := exists u, DecimalString.NilEmpty.uint_of_string s = Some u /\ N.of_uint u = n.
Lemma decimal_dec n : decimal (dec_text n) n.
Proof. exists (N.to_uint n). split; [apply DecimalString.NilEmpty.usu|apply DecimalN.Unsigned.of_to]. Qed.
Theorem C230_order_of_keys : forall Fd l m m',
  converted Fd l m -> converted Fd l m' -> NoDup (map (fun kv => key_text (fst kv)) l) ->
  Permutation m m' /\ (forall k, mget m k = mget m' k)
  /\ (forall s v b, In (IText s, v) l -> json_of Fd v = Some b -> mget m s = Some b)
  /\ (forall n v b, In (IUint n, v) l -> json_of Fd v = Some b -> exists s, decimal s n /\ mget m s = Some b)
  /\ (forall n v b, In (INeg n, v) l -> json_of Fd v = Some b -> exists s, decimal s (n + 1) /\ mget m ("-" ++ s) = Some b)
  /\ List.length m = List.length l.
Proof.
  intros Fd l m m' (l1 & r1 & P1 & H1 & ->) (l2 & r2 & P2 & H2 & ->) Hnd.
  assert (K : forall l' r, all_some (map (entry_json Fd) l') = Some r -> Permutation l l' -> NoDup (map fst r)).
  { intros l' r H P. assert (N' : NoDup (map (fun kv => key_text (fst kv)) l')) by (eapply Permutation_NoDup; [apply Permutation_map; exact P|exact Hnd]).
    apply all_some_inv in H. clear - H N'. revert r H. induction l' as [|kv l' IH]; intros [|[a b] r] H; try discriminate; [constructor|]. cbn [map] in H. injection H as He H.
    cbn [map fst]. inversion N' as [|? ? Hni Hn']; subst. constructor; [|now apply IH]. intros Hin. apply Hni.
    unfold entry_json in He. destruct (key_text (fst kv)) as [x|] eqn:Ex; [|discriminate]. destruct (json_of Fd (snd kv)); [|discriminate]. injection He as <- <-.
    clear - Hin H. revert r H Hin. induction l' as [|kv' l' IH]; intros [|[a' b'] r] H Hin; try discriminate; [contradiction|]. cbn [map] in *. injection H as He H. destruct Hin as [E|Hin]; [|right; eauto].
    left. unfold entry_json in He. cbn [fst] in E. subst a'. destruct (key_text (fst kv')); [|discriminate]. destruct (json_of Fd (snd kv')); congruence. }
  pose proof (K _ _ H1 P1) as N1. pose proof (K _ _ H2 P2) as N2. rewrite !string_map_nodup by assumption.
  assert (P : Permutation r1 r2) by (eapply all_some_perm; [|exact H1|exact H2]; etransitivity; [apply Permutation_sym; exact P1|exact P2]).
  split; [exact P|]. split; [intros k; now apply mget_perm|].
  assert (G : forall kv a b, In kv l -> key_text (fst kv) = Some a -> json_of Fd (snd kv) = Some b -> mget r1 a = Some b).
  { intros kv a b Hin Ha Hb. apply mget_In_nodup; [assumption|]. apply all_some_inv in H1. apply (Permutation_in _ P1) in Hin.
    apply (in_map (entry_json Fd)) in Hin. rewrite H1 in Hin. apply in_map_iff in Hin as (x & Hx & Hin). unfold entry_json in Hx. rewrite Ha, Hb in Hx. injection Hx as ->. exact Hin. }
  assert (T : forall s v, In (IText s, v) l -> key_text (IText s) = Some s).
  { intros s v Hin. apply (Permutation_in _ P1) in Hin. apply all_some_inv in H1. apply (in_map (entry_json Fd)) in Hin. rewrite H1 in Hin. apply in_map_iff in Hin as (x & Hx & _).
    unfold entry_json in Hx. cbn [fst key_text] in *. destruct (utf8_valid s); [reflexivity|discriminate]. }
  repeat split.
  - intros s v b Hin Hb. apply (G _ s b Hin); [now apply (T s v)|exact Hb].
  - intros n v b Hin Hb. exists (dec_text n). split; [apply decimal_dec|]. now apply (G _ _ b Hin).
  - intros n v b Hin Hb. exists (dec_text (n + 1)). split; [apply decimal_dec|]. now apply (G _ _ b Hin).
  - apply all_some_inv in H1. apply (f_equal (@List.length _)) in H1. rewrite !map_length in H1. rewrite <- H1. symmetry. now apply Permutation_length.
Qed.
Example C230_example : let l := [(IText "a", IUint 1); (IUint 1, IText "x"); (INeg 0, ISimple 21)] in
  NoDup (map (fun kv => key_text (fst kv)) l) /\ (exists m, converted xFd l m /\ mget m "-1" = Some (JBool true) /\ mget m "1" = Some (JStr "x")).
Proof.
  cbn zeta. split.
  { vm_compute. repeat constructor; cbn; intuition discriminate. }
  eexists. split; [eexists; eexists; split; [apply Permutation_refl|]; split; [vm_compute; reflexivity|reflexivity]|]. split; reflexivity.
Qed.
Print Assumptions C230_order_of_keys.

(** ** C231  (refuted) "Converting a decoded CBOR map gives one result."  Keys of different CBOR types may have the same text: the
    integer 1 and the text "1" collide, and the value that stays is the one Go happens to visit last. *)
Theorem C231_key_collision_refuted : ~ forall Fd l m m' k, converted Fd l m -> converted Fd l m' -> mget m k = mget m' k.
Proof.
  intros H. specialize (H xFd [(IUint 1, ISimple 20); (IText "1", ISimple 21)] [("1", JBool true)] [("1", JBool false)] "1").
  assert (A : converted xFd [(IUint 1, ISimple 20); (IText "1", ISimple 21)] [("1", JBool true)]).
  { exists [(IUint 1, ISimple 20); (IText "1", ISimple 21)], [("1", JBool false); ("1", JBool true)]. split; [apply Permutation_refl|]. split; vm_compute; reflexivity. }
  assert (B : converted xFd [(IUint 1, ISimple 20); (IText "1", ISimple 21)] [("1", JBool false)]).
  { exists [(IText "1", ISimple 21); (IUint 1, ISimple 20)], [("1", JBool true); ("1", JBool false)]. split; [apply perm_swap|]. split; vm_compute; reflexivity. }
  specialize (H A B). discriminate H.
Qed.
Print Assumptions C231_key_collision_refuted.

(** ** C232  (refuted) "An accepted token has only one byte form."  The unprotected header is not signed and the form of lengths is
    not checked: from every accepted message others are made, with other bytes, the same verdict and payload. *)
Theorem C232_malleable_refuted : forall hok issuer (chk : cwt_checker) check_issuer data m p,
  parse_and_check hok issuer chk check_issuer data = Ok (m, p) ->
  forall u, fits false 31 (IMap u) -> u <> s1_unprot m -> hok (s1_prot m) u = true ->
  exists data' m', data' <> data /\ parse_and_check hok issuer chk check_issuer data' = Ok (m', p) /\ s1_unprot m' = u.
Proof.
  intros hok issuer chk ci data m p H u Hf Hu Hok. pose proof H as H0.
  apply accepted_iff in H as (c & key & alg & iss & Hp & Hh & Hs & _ & -> & Hk & Ha & Hi & Hc). destruct Hp as (ut & pt & st & Hd & D1 & D2 & D3 & D4).
  set (m' := {| s1_raw := s1_raw m; s1_prot := s1_prot m; s1_unprot := u; s1_payload := s1_payload m; s1_sig := s1_sig m |}).
  exists (String "210" (String "132" "") ++ s1_raw m ++ enc (IMap u) ++ pt ++ st), m'.
  assert (Hp' : cose_parts (String "210" (String "132" "") ++ s1_raw m ++ enc (IMap u) ++ pt ++ st) (s1_raw m) c u (s1_payload m) (s1_sig m)).
  { exists (enc (IMap u)), pt, st. split; [reflexivity|]. split; [assumption|]. split; [now apply dec_all_enc|]. auto. }
  assert (Hx : parse_and_check hok issuer chk ci (String "210" (String "132" "") ++ s1_raw m ++ enc (IMap u) ++ pt ++ st) = Ok (m', match s1_payload m with Some s => s | None => "" end)).
  { apply accepted_iff. exists c, key, alg, iss. subst m'. cbn [s1_raw s1_prot s1_unprot s1_payload s1_sig]. repeat (split; [assumption || reflexivity|]). exact Hc. }
  split; [|split; [exact Hx|reflexivity]]. intros E. rewrite E, H0 in Hx. injection Hx as Hm. apply Hu. rewrite Hm. reflexivity.
Qed.
Example C232_example : is_ok (parse_and_check any_headers (payload_issuer any_value) ex_chk true ex_good) = true
  /\ fits false 31 (IMap [(IUint 9, IText "x")]) /\ match cwt_parse any_headers ex_good with Ok m => s1_unprot m = [] | _ => False end.
Proof. split; [vm_compute; reflexivity|]. split; [vm_compute; intuition (try discriminate; reflexivity)|vm_compute; reflexivity]. Qed.
Print Assumptions C232_malleable_refuted.
