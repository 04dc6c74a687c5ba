(** Property theorems for CWTs: presentations (C233). *)
From Coq Require Import Permutation Lia.
From Verif Require Import GoBase StrLemmas Base64 JwtSpec DiSpec VcSpec JwtModel JwtProofs SdSpec SdModel SdParse SdIssueV2 DiModel DiProps VcModel VcJwt VcParse
  VcProofs VcSign VcSignProofs JwtProps VcProps VcProps2 VcProps3 VcProps4 VpModel VpProofs VpPanic VpSignProofs VpProps VpProps2 VpProps3 CwModel CwSpec CwProofs CwProofs2 CwProofs3 CwProofs4 CwProofs5 CwProps CwProps2.

(** ** C233  A presentation signed as a CWT, down to the bytes: from the hex text of the token (bare, quoted or enveloped) parsing
    gives the same presentation, provided its claims survive CBOR. *)
Theorem C233_presentation_bytes : forall hok sign F Fd (P : vpenv) (S : senv) (U : credential -> res json) (o : vopts) (p p' : presentation) aud alg kid cs w,
  create_cwt_vp (pe_v P) S U p aud alg kid false = Ok p' -> pr_cwt p' = Some w -> uses_cbor hok sign F Fd (pe_v P) S ->
  (forall cl, pres_payload true U p aud false = Ok cl -> plain_claims F Fd cl /\ sized (enc (claims_item F cl))) ->
  int64 alg -> sized kid -> (forall t s, sign alg kid t = Ok s -> sized s) ->
  plain_vp p -> creds_back (pe_v P) o U p cs -> acceptable P o U p cs ->
  p' = with_envelope p "" (Some w)
  /\ forall data, token_text (pe_v P) "application/vp-ld+cose" (hex_encode (vw_raw w)) data ->
       exists q, parse_presentation_vp P o data = Ok q /\ same_vp p q cs /\ pr_jwt q = "" /\ pr_cwt q = Some w.
Proof.
  intros hok sign F Fd P S U o p p' aud alg kid cs w H Hw HU Hcl Ha Hk Hs Hp Hcr Hac. rewrite <- (uc_enc _ _ _ _ _ _ HU).
  apply (C152_sign_cwt_then_parse P S U o p p' aud alg kid cs w H Hw); try assumption.
  intros cl Hc. destruct (Hcl cl Hc) as [Hpl Hsz]. eapply uses_makes; eassumption.
Qed.
Definition xw_env : venv := let E := toyV0 [(ex_tok "good", ex_jws "sig:m")] [("P", ex_jwt_members); ("{}", [])] in {|
  ve_time := ve_time E; ve_jwt := ve_jwt E; ve_members := ve_members E; ve_obj := ve_obj E; ve_sd := ve_sd E; ve_order := ve_order E;
  ve_cose := fun s => option_map coset_of (parse_sign1 any_headers s); ve_hex := hex_decode; ve_cbor := cbor_claims xFd; ve_schema := ve_schema E; ve_valid := ve_valid E;
  ve_jsonld := ve_jsonld E; ve_ext := ve_ext E; ve_ldproofs := ve_ldproofs E; ve_ldmsg := ve_ldmsg E; ve_di := ve_di E;
  ve_now := ve_now E; ve_related := ve_related E |}.
Lemma xw_uses : uses_cbor any_headers ex_sign xF xFd xw_env xb_senv.
Proof.
  constructor; try reflexivity. intros s. pose proof (hex_is_hex s) as H. cbn [xw_env ve_members toyV0 mget].
  destruct (String.eqb_spec (hex_encode s) "P") as [E|]; [rewrite E in H; discriminate|]. destruct (String.eqb_spec (hex_encode s) "{}") as [E|]; [rewrite E in H; discriminate|]. reflexivity.
Qed.
Definition xw_raw : string := Eval vm_compute in
  match create_cwt_vp xw_env xb_senv xp_U xc_vp ["v1"] (-8) "did:i#k" false with Ok v => match pr_cwt v with Some ce => vw_raw ce | None => "" end | _ => "" end.
Example C233_example :
  uses_cbor any_headers ex_sign xF xFd xw_env xb_senv
  /\ (forall cl, pres_payload true xp_U xc_vp ["v1"] false = Ok cl -> plain_claims xF xFd cl /\ sized (enc (claims_item xF cl)))
  /\ (exists p' w, create_cwt_vp xw_env xb_senv xp_U xc_vp ["v1"] (-8) "did:i#k" false = Ok p' /\ pr_cwt p' = Some w /\ vw_raw w = xw_raw)
  /\ plain_vp xc_vp /\ acceptable (toyP xw_env) ex_vopts xp_U xc_vp xp_creds /\ creds_back xw_env ex_vopts xp_U xc_vp xp_creds
  /\ token_text xw_env "application/vp-ld+cose" (hex_encode xw_raw) (hex_encode xw_raw)
  /\ is_ok (parse_presentation_vp (toyP xw_env) ex_vopts (hex_encode xw_raw)) = true.
Proof.
  split; [exact xw_uses|]. split.
  { intros cl Hc. assert (cl = xc_claims false) as -> by (vm_compute in Hc; injection Hc as <-; reflexivity). split; [|vm_compute; reflexivity].
    split; [vm_compute; discriminate|]. split; [cbn; nodup_keys|]. unfold xc_claims.
    repeat match goal with |- Forall _ _ => constructor end; cbn [fst snd plain_claim plain fold_right map]; repeat match goal with
        | |- _ /\ _ => split
        | |- plain_text _ => apply small_text; reflexivity
        | |- True => exact I
        | |- NoDup _ => nodup_keys
        | |- (_ <= _)%N => vm_compute; discriminate
        end. }
  split. { eexists. eexists. split; [vm_compute; reflexivity|]. split; reflexivity. }
  split; [exact xc_plain|]. split. { apply acceptable_toy; [now right|apply xc_plain|vm_compute; reflexivity|discriminate]. }
  split. { unfold creds_back, xc_vp. cbn [pr_creds]. unfold xp_creds at 1 2. constructor; [|constructor]. exists (JStr (ex_tok "good")). split; vm_compute; reflexivity. }
  split; [constructor|]. vm_compute. reflexivity.
Qed.
Print Assumptions C233_presentation_bytes.
