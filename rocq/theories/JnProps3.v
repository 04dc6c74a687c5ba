(** C329: a presentation signed with a proof creator and parsed with a proof checker. *)
From Coq Require Import Permutation.
From Verif Require Import GoBase Base64 StatusModel PexModel StrLemmas JwtSpec DiSpec VcSpec JwtModel SdSpec SdModel SdParse DiModel VcModel VcJwt VcParse VcProofs VcSign VcSignProofs JwtProofs JwtProps VcProps VcProps2 VcProps3 VcProps4
  VpModel VpProofs VpSignProofs VpProps VpProps3 CkModel CkProps JnModel JnProofs JnProps KaModel JnProps2.
From Verif Require LdModel.

(** ** C329  A presentation signed with CreateJWTVP and a proof creator is accepted by ParsePresentation with a proof checker that has a descriptor for the algorithm and accepts what the
    creator's first signer for it signs, when the key id resolves under the DID it names; the presentation comes back with its credentials. *)
Theorem C329_sign_then_parse : forall L text_of P copts kopts (R : resolver) cc o p p' aud mi alg kid name vm d c U cs,
  create_jwt_vp (signing L text_of (creator_jwt (LdModel.new_creator copts))) U p aud alg kid mi = Ok p' -> jws_name alg = Ok name ->
  plain_vp p -> (pr_holder p <> "" \/ pr_id p <> "" \/ aud <> []) -> creds_back (pe_v P) o U p cs -> acceptable P o U p cs ->
  (* the JSON library *)
  sorts L -> same_json L (pe_v P) -> reads_headers L (LdModel.creator_headers name kid) -> pres_payload false U p aud mi = Ok c -> survives L c ->
  (forall b, text_of c = Some b -> exists ms, jl_members L b = Some ms /\ Permutation ms c) ->
  (* the parser has the checker; key and checker fit the creator *)
  vo_check o = Some cc -> cc_jwt cc = new_check_jwt R kopts -> kid <> "" -> R kid (before_hash kid) = Ok vm ->
  first_with (fun d => jd_alg d = name) (given_jwts kopts) d ->
  (forall x data sig, first_with (fun x => jd_alg (fst x) = name) (given_signers copts) x -> snd x data = Ok sig -> accepted_by (given_verifiers kopts) (jd_vms d) vm data sig) ->
  (forall x data, In x (given_signers copts) -> snd x data <> Ok "") ->
  forall data, VpProps3.token_text (pe_v P) "application/vp-ld+jwt" (pr_jwt p') data ->
  exists q, parse_presentation_vp P o data = Ok q /\ same_vp p q cs /\ pr_jwt q = pr_jwt p' /\ pr_cwt q = None.
Proof.
  intros L text_of P copts kopts R cc o p p' aud mi alg kid name vm d c U cs H Hn Hp Hal Hcr Hac S J Rh Hcl V Ht Hck Hcc Hk Hr Hd Hx Hne data Hdt.
  set (K := creator_jwt (LdModel.new_creator copts)) in *.
  set (S' := {| se_alg := jws_name; se_jws := fun cl a k => if (json_eqb (JObj cl) (JObj c) && String.eqb a name && String.eqb k kid)%bool then marshal_jws L text_of K cl a k else Err "x";
    se_unsec := fun _ => Err "not used"; se_cose := fun _ _ _ => Err "not used"; se_hex := fun s => s |}).
  assert (H' : create_jwt_vp S' U p aud alg kid mi = Ok p').
  { unfold create_jwt_vp in *. rewrite Hcl in *. cbn [bind signing S' se_alg se_jws] in *. rewrite Hn in *. cbn [bind] in *. now rewrite json_eqb_refl, !String.eqb_refl. }
  assert (Hmk : makes_jws (pe_v P) S').
  { intros cl a k t h Ncl. cbn [S' se_jws]. destruct (json_eqb _ _) eqn:Ej; [|discriminate]. apply json_eqb_eq in Ej. injection Ej as ->. destruct (String.eqb_spec a name) as [->|]; [|discriminate].
    destruct (String.eqb_spec k kid) as [->|]; [|discriminate]. cbn [andb]. intros Hm. destruct (signing_text _ _ _ _ _ _ _ _ _ S J Ncl V Ht Rh Hne Hm) as (j & ms & A & B & C & _). eauto. }
  destruct (C150_sign_jwt_then_parse P S' U o p p' aud alg kid mi cs H' Hmk Hp Hal Hcr Hac) as [_ G]; [|now apply G].
  right. intros j Hdj. exists cc, kid.
  unfold create_jwt_vp in H. rewrite Hcl in H. cbn [bind signing se_alg se_jws] in H. rewrite Hn in H. cbn [bind] in H. apply bind_ok in H as ([t h] & Hm & H). injection H as <-. cbn [with_envelope pr_jwt fst] in Hdj.
  destruct (signing_text _ _ _ _ _ _ _ _ _ S J (proj1 V) V Ht Rh Hne Hm) as (j' & ms & A & B & C & D & x & X1 & X2).
  destruct A as (_ & _ & _ & _ & A & _). assert (j' = j) as -> by congruence. pose proof (creator_heads_get name kid) as [G1 G2]. rewrite C, D. split; [exact Hck|]. split; [now apply G2|].
  rewrite Hcc. apply C312_jwt. exists kid, name, vm, d. repeat split; auto. eapply Hx; eassumption.
Qed.

(** an instance: the credential of C328, signed, in a presentation that is signed too *)
Definition jv_cred : credential := Eval vm_compute in match create_signed_jwt (jm_sign false) sg_cred false EdDSA "did:i#k" with Ok c => c | _ => sg_cred end.
Definition jv_vp : presentation := {|
  pr_context := [v1_context]; pr_custom_ctx := []; pr_id := "urn:vp"; pr_types := ["VerifiablePresentation"]; pr_creds := [jv_cred]; pr_holder := "did:i";
  pr_proofs := []; pr_jwt := ""; pr_cwt := None; pr_custom := [] |}.
Definition jv_claims (mi : bool) : gomap json := Eval vm_compute in
  if mi then match pres_payload false xp_U jv_vp ["v1"; "v2"] true with Ok c => c | _ => [] end else match pres_payload false xp_U jv_vp ["v1"; "v2"] false with Ok c => c | _ => [] end.
Definition jv_cl : gomap json := Eval vm_compute in sg_claims false.
Definition jv_lib (mi : bool) := jm_lib jv_cl (jv_claims mi).
Definition jv_R : resolver := fun k i => if String.eqb i "did:i" then Ok ck_vm else Err "x".
Definition jv_comb : combined := {| cc_jwt := new_check_jwt jv_R jn_kopts; cc_ld := cc_ld ex_comb; cc_cwt := cc_cwt ex_comb |}.
Definition jv_vopts : vopts :=
  {| vo_check := Some jv_comb; vo_no_proof := false; vo_strict := false; vo_require_vc := true; vo_require_proof := true;
     vo_no_jsonld := false; vo_di := None; vo_purpose := ""; vo_domain := ""; vo_challenge := ""; vo_holder := false; vo_related := true |}.
Definition jv_sign (mi : bool) : senv := signing (jv_lib mi) (fun _ => Some "T") (creator_jwt (LdModel.new_creator jn_copts)).
Definition jv_back : list credential := Eval vm_compute in match decode_one (jm_env jv_cl []) jv_vopts (JStr match cr_jwt jv_cred with Some je => je_jwt je | None => "" end) with Ok c => [c] | _ => [] end.
Definition jv_env (mi : bool) : venv := jm_env jv_cl (jv_claims mi).
Lemma jv_survives mi : reads_headers (jv_lib mi) jm_heads /\ survives (jv_lib mi) (jv_claims mi).
Proof.
  split.
  - split; [vm_compute; nodup_keys|]. intros b H. destruct mi; vm_compute in H; injection H as <-; (split; [reflexivity|]); exists jm_heads; auto.
  - split; [destruct mi; vm_compute; nodup_keys|]. intros b H.
    assert (b = "V") as -> by (destruct mi; vm_compute in H; now injection H as <-). split; exists (jv_claims mi); destruct mi; auto.
Qed.
Example C329_example mi : exists p',
  create_jwt_vp (jv_sign mi) xp_U jv_vp ["v1"; "v2"] EdDSA "did:i#k" mi = Ok p' /\ pres_payload false xp_U jv_vp ["v1"; "v2"] mi = Ok (jv_claims mi) /\ plain_vp jv_vp /\
  creds_back (jv_env mi) jv_vopts xp_U jv_vp jv_back /\ List.length jv_back = 1%nat /\ acceptable (toyP (jv_env mi)) jv_vopts xp_U jv_vp jv_back /\
  sorts (jv_lib mi) /\ same_json (jv_lib mi) (jv_env mi) /\ reads_headers (jv_lib mi) jm_heads /\ survives (jv_lib mi) (jv_claims mi) /\
  vo_check jv_vopts = Some jv_comb /\ cc_jwt jv_comb = new_check_jwt jv_R jn_kopts /\ jv_R "did:i#k" (before_hash "did:i#k") = Ok ck_vm /\ vo_no_proof jv_vopts = false /\
  exists q, parse_presentation_vp (toyP (jv_env mi)) jv_vopts (pr_jwt p') = Ok q /\ pr_creds q = jv_back.
Proof.
  assert (Hpl : plain_vp jv_vp).
  { split; [discriminate|]. split; [reflexivity|]. split; [discriminate|]. split; [cbn; constructor|]. cbn. intuition (subst; discriminate). }
  eexists. split; [destruct mi; vm_compute; reflexivity|]. split; [destruct mi; vm_compute; reflexivity|]. split; [exact Hpl|].
  split.
  { unfold creds_back, jv_vp. cbn [pr_creds]. constructor; [|constructor]. eexists. split; [vm_compute; reflexivity|]. destruct mi; vm_compute; reflexivity. }
  split; [reflexivity|]. split; [apply acceptable_toy; [now left|apply Hpl|destruct mi; vm_compute; reflexivity|discriminate]|].
  split; [apply jm_sorts|]. split; [apply jm_json|]. split; [apply jv_survives|]. split; [apply jv_survives|].
  split; [reflexivity|]. split; [reflexivity|]. split; [vm_compute; reflexivity|]. split; [reflexivity|].
  destruct mi; eexists; (split; [vm_compute; reflexivity|vm_compute; reflexivity]).
Qed.
Print Assumptions C329_sign_then_parse.
