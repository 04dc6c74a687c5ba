(** Theorems about signing JWTs with a proof creator (C206). *)
From Verif Require Import GoBase Base64 JwtSpec DiSpec VcSpec JwtModel JwtProofs SdSpec SdModel SdParse DiModel VcModel VcJwt VcParse VcSign VpModel VcAdd LdModel LdSpec LdProofs LdProps JwtProps.

(** ** C206  Signing with a proof creator, then checking: the headers made for an algorithm and key id carry them (the key id only
    when there is one), and a signature made for that algorithm is accepted by a checker that resolves the key id to a key the
    first registered signer of the algorithm signs for. *)
Theorem C206_headers : forall alg kid,
  mget (creator_headers alg kid) "alg" = Some (JStr alg)
  /\ (kid <> "" -> mget (creator_headers alg kid) "kid" = Some (JStr kid)) /\ (kid = "" -> mget (creator_headers alg kid) "kid" = None)
  /\ forall k, mget (creator_headers alg kid) k <> None -> k = "alg" \/ k = "kid".
Proof.
  intros alg kid. unfold creator_headers. destruct (String.eqb_spec kid "") as [->|Hne].
  - split; [reflexivity|]. split; [contradiction|]. split; [reflexivity|]. intros k H. cbn [mget] in H. destruct (String.eqb_spec k "alg"); [now left|contradiction].
  - split; [reflexivity|]. split; [reflexivity|]. split; [contradiction|]. intros k H. rewrite mget_mset in H. cbn [mget] in H.
    destruct (String.eqb_spec k "kid"); [now right|]. destruct (String.eqb_spec k "alg"); [now left|contradiction].
Qed.
Theorem C206_sign_then_check : forall (opts : list copt) (alg kid iss msg sig : string) d s (R : resolver) (ds : list jdesc) vs vm dc pk v,
  creator_sign_jwt (new_creator opts) alg msg = Ok sig -> kid <> "" ->
  (* the first signer registered for the algorithm ... *)
  first_of (for_alg alg) opts (WithJWTAlg d s) ->
  (* ... signs for the key the id resolves to: its signatures verify under that key *)
  R kid iss = Ok vm -> (exists pre post, ds = (pre ++ dc :: post)%list /\ jd_alg dc = alg /\ Forall (fun x => jd_alg x <> alg) pre) ->
  convert_to_public_key (jd_vms dc) vm = Ok pk -> get_verifier vs (pk_type pk) = Ok v ->
  (forall m g, s m = Ok g -> sv_verify v g m pk = Ok tt) ->
  check_jwt_proof R ds vs (creator_headers alg kid) iss msg sig = Ok tt.
Proof.
  intros opts alg kid iss msg sig d s R ds vs vm dc pk v H Hk Hf HR (pre & post & -> & Ha & Hpre) Hpk Hv Hs.
  destruct (C206_headers alg kid) as (H1 & H2 & _). specialize (H2 Hk).
  unfold check_jwt_proof, h_kid, h_alg, h_str. rewrite H1, H2. cbn match. rewrite HR. cbn [bind].
  assert (Hd : supported_by_alg (pre ++ dc :: post) alg = Ok dc).
  { unfold supported_by_alg. clear - Ha Hpre. induction Hpre as [|x pre Hx Hpre IH]; cbn [app find].
    - rewrite Ha, String.eqb_refl. reflexivity.
    - destruct (String.eqb_spec (jd_alg x) alg); [contradiction|]. exact IH. }
  rewrite Hd. cbn [bind]. unfold verify_with. rewrite Hpk. cbn [bind]. rewrite Hv. cbn [bind]. apply Hs.
  apply C196_sign_jwt in H as (d' & s' & Hf' & Hs'). apply by_alg_spec in Hf. apply by_alg_spec in Hf'. rewrite Hf in Hf'. injection Hf' as <- <-. exact Hs'.
Qed.
Definition cy_opts : list copt := [WithJWTAlg d_es256 (fun _ => Err "no"); WithJWTAlg d_eddsa (fun m => Ok ("sig:" ++ m)); WithJWTAlg d_eddsa (fun _ => Ok "late")].
Definition cy_vm : vmeth := {| vm_type := "JsonWebKey2020"; vm_value := ""; vm_jwk := Some {| jk_kty := "OKP"; jk_crv := "Ed25519"; jk_key := KEd ex_key |} |}.
Definition cy_R : resolver := fun k i => if String.eqb k "did:a#1" && String.eqb i "did:a" then Ok cy_vm else Err "x".
Example C206_example :
  creator_sign_jwt (new_creator cy_opts) "EdDSA" "m" = Ok "sig:m"
  /\ first_of (for_alg "EdDSA") cy_opts (WithJWTAlg d_eddsa (fun m => Ok ("sig:" ++ m)))
  /\ (exists pre post, default_jdescs = (pre ++ d_eddsa :: post)%list /\ jd_alg d_eddsa = "EdDSA" /\ Forall (fun x => jd_alg x <> "EdDSA") pre)
  /\ (exists pk v, convert_to_public_key (jd_vms d_eddsa) cy_vm = Ok pk /\ get_verifier (default_verifiers ex_cenv) (pk_type pk) = Ok v
        /\ forall m g, Ok ("sig:" ++ m) = Ok g -> sv_verify v g m pk = Ok tt)
  /\ check_jwt_proof cy_R default_jdescs (default_verifiers ex_cenv) (creator_headers "EdDSA" "did:a#1") "did:a" "m" "sig:m" = Ok tt
  /\ is_err (check_jwt_proof cy_R default_jdescs (default_verifiers ex_cenv) (creator_headers "EdDSA" "") "did:a" "m" "sig:m") = true.
Proof.
  split; [reflexivity|]. split.
  { exists [WithJWTAlg d_es256 (fun _ => Err "no")], [WithJWTAlg d_eddsa (fun _ => Ok "late")]. split; [reflexivity|]. split; [eexists _, _; split; reflexivity|].
    constructor; [|constructor]. intros (d & s & [= <- _] & H). discriminate H. }
  split; [eexists [], _; split; [reflexivity|]; split; [reflexivity|constructor]|]. split.
  { eexists _, _. split; [reflexivity|]. split; [reflexivity|]. intros m g [= <-]. cbn [sv_verify]. unfold ed_verify. cbn. now rewrite String.eqb_refl. }
  split; reflexivity.
Qed.
Print Assumptions C206_headers.
Print Assumptions C206_sign_then_check.
