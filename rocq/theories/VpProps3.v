(** Property theorems for presentations: signing or marshalling and parsing back (C150-C155). *)
From Coq Require Import Permutation.
From Verif Require Import GoBase Base64 StatusModel PexModel StrLemmas JwtSpec DiSpec VcSpec JwtModel SdSpec SdModel SdParse DiModel
  VcModel VcJwt VcParse VcProofs VcView VcText VcMod VcSecure VcJwtProofs VcPanic VcSign VcSignProofs DiProofs DiProps JwtProofs JwtProps VcProps VcProps2 VcProps3 VcProps4 VcProps5
  VpModel VpProofs VpPanic VpSignProofs VpProps VpProps2.

(** [q] is [p] read back, with the credentials [cs] *)
Definition same_vp (p q : presentation) (cs : list credential) : Prop :=
  pr_context q = pr_context p /\ pr_custom_ctx q = pr_custom_ctx p /\ pr_id q = pr_id p /\ pr_types q = pr_types p /\ pr_holder q = pr_holder p
  /\ pr_proofs q = pr_proofs p /\ pr_creds q = cs /\ forall k, mget (pr_custom q) k = mget (pr_custom p) k.
(** each credential of [p], in the form it is enclosed in, is read back as the corresponding one of [cs] *)
Definition creds_back (E : venv) (o : vopts) (U : credential -> res json) (p : presentation) (cs : list credential) : Prop :=
  Forall2 (fun c c' => exists j, U c = Ok j /\ decode_one E o j = Ok c') (pr_creds p) cs.
(** what the options ask for besides the signature: the validators accept the object of [p] (whatever the order of its
    members), the holder and related-resource checks pass, there is a credential when one is required *)
Definition acceptable (P : vpenv) (o : vopts) (U : credential -> res json) (p : presentation) (cs : list credential) : Prop :=
  (forall m0 m, pres_raw U p = Ok m0 -> (forall k, mget m k = mget m0 k) -> validate_vp P o m = Ok tt)
  /\ execute_checks (pe_v P) o (pr_proofs p) cs (pr_holder p) = Ok tt
  /\ (vo_require_vc o = true -> cs <> []).

Lemma creds_back_split E o U p cs : creds_back E o U p cs ->
  exists js, map_res U (pr_creds p) = Ok js /\ Forall2 (fun j c => decode_one E o j = Ok c) js cs.
Proof.
  unfold creds_back. induction 1 as [|c c' l l' (j & Hu & Hd) _ (js & Hm & Hf)]; [exists []; split; [reflexivity|constructor]|].
  exists (j :: js). split; [|constructor; assumption]. cbn [map_res]. rewrite Hu. cbn [bind]. now rewrite Hm.
Qed.
Lemma raw_total U p js : map_res U (pr_creds p) = Ok js -> exists m, pres_raw U p = Ok m.
Proof. intros H. unfold pres_raw. rewrite H. cbn [bind]. eauto. Qed.
Lemma finish P o U p js cs m : plain_vp p -> map_res U (pr_creds p) = Ok js -> Forall2 (fun j c => decode_one (pe_v P) o j = Ok c) js cs ->
  acceptable P o U p cs -> (forall k, mget m k = vp_member p js k) -> forall jwt cw r, r = {| vr_raw := m; vr_jwt := jwt; vr_cwt := cw |} ->
  exists q, (let* _ := validate_vp P o (vr_raw r) in let* x := new_presentation (pe_v P) o (vr_raw r) in
    let* _ := guard (negb (vo_require_vc o) || negb (is_empty (pr_creds x))) "verifiableCredential is required" in
    Ok (with_envelope x (vr_jwt r) (vr_cwt r))) = Ok q /\ same_vp p q cs /\ pr_jwt q = jwt /\ pr_cwt q = cw.
Proof.
  intros Hp Hjs Hf (Hv & Hx & Hq) Hm jwt cw r ->. cbn [vr_raw vr_jwt vr_cwt].
  destruct (raw_total U p js Hjs) as (m0 & Hm0). pose proof Hp as (_ & Hcc & _ & Hcu).
  destruct (raw_spec U p m0 Hm0 Hcu) as (js' & Hjs' & _ & Hg). rewrite Hjs in Hjs'. injection Hjs' as <-.
  rewrite (Hv m0 m Hm0) by (intros k; now rewrite Hm, Hg). cbn [bind].
  destruct (new_round (pe_v P) o p js cs m Hp Hm Hf Hx) as [Hn Hcust]. rewrite Hn. cbn [bind].
  assert (Hg' : guard (negb (vo_require_vc o) || negb (is_empty (pr_creds (vp_read p cs m)))) "verifiableCredential is required" = Ok tt).
  { cbn [vp_read pr_creds]. destruct (vo_require_vc o); [|reflexivity]. destruct cs; [now destruct Hq|reflexivity]. }
  rewrite Hg'. cbn [bind]. eexists; split; [reflexivity|]. cbn [with_envelope pr_jwt pr_cwt]. split; [|auto]. unfold same_vp.
  cbn [with_envelope vp_read pr_context pr_custom_ctx pr_id pr_types pr_holder pr_proofs pr_creds pr_custom]. rewrite Hcc. repeat (split; [reflexivity|]). exact Hcust.
Qed.
(** the "vp" claim (minimised or not) with the claims applied has the members of [p] *)
Lemma claims_members (U : credential -> res json) (p : presentation) (mi : bool) (mv : gomap json) (js : list json) (m : gomap json) : plain_custom p -> map_res U (pr_creds p) = Ok js ->
  pres_raw U (if mi then minimized p else p) = Ok mv ->
  (forall k, mget m k = if String.eqb k "holder" && negb (String.eqb (pr_holder p) "") then Some (JStr (pr_holder p))
     else if String.eqb k "id" && negb (String.eqb (pr_id p) "") then Some (JStr (pr_id p)) else mget mv k) ->
  forall k, mget m k = vp_member p js k.
Proof.
  intros Hc Hjs Hr Hm k. rewrite Hm. destruct (raw_spec U (if mi then minimized p else p) mv Hr ltac:(now destruct mi)) as (js' & Hjs' & _ & Hg).
  assert (js' = js) by (destruct mi; cbn [minimized pr_creds] in Hjs'; congruence). subst js'. rewrite Hg. unfold vp_member.
  destruct (String.eqb_spec k "holder") as [->|N1].
  { cbn [String.eqb Ascii.eqb Bool.eqb andb]. destruct mi; cbn [minimized pr_holder]; now destruct (String.eqb (pr_holder p) ""). }
  destruct (String.eqb_spec k "id") as [->|N2].
  { cbn [String.eqb Ascii.eqb Bool.eqb andb]. destruct mi; cbn [minimized pr_id]; now destruct (String.eqb (pr_id p) ""). }
  destruct mi; cbn [andb minimized pr_context pr_types pr_proofs pr_custom]; reflexivity.
Qed.
Lemma raw_ne U p (m : gomap json) : pres_raw U p = Ok m -> plain_vp p -> m <> [].
Proof.
  intros Hr (Hc & _ & _ & Hcu) ->. destruct (raw_spec U p [] Hr Hcu) as (js & _ & _ & Hg). specialize (Hg "@context").
  cbn in Hg. destruct (pr_context p); [contradiction|discriminate].
Qed.
Lemma plain_min p : plain_vp p -> plain_vp (minimized p).
Proof. intros H. exact H. Qed.

(** ** C150  Signing a presentation as a JWT (minimised or not) and parsing the token - as it is, or in the JSON text that
    MarshalJSON writes for it - gives the presentation back, with the credentials it encloses. *)
(** the proof checker accepts the token for the DID its kid names *)
Definition accepts_token (E : venv) (o : vopts) (tok : string) : Prop :=
  vo_no_proof o = true \/ forall j, de_jws (ve_jwt E) tok None = Ok j ->
    exists cc kid, vo_check o = Some cc /\ mget (jws_headers j) "kid" = Some (JStr kid)
      /\ cc_jwt cc (jws_headers j) (before_hash kid) (jws_input j) (jws_sig j) = Ok tt.
(** texts that stand for the token: itself, a JSON string, a JSON object that envelopes it *)
Inductive token_text (E : venv) (media tok : string) : string -> Prop :=
| tt_self : token_text E media tok tok
| tt_quoted : ve_members E (quoted tok) = None -> ve_cose E (quoted tok) = None -> token_text E media tok (quoted tok)
| tt_env data : json_text E data [("id", JStr ("data:" ++ media ++ "," ++ tok)); ("type", JArr [JStr "EnvelopedVerifiablePresentation"]);
    ("@context", JArr [JStr "https://www.w3.org/ns/credentials/v2"])] -> token_text E media tok data.

Lemma jws_parse P o tok j ms c m : jws_text (pe_v P) tok j ms -> pres_claims ms = Ok c -> pres_refine c = Ok m ->
  accepts_token (pe_v P) o tok -> forall d, un_quote d = tok ->
  vp_json_parser P o d = Ok {| vr_raw := of_nil m; vr_jwt := tok; vr_cwt := None |}.
Proof.
  intros (_ & Hm & Hi & Hco & Hj & Hh & Hp) Hc Hr Ha d Hd. unfold vp_json_parser. rewrite Hd, Hi.
  assert (Hg : vo_no_proof o || negb (is_none (vo_check o)) = true).
  { destruct Ha as [->|Ha]; [reflexivity|]. destruct (Ha j Hj) as (cc & kid & -> & _). apply orb_true_r. }
  rewrite Hg. cbn [guard bind]. unfold decode_vp_jws, jwt_parse, parse_jwt, map_jws. rewrite Hco. cbn [guard bind]. rewrite Hj. cbn [bind]. rewrite Hh. cbn [bind].
  unfold pres_claims_of. rewrite Hp, Hc. cbn [is_ok guard bind snd]. rewrite Hp, Hc. cbn [bind].
  assert (Hk : match (if vo_no_proof o then None else option_map cc_jwt (vo_check o)) with None => Ok tt | Some pc => check_proof (ve_jwt (pe_v P)) tok pc None None end = Ok tt).
  { destruct Ha as [->|Ha]; [reflexivity|]. destruct (vo_no_proof o); [reflexivity|]. destruct (Ha j Hj) as (cc & kid & -> & Hkid & Hok). cbn [option_map].
    unfold check_proof. rewrite Hj. cbn [bind]. unfold jose_verify, h_kid, h_str. rewrite Hkid. cbn [bind]. exact Hok. }
  rewrite Hk. cbn [bind]. rewrite Hr. reflexivity.
Qed.
Lemma envelope_occ E data media d : json_text E data (vp_envelope media d) ->
  exists ms, ve_members E data = Some ms /\ occurrences "id" ms = [JStr (new_data_url media "" d)]
    /\ occurrences "type" ms = [JArr [JStr vp_enveloped_type]] /\ occurrences "@context" ms = [JArr [JStr v2_context]].
Proof.
  intros (rest & ms & _ & Hms & Hp & Hnd & _). exists ms. split; [assumption|].
  assert (Hms' : NoDup (map fst ms)) by (eapply Permutation_NoDup; [apply Permutation_map, Permutation_sym, Hp|assumption]).
  assert (Hg : forall r, In r ["id"; "type"; "@context"] -> occurrences r ms = match mget (vp_envelope media d) r with Some j => [j] | None => [] end).
  { intros r Hr. rewrite occ_nodup; [|assumption|].
    - rewrite (mget_perm (vp_envelope media d) ms); [reflexivity|assumption|now apply Permutation_sym].
    - intros k Hk. apply (Permutation_in _ (Permutation_map fst Hp)) in Hk. cbn in Hk, Hr.
      repeat (destruct Hr as [<-|Hr]; [repeat (destruct Hk as [<-|Hk]; [vm_compute; intros; (reflexivity || discriminate)|]); destruct Hk|]). destruct Hr. }
  rewrite !Hg by (cbn; tauto). repeat split; reflexivity.
Qed.
Lemma env_parse P o data media d : json_text (pe_v P) data (vp_envelope media d) -> media = vp_media_jwt \/ media = vp_media_cose ->
  vp_enveloped_parser P o data = if String.eqb media vp_media_jwt then vp_json_parser P o d else vp_cwt_parser P d.
Proof.
  intros Ht Hmed. destruct (envelope_occ _ _ _ _ Ht) as (ms & Hm & H1 & H2 & H3). unfold vp_enveloped_parser. rewrite Hm, H1, H2, H3.
  cbn [fold_res fold_left bind str_step strs_step map_res]. change (str_in vp_enveloped_type [vp_enveloped_type]) with true. cbn [guard bind].
  rewrite C101_data_url_round_trip; [cbn [bind]; destruct Hmed as [->| ->]; reflexivity| | | |intros []].
  - now destruct Hmed as [->| ->].
  - destruct Hmed as [->| ->]; unfold char_in; vm_compute; intuition discriminate.
  - destruct Hmed as [->| ->]; unfold char_in; vm_compute; intuition discriminate.
Qed.
Lemma not_json_env P o d : ve_members (pe_v P) d = None -> exists e, vp_enveloped_parser P o d = Err e.
Proof. intros H. unfold vp_enveloped_parser. rewrite H. eauto. Qed.
Lemma token_read P o tok data r : token_text (pe_v P) "application/vp-ld+jwt" tok data -> ve_members (pe_v P) tok = None -> un_quote tok = tok ->
  (forall d, un_quote d = tok -> vp_json_parser P o d = r) -> (forall e, r <> Err e) -> read_presentation P o data = r.
Proof.
  intros Ht Hm Hq Hr Hne. unfold read_presentation. destruct Ht as [|Hmq _|data Hj].
  - destruct (not_json_env P o tok Hm) as (e & ->). cbn [or_else]. rewrite (Hr tok Hq). destruct r as [x|e0|]; try reflexivity. now destruct (Hne e0).
  - destruct (not_json_env P o _ Hmq) as (e & ->). cbn [or_else]. rewrite (Hr _ (un_quote_quoted tok)). destruct r as [x|e0|]; try reflexivity. now destruct (Hne e0).
  - rewrite (env_parse P o data vp_media_jwt tok) by auto. cbn. rewrite (Hr tok Hq). destruct r as [x|e0|]; try reflexivity. now destruct (Hne e0).
Qed.
Theorem C150_sign_jwt_then_parse : forall (P : vpenv) (S : senv) (U : credential -> res json) (o : vopts) (p p' : presentation) aud alg kid mi cs,
  create_jwt_vp S U p aud alg kid mi = Ok p' -> makes_jws (pe_v P) S ->
  plain_vp p -> (pr_holder p <> "" \/ pr_id p <> "" \/ aud <> []) ->
  creds_back (pe_v P) o U p cs -> acceptable P o U p cs -> accepts_token (pe_v P) o (pr_jwt p') ->
  p' = with_envelope p (pr_jwt p') None
  /\ forall data, token_text (pe_v P) "application/vp-ld+jwt" (pr_jwt p') data ->
       exists q, parse_presentation_vp P o data = Ok q /\ same_vp p q cs /\ pr_jwt q = pr_jwt p' /\ pr_cwt q = None.
Proof.
  intros P S U o p p' aud alg kid mi cs H Hmk Hp Hal Hcr Hac Htok. unfold create_jwt_vp, pres_payload in H.
  apply bind_ok in H as (c & Hc & H). apply bind_ok in H as (a & _ & H). apply bind_ok in H as ([t h] & Hj & H). injection H as <-.
  apply bind_ok in Hc as (mv & Hmv & Hc). cbn [with_envelope pr_jwt fst] in *. split; [reflexivity|]. intros data Hd.
  assert (Hne : mv <> []) by (eapply raw_ne; [eassumption|now destruct mi]). 
  assert (Hcl : c = payload_of false (pr_holder p) (pr_id p) aud mv) by (unfold payload_of; destruct mv; [contradiction|injection Hc as <-; reflexivity]). subst c.
  destruct (Hmk _ _ _ _ _ (proj1 (payload_keys _ _ _ _ _)) Hj) as (j & ms & Ht & Hperm & _).
  destruct (creds_back_split _ _ _ _ _ Hcr) as (js & Hjs & Hf).
  assert (Hcu : plain_custom p) by apply Hp.
  destruct (raw_spec U _ mv Hmv ltac:(now destruct mi)) as (_ & _ & Hnd & _).
  pose proof (pres_claims_round ms _ _ _ _ Hperm Hnd) as Hpc.
  assert (Halloc : negb (String.eqb (pr_holder p) "" && String.eqb (pr_id p) "" && match aud with [] => true | _ => false end) = true).
  { destruct (String.eqb_spec (pr_holder p) ""), (String.eqb_spec (pr_id p) ""), aud; try reflexivity. exfalso. destruct Hal as [Hx|[Hx|Hx]]; now apply Hx. }
  rewrite Halloc in Hpc. set (cl := {| pc_alloc := true; pc_iss := pr_holder p; pc_jti := pr_id p; pc_vp := Some mv |}) in *.
  assert (Hrf : exists m, pres_refine cl = Ok m).
  { unfold pres_refine, cl. cbn [pc_alloc pc_iss pc_jti pc_vp negb oset]. destruct (String.eqb (pr_holder p) ""), (String.eqb (pr_id p) ""); cbn [bind oset]; eauto. }
  destruct Hrf as (m & Hrf). destruct (refine_spec _ _ Hrf) as (Hvm & _). unfold vp_of_claims in Hvm. cbn [cl pc_iss pc_jti pc_vp] in Hvm.
  pose proof (claims_members U p mi mv js (of_nil m) Hcu Hjs Hmv Hvm) as Hmem.
  pose proof Ht as (_ & Hmn & Hi & _).
  assert (Hrd : read_presentation P o data = Ok {| vr_raw := of_nil m; vr_jwt := t; vr_cwt := None |}).
  { eapply token_read; [eassumption|assumption|now apply (is_jws_unquoted (ve_obj (pe_v P)))| |discriminate].
    intros d Hdq. eapply jws_parse; eassumption. }
  unfold parse_presentation_vp. rewrite Hrd. cbn [bind].
  destruct (finish P o U p js cs (of_nil m) Hp Hjs Hf Hac Hmem t None _ eq_refl) as (q & Hq & Hs & H1 & H2). exists q. auto.
Qed.
Print Assumptions C150_sign_jwt_then_parse.
(** what MarshalJSON writes for a JWT presentation is such a text *)
Theorem C150_marshalled_token : forall (P : vpenv) (S : senv) U (p : presentation) data,
  pr_jwt p <> "" -> marshal_vp P S U p = Ok data ->
  (forall media d, json_text (pe_v P) (pe_marshal P (vp_envelope media d)) (vp_envelope media d)) ->
  ve_members (pe_v P) (quoted (pr_jwt p)) = None -> ve_cose (pe_v P) (quoted (pr_jwt p)) = None ->
  token_text (pe_v P) "application/vp-ld+jwt" (pr_jwt p) data.
Proof.
  intros P S U p data Hj H Hm Hq Hc. unfold marshal_vp in H. assert (Ei : is_jwt_vp p = true) by (unfold is_jwt_vp; destruct (String.eqb_spec (pr_jwt p) ""); [contradiction|reflexivity]).
  rewrite Ei in H. destruct (is_base_context (pr_context p) v2_context); cbn [andb] in H.
  - injection H as <-. apply tt_env. exact (Hm vp_media_jwt (pr_jwt p)).
  - injection H as <-. now apply tt_quoted.
Qed.
Print Assumptions C150_marshalled_token.
(** example: a presentation of a JWT credential, minimised or not *)
Definition xp_creds : list credential := Eval vm_compute in match ex_parsed with Ok p => pr_creds p | _ => [] end.
Definition xp_vp : presentation := {|
  pr_context := [v1_context]; pr_custom_ctx := []; pr_id := "urn:vp"; pr_types := ["VerifiablePresentation"]; pr_creds := xp_creds; pr_holder := "did:h";
  pr_proofs := []; pr_jwt := ""; pr_cwt := None; pr_custom := [("extra", JBool true)] |}.
Definition xp_U : credential -> res json := to_universal cw_senv (fun _ => Err "x").
Definition xp_claims (mi : bool) : gomap json := Eval vm_compute in
  if mi then match pres_payload false xp_U xp_vp ["v1"; "v2"] true with Ok c => c | _ => [] end
  else match pres_payload false xp_U xp_vp ["v1"; "v2"] false with Ok c => c | _ => [] end.
Definition vp_hdr : headers := [("alg", JStr "EdDSA"); ("kid", JStr "did:i#k")].
Definition xp_senv (claims : gomap json) : senv := {|
  se_alg := fun _ => Ok "EdDSA";
  se_jws := fun c a k => if json_eqb (JObj c) (JObj claims) && String.eqb k "did:i#k" then Ok (ex_tok "vp", vp_hdr) else Err "x";
  se_unsec := fun _ => Err "x"; se_cose := fun _ _ _ => Err "x"; se_hex := fun s => s |}.
Definition xp_env (claims : gomap json) : venv :=
  toyV0 [(ex_tok "good", ex_jws "sig:m"); (ex_tok "vp", vp_jws "sig:m")] [("P", ex_jwt_members); ("V", rev claims); ("{}", [])].
Lemma xp_makes claims : makes_jws (xp_env claims) (xp_senv claims).
Proof.
  intros c a k t h Hnd. cbn [xp_senv se_jws]. destruct (json_eqb _ _) eqn:E; [|discriminate]. apply json_eqb_eq in E. injection E as ->.
  destruct (String.eqb k _); [|discriminate]. cbn [andb]. intros [= <- <-]. exists (vp_jws "sig:m"), (rev claims).
  split; [|split; [apply Permutation_sym, Permutation_rev|reflexivity]]. unfold jws_text. repeat split; vm_compute; reflexivity.
Qed.
Lemma acceptable_toy E o U p cs : (hd "" (pr_context p) = v1_context \/ hd "" (pr_context p) = v2_context) -> plain_custom p ->
  execute_checks E o (pr_proofs p) cs (pr_holder p) = Ok tt -> (vo_require_vc o = true -> cs <> []) -> acceptable (toyP E) o U p cs.
Proof.
  intros Hc Hcu Hx Hq. split; [|split; assumption]. intros m0 m Hr Hm. destruct (raw_spec U p m0 Hr Hcu) as (js & _ & _ & Hg).
  assert (Hctx : mget m "@context" = nonempty (pr_context p) (JArr (map JStr (pr_context p)))) by (now rewrite Hm, Hg).
  destruct (pr_context p) as [|c l]; [destruct Hc; discriminate|]. cbn [nonempty] in Hctx. unfold validate_vp, get_base_context_raw, mhas. rewrite Hctx.
  rewrite (fld_member _ _ _ Hctx) by discriminate. unfold decode_context. rewrite take_strings_map. cbn [bind fst get_base_context hd] in *.
  unfold get_base_context. assert (E0 : String.eqb c v1_context || String.eqb c v2_context = true) by (destruct Hc as [->| ->]; reflexivity).
  rewrite E0. cbn [bind toyP pe_valid pe_jsonld]. now destruct (vo_no_jsonld o).
Qed.
Lemma xp_token mi : accepts_token (xp_env (xp_claims mi)) ex_vopts (ex_tok "vp").
Proof.
  right. intros j. assert (Hj : de_jws (ve_jwt (xp_env (xp_claims mi))) (ex_tok "vp") None = Ok (vp_jws "sig:m")) by (vm_compute; reflexivity).
  rewrite Hj. intros H. injection H as <-. exists ex_comb, "did:i#k". split; [reflexivity|]. split; [reflexivity|]. vm_compute; reflexivity.
Qed.
Example C150_example mi : exists p',
  create_jwt_vp (xp_senv (xp_claims mi)) xp_U xp_vp ["v1"; "v2"] 0 "did:i#k" mi = Ok p' /\ pr_jwt p' = ex_tok "vp"
  /\ makes_jws (xp_env (xp_claims mi)) (xp_senv (xp_claims mi)) /\ plain_vp xp_vp
  /\ creds_back (xp_env (xp_claims mi)) ex_vopts xp_U xp_vp xp_creds /\ List.length xp_creds = 1%nat
  /\ acceptable (toyP (xp_env (xp_claims mi))) ex_vopts xp_U xp_vp xp_creds
  /\ accepts_token (xp_env (xp_claims mi)) ex_vopts (pr_jwt p') /\ vo_no_proof ex_vopts = false
  /\ token_text (xp_env (xp_claims mi)) "application/vp-ld+jwt" (ex_tok "vp") (quoted (ex_tok "vp")).
Proof.
  assert (Hpl : plain_vp xp_vp).
  { split; [discriminate|]. split; [reflexivity|]. split; [discriminate|]. split; [cbn; nodup_keys|]. cbn. intuition (subst; discriminate). }
  eexists. split; [destruct mi; vm_compute; reflexivity|]. split; [destruct mi; reflexivity|]. split; [apply xp_makes|]. split; [exact Hpl|].
  split.
  { unfold creds_back, xp_vp. cbn [pr_creds]. unfold xp_creds at 1 2. constructor; [|constructor]. exists (JStr (ex_tok "good")).
    split; [vm_compute; reflexivity|]. destruct mi; vm_compute; reflexivity. }
  split; [reflexivity|]. split; [apply acceptable_toy; [now left|apply Hpl|destruct mi; vm_compute; reflexivity|discriminate]|].
  split; [destruct mi; apply xp_token|]. split; [reflexivity|]. apply tt_quoted; destruct mi; vm_compute; reflexivity.
Qed.

(** ** C151  (refuted) Every JWT presentation that the library signs can be given to ParsePresentation: one without holder,
    id and audience makes it panic, whatever its contents. *)
Theorem C151_signed_panics_refuted : forall (P : vpenv) (S : senv) (U : credential -> res json) (o : vopts) (p p' : presentation) alg kid mi data,
  create_jwt_vp S U p [] alg kid mi = Ok p' -> makes_jws (pe_v P) S -> plain_vp p -> pr_holder p = "" -> pr_id p = "" ->
  accepts_token (pe_v P) o (pr_jwt p') -> token_text (pe_v P) "application/vp-ld+jwt" (pr_jwt p') data ->
  parse_presentation_vp P o data = Panic.
Proof.
  intros P S U o p p' alg kid mi data H Hmk Hp Hh Hid Htok Hd. unfold create_jwt_vp, pres_payload in H.
  apply bind_ok in H as (c & Hc & H). apply bind_ok in H as (a & _ & H). apply bind_ok in H as ([t h] & Hj & H). injection H as <-.
  apply bind_ok in Hc as (mv & Hmv & Hc). cbn [with_envelope pr_jwt fst] in *.
  assert (Hne : mv <> []) by (eapply raw_ne; [eassumption|now destruct mi]).
  assert (Hcl : c = payload_of false (pr_holder p) (pr_id p) [] mv) by (unfold payload_of; destruct mv; [contradiction|injection Hc as <-; reflexivity]). subst c.
  destruct (Hmk _ _ _ _ _ (proj1 (payload_keys _ _ _ _ _)) Hj) as (j & ms & Ht & Hperm & _).
  assert (Hcu : plain_custom p) by apply Hp.
  destruct (raw_spec U _ mv Hmv ltac:(now destruct mi)) as (_ & _ & Hnd & _).
  pose proof (pres_claims_round ms _ _ _ _ Hperm Hnd) as Hpc. rewrite Hh, Hid in Hpc. cbn [String.eqb andb negb] in Hpc.
  pose proof Ht as (_ & Hmn & Hi & Hco & Hdj & Hhd & Hpm).
  assert (Hrd : read_presentation P o data = Panic); [|unfold parse_presentation_vp; now rewrite Hrd].
  eapply token_read; [eassumption|assumption|now apply (is_jws_unquoted (ve_obj (pe_v P)))| |discriminate].
  intros d Hdq. unfold vp_json_parser. rewrite Hdq, Hi.
  assert (Hg : vo_no_proof o || negb (is_none (vo_check o)) = true).
  { destruct Htok as [->|Ha]; [reflexivity|]. destruct (Ha j Hdj) as (cc & k & -> & _). apply orb_true_r. }
  rewrite Hg. cbn [guard bind]. unfold decode_vp_jws, jwt_parse, parse_jwt, map_jws. rewrite Hco. cbn [guard bind]. rewrite Hdj. cbn [bind]. rewrite Hhd. cbn [bind].
  unfold pres_claims_of. rewrite Hpm, Hpc. cbn [is_ok guard bind snd]. rewrite Hpm, Hpc. cbn [bind].
  assert (Hk : match (if vo_no_proof o then None else option_map cc_jwt (vo_check o)) with None => Ok tt | Some pc => check_proof (ve_jwt (pe_v P)) t pc None None end = Ok tt).
  { destruct Htok as [->|Ha]; [reflexivity|]. destruct (vo_no_proof o); [reflexivity|]. destruct (Ha j Hdj) as (cc & k & -> & Hkid & Hok). cbn [option_map].
    unfold check_proof. rewrite Hdj. cbn [bind]. unfold jose_verify, h_kid, h_str. rewrite Hkid. cbn [bind]. exact Hok. }
  rewrite Hk. reflexivity.
Qed.
Print Assumptions C151_signed_panics_refuted.
(** example: what NewPresentation(WithCredentials(c)) makes *)
Definition np_vp : presentation := new_empty v1_context xp_creds.
Definition np_claims : gomap json := Eval vm_compute in match pres_payload false xp_U np_vp [] false with Ok c => c | _ => [] end.
Example C151_example : exists p',
  create_jwt_vp (xp_senv np_claims) xp_U np_vp [] 0 "did:i#k" false = Ok p' /\ makes_jws (xp_env np_claims) (xp_senv np_claims) /\ plain_vp np_vp
  /\ accepts_token (xp_env np_claims) ex_vopts (pr_jwt p')
  /\ parse_presentation_vp (toyP (xp_env np_claims)) ex_vopts (pr_jwt p') = Panic.
Proof.
  eexists. split; [vm_compute; reflexivity|]. split; [apply xp_makes|]. split.
  { split; [discriminate|]. split; [reflexivity|]. split; [discriminate|]. split; [constructor|]. intros k []. }
  split; [|vm_compute; reflexivity].
  right. intros j. assert (Hj : de_jws (ve_jwt (xp_env np_claims)) (ex_tok "vp") None = Ok (vp_jws "sig:m")) by (vm_compute; reflexivity).
  cbn [pr_jwt]. intros H. change (de_jws (ve_jwt (xp_env np_claims)) (ex_tok "vp") None = Ok j) in H. rewrite Hj in H. injection H as <-. exists ex_comb, "did:i#k". split; [reflexivity|]. split; [reflexivity|]. vm_compute; reflexivity.
Qed.

(** ** C152  Signing a presentation as a CWT (not minimised) and parsing its hex text - bare, as a JSON string or in the
    JSON text that MarshalJSON writes for data model 2.0 - gives the presentation back. *)
Lemma cwt_parse P S raw msg q mp d : let E := pe_v P in
  ve_cose E raw = Some msg -> ve_cbor E (co_payload msg) = Some q -> ve_hex E (se_hex S raw) = Some raw ->
  mget q "vp" = Some (JObj mp) -> un_quote d = se_hex S raw -> ve_cose E d = None ->
  vp_cwt_parser P d = Ok {| vr_raw := mp; vr_jwt := ""; vr_cwt := Some {| vw_raw := raw; vw_msg := msg; vw_map := q |} |}.
Proof.
  intros E Hc Hq Hh Hv Hd Hn. unfold vp_cwt_parser. fold E. rewrite Hn, Hd, Hh, Hc. cbn [bind fst snd]. rewrite Hq, Hv. reflexivity.
Qed.
Lemma json_not_hex P o d : is_hex (un_quote d) = true -> ve_members (pe_v P) d = None -> exists e, vp_json_parser P o d = Err e.
Proof.
  intros Hh Hm. unfold vp_json_parser. unfold is_jws. rewrite (hex_split ".") by (try assumption; reflexivity).
  unfold is_jwt_unsecured. rewrite (hex_split ".") by (try assumption; reflexivity). unfold parse_json. rewrite Hm. cbn. eauto.
Qed.
Lemma cwt_payload_get iss jti aud m : mget (payload_of true iss jti aud m) "vp" = Some (JObj m).
Proof. now rewrite payload_get. Qed.
Lemma create_cwt_inv P S U p aud alg kid mi p' : create_cwt_vp (pe_v P) S U p aud alg kid mi = Ok p' -> (forall cl, pres_payload true U p aud mi = Ok cl -> makes_cose (pe_v P) S cl alg kid) -> plain_vp p ->
  exists raw msg q mv, pres_raw U (if mi then minimized p else p) = Ok mv /\ pr_cwt p' = Some {| vw_raw := raw; vw_msg := msg; vw_map := q |}
    /\ p' = with_envelope p "" (pr_cwt p')
    /\ ve_cose (pe_v P) raw = Some msg /\ ve_cbor (pe_v P) (co_payload msg) = Some q /\ mget q "vp" = Some (JObj mv)
    /\ is_hex (se_hex S raw) = true /\ ve_hex (pe_v P) (se_hex S raw) = Some raw
    /\ ve_cose (pe_v P) (se_hex S raw) = None /\ ve_members (pe_v P) (se_hex S raw) = None.
Proof.
  intros H Hmk Hp. unfold create_cwt_vp in H. apply bind_ok in H as (c & Hc & H). pose proof (Hmk _ Hc) as Hmc. clear Hmk. unfold pres_payload in Hc. apply bind_ok in Hc as (mv & Hmv & Hc).
  apply bind_ok in H as ([raw msg] & Hj & H). cbn [fst snd] in H.
  assert (Hne : mv <> []) by (eapply raw_ne; [eassumption|now destruct mi]).
  assert (Hcl : c = payload_of true (pr_holder p) (pr_id p) aud mv) by (unfold payload_of; destruct mv; [contradiction|injection Hc as <-; reflexivity]). subst c.
  destruct (Hmc _ _ Hj) as (H1 & (q & H2 & Hq) & H3 & H4 & H5 & H6). rewrite H2 in H. injection H as <-.
  exists raw, msg, q, mv. cbn [with_envelope pr_cwt]. repeat (split; [assumption || reflexivity|]). split; [|auto].
  rewrite <- (mget_perm (payload_of true (pr_holder p) (pr_id p) aud mv) q); [apply cwt_payload_get|apply payload_keys|now apply Permutation_sym].
Qed.
Lemma cwt_text_read P S o raw msg q mv data : let E := pe_v P in
  ve_cose E raw = Some msg -> ve_cbor E (co_payload msg) = Some q -> mget q "vp" = Some (JObj mv) ->
  is_hex (se_hex S raw) = true -> ve_hex E (se_hex S raw) = Some raw -> ve_cose E (se_hex S raw) = None -> ve_members E (se_hex S raw) = None ->
  token_text E "application/vp-ld+cose" (se_hex S raw) data ->
  read_presentation P o data = Ok {| vr_raw := mv; vr_jwt := ""; vr_cwt := Some {| vw_raw := raw; vw_msg := msg; vw_map := q |} |}.
Proof.
  intros E H1 H2 H3 H4 H5 H6 H7 Ht. unfold read_presentation. destruct Ht as [|Hmq Hcq|data Hj].
  - destruct (not_json_env P o _ H7) as (e & ->). destruct (json_not_hex P o (se_hex S raw)) as (e' & ->); [now rewrite hex_unquoted|assumption|]. cbn [or_else].
    eapply cwt_parse; eauto. now apply hex_unquoted.
  - destruct (not_json_env P o _ Hmq) as (e & ->). destruct (json_not_hex P o (quoted (se_hex S raw))) as (e' & ->); [now rewrite un_quote_quoted|assumption|]. cbn [or_else].
    eapply cwt_parse; eauto. apply un_quote_quoted.
  - rewrite (env_parse P o data vp_media_cose (se_hex S raw)) by auto. change (String.eqb vp_media_cose vp_media_jwt) with false. cbn match.
    rewrite (cwt_parse P S raw msg q mv (se_hex S raw)); auto. now apply hex_unquoted.
Qed.
Theorem C152_sign_cwt_then_parse : forall (P : vpenv) (S : senv) (U : credential -> res json) (o : vopts) (p p' : presentation) aud alg kid cs w,
  create_cwt_vp (pe_v P) S U p aud alg kid false = Ok p' -> pr_cwt p' = Some w -> (forall cl, pres_payload true U p aud false = Ok cl -> makes_cose (pe_v P) S cl alg kid) -> plain_vp p ->
  creds_back (pe_v P) o U p cs -> acceptable P o U p cs ->
  p' = with_envelope p "" (Some w)
  /\ forall data, token_text (pe_v P) "application/vp-ld+cose" (se_hex S (vw_raw w)) data ->
       exists q, parse_presentation_vp P o data = Ok q /\ same_vp p q cs /\ pr_jwt q = "" /\ pr_cwt q = Some w.
Proof.
  intros P S U o p p' aud alg kid cs w H Hw Hmk Hp Hcr Hac.
  destruct (create_cwt_inv P S U p aud alg kid false p' H Hmk Hp) as (raw & msg & qq & mv & Hmv & Hcw & Hpe & H1 & H2 & H3 & H4 & H5 & H6 & H7).
  rewrite Hw in Hcw, Hpe. injection Hcw as ->. split; [exact Hpe|]. intros data Hd. cbn [vw_raw] in Hd.
  destruct (creds_back_split _ _ _ _ _ Hcr) as (js & Hjs & Hf).
  destruct (raw_spec U p mv Hmv ltac:(apply Hp)) as (js' & Hjs' & _ & Hg). rewrite Hjs in Hjs'. injection Hjs' as <-.
  unfold parse_presentation_vp. rewrite (cwt_text_read P S o raw msg qq mv data) by assumption. cbn [bind].
  destruct (finish P o U p js cs mv Hp Hjs Hf Hac Hg "" (Some {| vw_raw := raw; vw_msg := msg; vw_map := qq |}) _ eq_refl) as (q & Hq & Hs & H8 & H9).
  exists q. auto.
Qed.
Print Assumptions C152_sign_cwt_then_parse.
(** example: a v2 presentation *)
Definition xc_vp : presentation := {|
  pr_context := [v2_context; "https://c"]; pr_custom_ctx := []; pr_id := "urn:vp"; pr_types := ["VerifiablePresentation"; "T"]; pr_creds := xp_creds; pr_holder := "did:h";
  pr_proofs := []; pr_jwt := ""; pr_cwt := None; pr_custom := [("extra", JBool true)] |}.
Definition xc_claims (mi : bool) : gomap json := Eval vm_compute in
  if mi then match pres_payload true xp_U xc_vp ["v1"] true with Ok c => c | _ => [] end
  else match pres_payload true xp_U xc_vp ["v1"] false with Ok c => c | _ => [] end.
Definition xc_msg : coset := {| co_alg := Ok (-8); co_kid := "did:i#k"; co_key := ""; co_payload := "V"; co_tbs := Ok "m"; co_sig := "sig:m" |}.
Definition xc_senv (claims : gomap json) : senv := {|
  se_alg := fun _ => Ok "EdDSA"; se_jws := fun _ _ _ => Err "x"; se_unsec := fun _ => Err "x";
  se_cose := fun c a k => if json_eqb (JObj c) (JObj claims) then Ok ("R", xc_msg) else Err "x";
  se_hex := fun s => if String.eqb s "R" then "d2" else s |}.
Definition xc_text : string := String brace "env".
Definition xc_env (claims : gomap json) : venv :=
  with_cose (toyV0 [(ex_tok "good", ex_jws "sig:m")] [("P", ex_jwt_members); ("{}", []); (xc_text, vp_envelope vp_media_cose "d2")])
    [("d2", "R")] [("R", xc_msg)] [("V", rev claims)].
Lemma xc_makes claims c a k : makes_cose (xc_env claims) (xc_senv claims) c a k.
Proof.
  intros raw msg. cbn [xc_senv se_cose se_hex]. destruct (json_eqb _ _) eqn:E; [|discriminate]. apply json_eqb_eq in E. injection E as ->.
  intros [= <- <-]. split; [reflexivity|]. split; [eexists; split; [reflexivity|apply Permutation_sym, Permutation_rev]|repeat split; reflexivity].
Qed.
Lemma xc_plain : plain_vp xc_vp.
Proof. split; [discriminate|]. split; [reflexivity|]. split; [discriminate|]. split; [cbn; nodup_keys|]. cbn. intuition (subst; discriminate). Qed.
Lemma xc_back mi : creds_back (xc_env (xc_claims mi)) ex_vopts xp_U xc_vp xp_creds.
Proof.
  unfold creds_back, xc_vp. cbn [pr_creds]. unfold xp_creds at 1 2. constructor; [|constructor]. exists (JStr (ex_tok "good")).
  split; [vm_compute; reflexivity|]. destruct mi; vm_compute; reflexivity.
Qed.
Lemma xc_token claims : token_text (xc_env claims) "application/vp-ld+cose" "d2" xc_text.
Proof.
  apply tt_env. exists "env", (vp_envelope vp_media_cose "d2"). split; [reflexivity|]. split; [vm_compute; reflexivity|].
  split; [apply Permutation_refl|]. split; [vm_compute; nodup_keys|]. cbn. intros k [<-|[<-|[<-|[]]]]; reflexivity.
Qed.
Example C152_example : exists p' w,
  create_cwt_vp (xc_env (xc_claims false)) (xc_senv (xc_claims false)) xp_U xc_vp ["v1"] (-8) "did:i#k" false = Ok p' /\ pr_cwt p' = Some w
  /\ (forall cl, pres_payload true xp_U xc_vp ["v1"] false = Ok cl -> makes_cose (xc_env (xc_claims false)) (xc_senv (xc_claims false)) cl (-8) "did:i#k") /\ plain_vp xc_vp
  /\ creds_back (xc_env (xc_claims false)) ex_vopts xp_U xc_vp xp_creds
  /\ acceptable (toyP (xc_env (xc_claims false))) ex_vopts xp_U xc_vp xp_creds
  /\ se_hex (xc_senv (xc_claims false)) (vw_raw w) = "d2"
  /\ token_text (xc_env (xc_claims false)) "application/vp-ld+cose" "d2" xc_text.
Proof.
  eexists; eexists. split; [vm_compute; reflexivity|]. split; [reflexivity|]. split; [intros; apply xc_makes|]. split; [exact xc_plain|]. split; [apply (xc_back false)|].
  split; [apply acceptable_toy; [now right|apply xc_plain|vm_compute; reflexivity|discriminate]|]. split; [reflexivity|apply xc_token].
Qed.

(** ** C153  (refuted) The same with a minimised CWT: holder and id are in the iss and jti claims only, and those are never
    read, so that the presentation read back has neither. *)
Theorem C153_minimised_cwt_refuted : forall (P : vpenv) (S : senv) (U : credential -> res json) (o : vopts) (p p' q : presentation) aud alg kid w data,
  create_cwt_vp (pe_v P) S U p aud alg kid true = Ok p' -> pr_cwt p' = Some w -> (forall cl, pres_payload true U p aud true = Ok cl -> makes_cose (pe_v P) S cl alg kid) -> plain_vp p ->
  token_text (pe_v P) "application/vp-ld+cose" (se_hex S (vw_raw w)) data -> parse_presentation_vp P o data = Ok q ->
  pr_holder q = "" /\ pr_id q = "".
Proof.
  intros P S U o p p' q aud alg kid w data H Hw Hmk Hp Hd Hq.
  destruct (create_cwt_inv P S U p aud alg kid true p' H Hmk Hp) as (raw & msg & qq & mv & Hmv & Hcw & Hpe & H1 & H2 & H3 & H4 & H5 & H6 & H7).
  rewrite Hw in Hcw. injection Hcw as ->. cbn [vw_raw] in Hd.
  apply parse_vp_ok in Hq as (r & Hr & _ & Hv & _). rewrite (cwt_text_read P S o raw msg qq mv data) in Hr by assumption. injection Hr as <-. cbn [vr_raw] in Hv.
  destruct (raw_spec U (minimized p) mv Hmv ltac:(apply Hp)) as (js & _ & _ & Hg). destruct Hv as (V1 & _ & _ & V4 & _). split.
  - specialize (Hg "holder"). cbn in Hg. destruct V4 as [[_ V]|[V|(ob & V & _)]]; [assumption|congruence|congruence].
  - specialize (Hg "id"). cbn in Hg. destruct V1 as [V|[_ V]]; [congruence|assumption].
Qed.
Print Assumptions C153_minimised_cwt_refuted.
Example C153_example : exists p' w q,
  create_cwt_vp (xc_env (xc_claims true)) (xc_senv (xc_claims true)) xp_U xc_vp ["v1"] (-8) "did:i#k" true = Ok p' /\ pr_cwt p' = Some w
  /\ (forall cl, pres_payload true xp_U xc_vp ["v1"] true = Ok cl -> makes_cose (xc_env (xc_claims true)) (xc_senv (xc_claims true)) cl (-8) "did:i#k") /\ plain_vp xc_vp
  /\ token_text (xc_env (xc_claims true)) "application/vp-ld+cose" (se_hex (xc_senv (xc_claims true)) (vw_raw w)) xc_text
  /\ parse_presentation_vp (toyP (xc_env (xc_claims true))) ex_vopts xc_text = Ok q
  /\ pr_holder xc_vp = "did:h" /\ pr_id xc_vp = "urn:vp" /\ mget (vw_map w) "iss" = Some (JStr "did:h").
Proof.
  eexists; eexists; eexists. split; [vm_compute; reflexivity|]. split; [reflexivity|]. split; [intros; apply xc_makes|]. split; [exact xc_plain|]. split; [apply xc_token|].
  split; [vm_compute; reflexivity|]. repeat split.
Qed.

(** ** C154  The JSON text of a presentation that is neither a JWT nor a CWT parses back to it. *)
Lemma raw_not_enveloped P o U p m0 data ms : plain_vp p -> pres_raw U p = Ok m0 -> ve_members (pe_v P) data = Some ms -> Permutation ms m0 ->
  ~ In "EnvelopedVerifiablePresentation" (pr_types p) -> (forall k, In k (map fst (pr_custom p)) -> equal_fold "type" k = false) ->
  exists e, vp_enveloped_parser P o data = Err e.
Proof.
  intros Hp Hr Hms Hperm Hty Hfold. pose proof Hp as (_ & _ & Ht & Hcu). destruct (raw_spec U p m0 Hr Hcu) as (js & _ & Hnd & Hg).
  assert (Hndm : NoDup (map fst ms)) by (eapply Permutation_NoDup; [apply Permutation_map, Permutation_sym, Hperm|assumption]).
  assert (Ho : occurrences "type" ms = [types_json (pr_types p)]).
  { rewrite occ_nodup; [|assumption|].
    - rewrite <- (mget_perm m0 ms) by (try assumption; now apply Permutation_sym). rewrite Hg. change (vp_member p js "type") with (nonempty (pr_types p) (types_json (pr_types p))).
      now destruct (pr_types p).
    - intros k Hk Hf. apply (Permutation_in _ (Permutation_map fst Hperm)) in Hk.
      assert (Hk' : mget m0 k <> None) by (intros E0; apply mget_None in E0; contradiction). rewrite Hg in Hk'. unfold vp_member in Hk'.
      repeat match type of Hk' with context [String.eqb k ?x] => destruct (String.eqb_spec k x) as [->|] end; try reflexivity; try discriminate Hf.
      exfalso. assert (Hin : In k (map fst (pr_custom p))).
      { destruct (in_dec string_dec k (map fst (pr_custom p))) as [|Hn]; [assumption|]. exfalso. apply Hk'. now apply mget_none_notin. }
      rewrite (Hfold k Hin) in Hf. discriminate. }
  unfold vp_enveloped_parser. rewrite Hms.
  assert (Hnp : forall l s, fold_res str_step l s <> Panic).
  { induction l as [|x l IH] using rev_ind; intros s; [discriminate|]. unfold fold_res in *. rewrite fold_left_app. cbn [fold_left].
    specialize (IH s). destruct (fold_left _ l (Ok s)); [|discriminate|contradiction]. cbn [bind]. destruct x; discriminate. }
  specialize (Hnp (occurrences "id" ms) ""). destruct (fold_res str_step (occurrences "id" ms) "") as [i| |]; [|cbn; eauto|contradiction]. cbn [bind].
  rewrite Ho. unfold fold_res at 1. cbn [fold_left bind]. destruct (pr_types p) as [|a [|b l]]; [contradiction|cbn; eauto|].
  assert (Hs : strs_step [] (types_json (a :: b :: l)) = Ok (a :: b :: l)).
  { unfold types_json, strs_step. apply forall2_map_res. clear. induction (a :: b :: l) as [|x y IH]; constructor; auto. }
  rewrite Hs. cbn [bind].
  assert (Hnc : forall x acc, strs_step acc x <> Panic).
  { intros x acc. destruct x as [| | | |xs|]; try discriminate. cbn [strs_step]. clear. induction xs as [|x xs IH]; [discriminate|]. cbn [map_res].
    destruct x; try discriminate; cbn [bind]; destruct (map_res _ xs); try discriminate; contradiction. }
  assert (Hnf : fold_res strs_step (occurrences "@context" ms) [] <> Panic).
  { generalize (occurrences "@context" ms) as cl. intros cl. unfold fold_res. induction cl as [|x cl IH] using rev_ind; [discriminate|]. rewrite fold_left_app. cbn [fold_left].
    destruct (fold_left _ cl (Ok [])); [|discriminate|contradiction]. cbn [bind]. apply Hnc. }
  destruct (fold_res strs_step (occurrences "@context" ms) []) as [c| |]; [|cbn; eauto|contradiction]. cbn [bind].
  assert (Hn : str_in vp_enveloped_type (a :: b :: l) = false) by (now apply str_in_nIn). rewrite Hn. cbn. eauto.
Qed.
Theorem C154_json_round_trip : forall (P : vpenv) (S : senv) (U : credential -> res json) (o : vopts) (p : presentation) cs data m0,
  pr_jwt p = "" -> pr_cwt p = None -> marshal_vp P S U p = Ok data -> pres_raw U p = Ok m0 -> plain_vp p ->
  (* json.Marshal wrote a JSON text of the object *)
  (exists rest ms, data = String brace rest /\ ve_members (pe_v P) data = Some ms /\ Permutation ms m0) ->
  ~ In "EnvelopedVerifiablePresentation" (pr_types p) -> (forall k, In k (map fst (pr_custom p)) -> equal_fold "type" k = false) ->
  creds_back (pe_v P) o U p cs -> acceptable P o U p cs ->
  (* the embedded proof, if one is asked for, is accepted *)
  (forall m, Permutation m m0 -> check_pres_embedded (pe_v P) o m = Ok tt) -> (vo_require_proof o = true -> pr_proofs p <> []) ->
  exists q, parse_presentation_vp P o data = Ok q /\ same_vp p q cs /\ pr_jwt q = "" /\ pr_cwt q = None.
Proof.
  intros P S U o p cs data m0 Hj Hw Hmar Hr Hp (rest & ms & Hd & Hms & Hperm) Hty Hfold Hcr Hac Hemb Hrp.
  destruct (creds_back_split _ _ _ _ _ Hcr) as (js & Hjs & Hf).
  destruct (raw_spec U p m0 Hr ltac:(apply Hp)) as (js' & Hjs' & Hnd & Hg). rewrite Hjs in Hjs'. injection Hjs' as <-.
  assert (Hndm : NoDup (map fst ms)) by (eapply Permutation_NoDup; [apply Permutation_map, Permutation_sym, Hperm|assumption]).
  assert (Hme : forall k, mget ms k = mget m0 k) by (intros k; symmetry; apply mget_perm; [assumption|now apply Permutation_sym]).
  unfold parse_presentation_vp, read_presentation. destruct (raw_not_enveloped P o U p m0 data ms Hp Hr Hms Hperm Hty Hfold) as (e & ->). cbn [or_else].
  assert (Hjp : vp_json_parser P o data = Ok {| vr_raw := ms; vr_jwt := ""; vr_cwt := None |}).
  { unfold vp_json_parser. assert (Huq : un_quote data = data) by (rewrite Hd; apply un_quote_brace). rewrite Huq, Hd, is_jws_brace, unsecured_brace, <- Hd. unfold parse_json. rewrite Hms. cbn [option_map].
    rewrite to_map_nodup by assumption. rewrite Hemb by assumption. cbn [bind].
    assert (Hgd : negb (vo_require_proof o) || negb (is_none (fld ms "proof")) = true).
    { destruct (vo_require_proof o) eqn:Erp; [|reflexivity]. cbn [negb orb]. specialize (Hrp eq_refl).
      assert (E1 : mget ms "proof" = nonempty (pr_proofs p) (proofs_to_raw (pr_proofs p))) by (now rewrite Hme, Hg).
      destruct (pr_proofs p) as [|x [|y l]]; [contradiction| |]; cbn [nonempty] in E1; now rewrite (fld_member _ _ _ E1). }
    rewrite Hgd. reflexivity. }
  rewrite Hjp. cbn [or_else bind].
  assert (Hmm : forall k, mget ms k = vp_member p js k) by (intros k; now rewrite Hme, Hg).
  destruct (finish P o U p js cs ms Hp Hjs Hf Hac Hmm "" None _ eq_refl) as (q & Hq & Hs & H8 & H9). exists q. auto.
Qed.
Print Assumptions C154_json_round_trip.
(** example: without proof check, and with an embedded proof accepted by a toy data-integrity verifier *)
Definition jp_vp (ps : list (gomap json)) : presentation := {|
  pr_context := [v1_context]; pr_custom_ctx := []; pr_id := "urn:vp"; pr_types := ["VerifiablePresentation"; "T"]; pr_creds := xp_creds; pr_holder := "did:h";
  pr_proofs := ps; pr_jwt := ""; pr_cwt := None; pr_custom := [("extra", JBool true)] |}.
Definition jp_raw : gomap json := Eval vm_compute in match pres_raw xp_U (jp_vp []) with Ok m => m | _ => [] end.
Definition jp_text : string := String brace "vp".
Definition jp_P : vpenv :=
  {| pe_v := toyV0 [(ex_tok "good", ex_jws "sig:m")] [("P", ex_jwt_members); ("{}", []); (jp_text, rev jp_raw)];
     pe_valid := fun _ _ => Ok tt; pe_jsonld := fun _ _ => Ok tt; pe_marshal := fun _ => jp_text |}.
Definition no_proof (o : vopts) : vopts :=
  {| vo_check := vo_check o; vo_no_proof := true; vo_strict := vo_strict o; vo_require_vc := vo_require_vc o; vo_require_proof := false;
     vo_no_jsonld := vo_no_jsonld o; vo_di := vo_di o; vo_purpose := vo_purpose o; vo_domain := vo_domain o; vo_challenge := vo_challenge o;
     vo_holder := vo_holder o; vo_related := vo_related o |}.
Example C154_example :
  marshal_vp jp_P cw_senv xp_U (jp_vp []) = Ok jp_text /\ pres_raw xp_U (jp_vp []) = Ok jp_raw /\ plain_vp (jp_vp [])
  /\ ve_members (pe_v jp_P) jp_text = Some (rev jp_raw)
  /\ creds_back (pe_v jp_P) (no_proof ex_vopts) xp_U (jp_vp []) xp_creds
  /\ acceptable jp_P (no_proof ex_vopts) xp_U (jp_vp []) xp_creds
  /\ (forall m, Permutation m jp_raw -> check_pres_embedded (pe_v jp_P) (no_proof ex_vopts) m = Ok tt)
  /\ is_ok (parse_presentation_vp jp_P (no_proof ex_vopts) jp_text) = true.
Proof.
  assert (Hpl : plain_vp (jp_vp [])).
  { split; [discriminate|]. split; [reflexivity|]. split; [discriminate|]. split; [cbn; nodup_keys|]. cbn. intuition (subst; discriminate). }
  split; [vm_compute; reflexivity|]. split; [vm_compute; reflexivity|]. split; [exact Hpl|]. split; [vm_compute; reflexivity|]. split.
  { unfold creds_back, jp_vp. cbn [pr_creds]. unfold xp_creds at 1 2. constructor; [|constructor]. exists (JStr (ex_tok "good")). split; vm_compute; reflexivity. }
  split.
  { destruct (acceptable_toy (pe_v jp_P) (no_proof ex_vopts) xp_U (jp_vp []) xp_creds) as (A1 & A2 & A3); [now left|apply Hpl|vm_compute; reflexivity|discriminate|].
    split; [exact A1|]. split; assumption. }
  split; [|vm_compute; reflexivity]. intros m _. reflexivity.
Qed.

(** ** C155  (refuted) MarshalJSON of a CWT presentation writes its token: for data model 1.1 it writes the bare object, the
    same as before signing. *)
Theorem C155_cwt_marshalled_unsigned_refuted : forall (P : vpenv) (S : senv) (U : credential -> res json) (p : presentation) (w : vpcwt),
  is_base_context (pr_context p) "https://www.w3.org/ns/credentials/v2" = false ->
  marshal_vp P S U (with_envelope p "" (Some w)) = marshal_vp P S U (with_envelope p "" None).
Proof. intros P S U p w H. unfold marshal_vp. cbn [with_envelope pr_context]. change v2_context with "https://www.w3.org/ns/credentials/v2". rewrite H. reflexivity. Qed.
Print Assumptions C155_cwt_marshalled_unsigned_refuted.
(** example: the text is refused by a parser that checks proofs, and accepted by one that does not *)
Example C155_example : exists w,
  let p' := with_envelope (jp_vp []) "" (Some w) in
  vw_raw w <> "" /\ cwt_of p' = Some w /\ marshal_vp jp_P cw_senv xp_U p' = Ok jp_text
  /\ is_err (parse_presentation_vp jp_P ex_vopts jp_text) = true /\ is_ok (parse_presentation_vp jp_P (no_proof ex_vopts) jp_text) = true.
Proof.
  exists {| vw_raw := "R"; vw_msg := xc_msg; vw_map := [] |}. cbv zeta. split; [discriminate|]. split; [reflexivity|].
  split; [vm_compute; reflexivity|]. split; vm_compute; reflexivity.
Qed.

(** ** C156  (refuted) Parsing a presentation and marshalling it keeps its contexts: those that are objects (and everything
    after the first of them) are lost, so that its proofs no longer cover it. *)
Theorem C156_contexts_lost_refuted : forall (P : vpenv) (o : vopts) (U : credential -> res json) (data : string) (p : presentation) m',
  parse_presentation_vp P o data = Ok p -> pr_custom_ctx p <> [] -> pres_raw U p = Ok m' ->
  exists m, vp_object (pe_v P) data m p /\ mget m "@context" = Some (JArr (map JStr (pr_context p) ++ pr_custom_ctx p)%list)
    /\ mget m' "@context" <> mget m "@context".
Proof.
  intros P o U data p m' H Hc Hr. apply parse_vp_spec in H as (m & raws & Ho & Hv & _). exists m. split; [assumption|].
  destruct Hv as (_ & _ & V & _ & _ & Vc).
  assert (Hm : mget m "@context" = Some (JArr (map JStr (pr_context p) ++ pr_custom_ctx p)%list)) by (destruct V as [V|(s & _ & _ & V)]; [exact V|contradiction]).
  split; [exact Hm|]. rewrite Hm. unfold pres_raw in Hr. apply bind_ok in Hr as (js & _ & Hr). injection Hr as <-.
  specialize (Vc "@context"). cbn in Vc.
  rewrite mget_add_custom, !mget_opt_set, !mget_set_text, !mget_opt_set, mget_set_text, mget_opt_set. cbn [String.eqb Ascii.eqb Bool.eqb andb mget]. rewrite Vc.
  destruct (pr_context p) as [|a l]; cbn [nonempty]; intros H; [discriminate|]. injection H as H.
  assert (Hl : List.length (map JStr l) = List.length (map JStr l ++ pr_custom_ctx p)%list) by (now rewrite <- H).
  rewrite app_length in Hl. destruct (pr_custom_ctx p); [now apply Hc|cbn in Hl; lia].
Qed.
Print Assumptions C156_contexts_lost_refuted.
Definition cc_vp : gomap json := [("@context", JArr [JStr v1_context; JObj [("T", JStr "https://t")]; JStr "https://c"]); ("type", JStr "VerifiablePresentation")].
Definition cc_P : vpenv := toyP (toyV0 [] [("{}", cc_vp)]).
Definition cc_opts : vopts := no_vc (no_proof ex_vopts).
Example C156_example : exists p m', parse_presentation_vp cc_P cc_opts "{}" = Ok p /\ pr_custom_ctx p <> [] /\ pres_raw xp_U p = Ok m'
  /\ mget m' "@context" = Some (JArr [JStr v1_context]).
Proof. eexists; eexists. split; [vm_compute; reflexivity|]. split; [discriminate|]. split; [vm_compute; reflexivity|vm_compute; reflexivity]. Qed.
