(** Presentations: specification of what an accepted presentation went through, and lemmas. *)
From Coq Require Import Permutation.
From Verif Require Import GoBase Base64 StrLemmas JwtSpec DiSpec VcSpec JwtModel JwtProofs SdSpec SdModel SdParse DiModel PexModel VcModel
  VcJwt VcParse VcProofs VcView VcText VcMod VcSecure VcJwtProofs VcPanic VcSign VcSignProofs VpModel.

(** *** What the object of a presentation says *)
Definition holder_in (m : gomap json) (h : string) : Prop :=
  (absent m "holder" /\ h = "") \/ mget m "holder" = Some (JStr h)
  \/ exists o, mget m "holder" = Some (JObj o) /\ text_member o "id" h.
Definition vp_view (m : gomap json) (p : presentation) : Prop :=
  text_member m "id" (pr_id p)
  /\ (mget m "type" = Some (JArr (map JStr (pr_types p))) \/ exists t, mget m "type" = Some (JStr t) /\ pr_types p = [t])
  /\ (mget m "@context" = Some (JArr (map JStr (pr_context p) ++ pr_custom_ctx p)%list)
      \/ exists s, mget m "@context" = Some (JStr s) /\ pr_context p = [s] /\ pr_custom_ctx p = [])
  /\ holder_in m (pr_holder p)
  /\ one_or_many (fun o a => o = a) m "proof" (pr_proofs p)
  /\ (forall k, mget (pr_custom p) k =
        if str_in k ["@context"; "id"; "type"; "verifiableCredential"; "holder"; "proof"] then None else mget m k).

(** the text before the first "#" *)
Definition before_hash (s : string) : string := hd "" (split_on "#" s).
(** the presentation object a JWT payload stands for: the "vp" claim with "holder" and "id" replaced by non-empty iss and
    jti claims *)
Definition vp_of_claims (c : pclaims) (m : gomap json) : Prop :=
  forall k, mget m k =
    if String.eqb k "holder" && negb (String.eqb (pc_iss c) "") then Some (JStr (pc_iss c))
    else if String.eqb k "id" && negb (String.eqb (pc_jti c) "") then Some (JStr (pc_jti c))
    else match pc_vp c with Some v => mget v k | None => None end.
Definition vp_contents (E : venv) (payload : string) (m : gomap json) : Prop :=
  exists c, pres_claims_of (ve_members E) payload = Ok c /\ vp_of_claims c m.

(** [vsecured E o m jwt]: a checker configured in [o] accepted a proof that covers the object [m] *)
Inductive vsecured (E : venv) (o : vopts) (m : gomap json) (jwt : string) : Prop :=
| vs_jws cc j kid :
    (* the signature of the JWS was accepted for the DID its "kid" names, and the object is what its payload says *)
    vo_check o = Some cc -> jwt <> "" -> de_jws (ve_jwt E) jwt None = Ok j -> mget (jws_headers j) "kid" = Some (JStr kid) ->
    cc_jwt cc (jws_headers j) (before_hash kid) (jws_input j) (jws_sig j) = Ok tt ->
    vp_contents E (jws_payload j) m -> vsecured E o m jwt
| vs_ld cc ps :
    (* each linked-data proof was accepted, for the DID its verification method names, over the object without "jwt" *)
    vo_check o = Some cc -> jwt = "" -> ~ absent m "proof" -> ve_ldproofs E (mdel m "jwt") = Ok ps ->
    Forall (fun p => exists msg sig k, ve_ldmsg E p (mdel m "jwt") = Ok msg /\ lp_sig p = Ok sig /\ lp_pkid p = Ok k
              /\ cc_ld cc p (before_hash k) msg sig = Ok tt) ps -> vsecured E o m jwt
| vs_di V :
    (* the data-integrity verifier accepted the object without "jwt", for the purpose, domain and challenge asked for *)
    vo_di o = Some V -> jwt = "" -> ~ absent m "proof" ->
    snd (verify_proof (ve_di E) V (ve_now E) (JObj (mdel m "jwt"))
      {| o_purpose := if String.eqb (vo_purpose o) "" then "assertionMethod" else vo_purpose o;
         o_vmid := ""; o_vm := None; o_ptype := "DataIntegrityProof"; o_suite := "";
         o_domain := vo_domain o; o_challenge := vo_challenge o; o_created := zero_time; o_expires := zero_time |}) = Ok tt ->
    vsecured E o m jwt.

(** where the object [m] (and the token [jwt], if any) of a presentation text [d] comes from: a JWS (quoted or not), an
    unsecured JWT, or a JSON object *)
Inductive vp_source (E : venv) (d : string) (m : gomap json) (jwt : string) : Prop :=
| src_jws j : jwt = un_quote d -> jwt <> "" -> de_jws (ve_jwt E) jwt None = Ok j -> vp_contents E (jws_payload j) m -> vp_source E d m jwt
| src_unsecured : jwt = "" -> decode_vp_unsecured E (un_quote d) = Ok m -> vp_source E d m jwt
| src_json : jwt = "" -> parse_json E d = Some m -> vp_source E d m jwt.
(** the text itself, or the data of the data URL in an enveloping object *)
Inductive vp_text (E : venv) (media : string) : string -> string -> Prop :=
| vt_self d : vp_text E media d d
| vt_env d ms id ts enc d' : ve_members E d = Some ms -> fold_res str_step (occurrences "id" ms) "" = Ok id ->
    fold_res strs_step (occurrences "type" ms) [] = Ok ts -> In "EnvelopedVerifiablePresentation" ts ->
    parse_data_url id = Ok (media, enc, d') -> vp_text E media d d'.

(** *** Lemmas *)
Lemma refine_spec c m : pres_refine c = Ok m -> vp_of_claims c (of_nil m) /\ pc_alloc c = true
  /\ (pc_vp c = None -> pc_iss c = "" /\ pc_jti c = "" /\ m = None).
Proof.
  unfold pres_refine, vp_of_claims. destruct (pc_alloc c); [|discriminate]. cbn [negb]. intros H. apply bind_ok in H as (x & Hx & H).
  destruct (String.eqb_spec (pc_iss c) "") as [Ei|Ei], (String.eqb_spec (pc_jti c) "") as [Ej|Ej]; cbn [negb].
  - injection Hx as <-. injection H as <-. split; [|split; [reflexivity|now intros ->]]. intros k0. rewrite !andb_false_r. now destruct (pc_vp c).
  - injection Hx as <-. destruct (pc_vp c) as [v|]; [|discriminate]. injection H as <-. split; [|split; [reflexivity|discriminate]].
    intros k0. rewrite andb_false_r, andb_true_r. cbn [of_nil]. rewrite mget_mset. now destruct (String.eqb k0 _).
  - destruct (pc_vp c) as [v|]; [|discriminate]. injection Hx as <-. injection H as <-. split; [|split; [reflexivity|discriminate]].
    intros k0. rewrite andb_false_r, andb_true_r. cbn [of_nil]. rewrite mget_mset. now destruct (String.eqb k0 _).
  - destruct (pc_vp c) as [v|]; [|discriminate]. injection Hx as <-. injection H as <-. split; [|split; [reflexivity|discriminate]].
    intros k0. rewrite !andb_true_r. cbn [of_nil]. rewrite !mget_mset.
    destruct (String.eqb_spec k0 "id") as [->|]; [reflexivity|]. now destruct (String.eqb k0 "holder").
Qed.
Lemma jwt_parse_jws E tok ign dest t p : jwt_parse E tok None ign dest = Ok (t, p) ->
  exists j, de_jws E tok None = Ok j /\ p = jws_payload j /\ tk_headers t = jws_headers j
    /\ (ign = false -> exists m, tk_payload t = Some m /\ payload_to_map E p = Ok m).
Proof.
  unfold jwt_parse, parse_jwt, map_jws. intros H. apply bind_ok in H as (u & _ & H). apply bind_ok in H as (j & Hj & H).
  apply bind_ok in H as (u1 & _ & H). apply bind_ok in H as (pl & Hpl & H). apply bind_ok in H as (u2 & _ & H). injection H as <- <-.
  exists j. split; [exact Hj|]. split; [reflexivity|]. split; [reflexivity|]. intros ->. cbn [tk_payload].
  destruct (payload_to_map E (jws_payload j)) as [x| |] eqn:Ex; try discriminate. injection Hpl as <-. eauto.
Qed.
Lemma verify_ld_none E chk m ps : verify_ld E chk m None ps = Ok tt ->
  Forall (fun p => exists msg sig k, ve_ldmsg E p m = Ok msg /\ lp_sig p = Ok sig /\ lp_pkid p = Ok k /\ chk p (before_hash k) msg sig = Ok tt) ps.
Proof.
  induction ps as [|p ps IH]; cbn [verify_ld]; intros H; [constructor|].
  apply bind_ok in H as (msg & H1 & H). apply bind_ok in H as (sig & H2 & H). apply bind_ok in H as (i & H3 & H).
  apply bind_ok in H as ([] & H4 & H). constructor; [|auto].
  destruct (lp_pkid p) as [k| |]; try discriminate. injection H3 as <-. exists msg, sig, k. auto.
Qed.
Lemma is_jws_ne f s : is_jws f s = true -> s <> "".
Proof. intros H ->. discriminate. Qed.
Lemma embedded_secured E o m : vo_no_proof o = false -> check_pres_embedded E o m = Ok tt -> vsecured E o m "".
Proof.
  unfold check_pres_embedded. intros ->. intros H. apply bind_ok in H as (m' & H & _). unfold check_embedded in H.
  destruct (fld (mdel m "jwt") "proof") as [pj|] eqn:Ep; [|discriminate]. apply bind_ok in H as (ps & Hps & H).
  assert (Ha : ~ absent m "proof").
  { intros A. unfold fld in Ep. rewrite mget_mdel in Ep. cbn in Ep. destruct A as [A|A]; rewrite A in Ep; discriminate. }
  cbn [embedded_opts co_external] in H. destruct (is_di ps).
  - apply bind_ok in H as ([] & H & _). unfold check_di in H. cbn [embedded_opts co_di] in H.
    destruct (vo_di o) as [V|] eqn:EV; [|discriminate]. eapply vs_di; eauto.
  - cbn [embedded_opts co_ld_check] in H. destruct (vo_check o) as [cc|] eqn:Ec; [|discriminate]. cbn [option_map] in H.
    apply bind_ok in H as (l & Hl & H). apply bind_ok in H as ([] & H & _). apply verify_ld_none in H. eapply vs_ld; eauto.
Qed.
Lemma decode_jws_ok E tok chk m : decode_vp_jws E tok chk = Ok m ->
  exists j, de_jws (ve_jwt E) tok None = Ok j /\ vp_contents E (jws_payload j) m
    /\ (forall pc, chk = Some pc -> exists kid, mget (jws_headers j) "kid" = Some (JStr kid)
          /\ pc (jws_headers j) (before_hash kid) (jws_input j) (jws_sig j) = Ok tt).
Proof.
  intros Hm. unfold decode_vp_jws in Hm. apply bind_ok in Hm as ([t p] & Ht & Hm). apply bind_ok in Hm as (c & Hc & Hm).
  apply bind_ok in Hm as ([] & Hv & Hm). cbn [snd] in Hc.
  apply jwt_parse_jws in Ht as (j & Hj & -> & _). exists j. split; [assumption|]. split.
  - destruct (pres_refine c) as [x| |] eqn:Er; try discriminate. injection Hm as <-. apply refine_spec in Er as (Hr & _). exists c. auto.
  - intros pc ->. unfold check_proof in Hv. rewrite Hj in Hv. cbn [bind] in Hv.
    unfold jose_verify in Hv. apply bind_ok in Hv as (i & Hi & Hv).
    destruct (h_kid (jws_headers j)) as [kid|] eqn:Ek; [|discriminate]. injection Hi as <-. exists kid. split; [|exact Hv].
    unfold h_kid, h_str in Ek. destruct (mget (jws_headers j) "kid") as [[]|]; try discriminate. now injection Ek as ->.
Qed.
Lemma vp_json_secured P o d r : vp_json_parser P o d = Ok r ->
  vp_source (pe_v P) d (vr_raw r) (vr_jwt r) /\ vr_cwt r = None /\ (vo_no_proof o = false -> vsecured (pe_v P) o (vr_raw r) (vr_jwt r)).
Proof.
  unfold vp_json_parser. destruct (is_jws (ve_obj (pe_v P)) (un_quote d)) eqn:Ej.
  - intros H. apply bind_ok in H as (u & Hg & H). apply bind_ok in H as (m & Hm & H). injection H as <-.
    cbn [vr_raw vr_jwt vr_cwt]. apply decode_jws_ok in Hm as (j & Hj & Hc & Hk). split; [|split; [reflexivity|]].
    + eapply src_jws; eauto using is_jws_ne.
    + intros Hp. rewrite Hp in *. destruct (vo_check o) as [cc|] eqn:Ec; [|discriminate].
      destruct (Hk (cc_jwt cc) eq_refl) as (kid & Hkid & Hok). eapply vs_jws; eauto using is_jws_ne.
  - destruct (is_jwt_unsecured (ve_obj (pe_v P)) (un_quote d)).
    + intros H. apply bind_ok in H as (m & Hd & H). apply bind_ok in H as ([] & H1 & H). injection H as <-. cbn [vr_raw vr_jwt vr_cwt].
      split; [now apply src_unsecured|]. split; [reflexivity|]. intros Hp. now apply embedded_secured.
    + destruct (parse_json (pe_v P) d) as [m|] eqn:Em; [|discriminate]. intros H. apply bind_ok in H as ([] & H1 & H). apply bind_ok in H as (u & _ & H).
      injection H as <-. cbn [vr_raw vr_jwt vr_cwt]. split; [now apply src_json|]. split; [reflexivity|]. intros Hp. now apply embedded_secured.
Qed.
Lemma or_else_ok a b r : or_else a b = Ok r -> a = Ok r \/ ((exists e, a = Err e) /\ b = Ok r).
Proof. destruct a; cbn; intros H; [now left|right; eauto|discriminate]. Qed.
Lemma vp_env_ok P o d r : vp_enveloped_parser P o d = Ok r ->
  exists d', (vp_text (pe_v P) vp_media_jwt d d' /\ vp_json_parser P o d' = Ok r) \/ (vp_text (pe_v P) vp_media_cose d d' /\ vp_cwt_parser P d' = Ok r).
Proof.
  unfold vp_enveloped_parser. destruct (ve_members (pe_v P) d) as [ms|] eqn:Em; [|discriminate]. intros H.
  apply bind_ok in H as (id & Hid & H). apply bind_ok in H as (ts & Hts & H). apply bind_ok in H as (x & _ & H). apply bind_ok in H as (y & Hy & H).
  apply bind_ok in H as ([[media enc] d'] & Hu & H). exists d'.
  assert (Hin : In "EnvelopedVerifiablePresentation" ts).
  { unfold vp_enveloped_type in Hy. destruct (str_in _ ts) eqn:E; [now apply str_in_In|discriminate]. }
  destruct (String.eqb_spec media vp_media_jwt) as [->|]; [left; eauto using vt_env|].
  destruct (String.eqb_spec media vp_media_cose) as [->|]; [right; eauto using vt_env|discriminate].
Qed.
Lemma read_ok P o d r : read_presentation P o d = Ok r ->
  exists d', (vp_text (pe_v P) vp_media_jwt d d' /\ vp_json_parser P o d' = Ok r) \/ (vp_text (pe_v P) vp_media_cose d d' /\ vp_cwt_parser P d' = Ok r).
Proof.
  unfold read_presentation. intros H. apply or_else_ok in H as [H|[_ H]]; [now apply vp_env_ok in H|].
  apply or_else_ok in H as [H|[_ H]]; eauto using vt_self.
Qed.
Lemma vp_cwt_ok P d r : vp_cwt_parser P d = Ok r -> vr_cwt r <> None /\ vr_jwt r = "".
Proof.
  unfold vp_cwt_parser. intros H. apply bind_ok in H as (dm & _ & H). destruct (ve_cbor (pe_v P) (co_payload (snd dm))); [|discriminate].
  injection H as <-. split; [discriminate|reflexivity].
Qed.

(** *** The typed view *)
Lemma fld_none_absent m k : fld m k = None -> absent m k.
Proof. unfold fld, absent. destruct (mget m k) as [[]|]; auto; discriminate. Qed.
Lemma fld_some m k j : fld m k = Some j -> mget m k = Some j.
Proof. unfold fld. destruct (mget m k) as [[]|]; auto; discriminate. Qed.
Lemma string_fld_text m k s : parse_string_fld m k = Ok s -> text_member m k s.
Proof.
  unfold parse_string_fld, text_member. destruct (fld m k) as [j|] eqn:Ef.
  - apply fld_some in Ef. destruct j; try discriminate. intros [= <-]. now left.
  - intros [= <-]. right. split; [now apply fld_none_absent|reflexivity].
Qed.
Lemma map_res_objs e l ps : map_res (obj_of e) l = Ok ps -> Forall2 (fun j a => exists o, j = JObj o /\ o = a) l ps.
Proof.
  revert ps. induction l as [|j l IH]; cbn [map_res]; intros ps H; [injection H as <-; constructor|].
  apply bind_ok in H as (x & Hx & H). apply bind_ok in H as (xs & Hxs & H). injection H as <-. constructor; [|auto].
  destruct j; try discriminate. injection Hx as <-. eauto.
Qed.
Lemma ld_proof_view m ps : parse_ld_proof (fld m "proof") = Ok ps -> one_or_many (fun o a => o = a) m "proof" ps.
Proof.
  unfold parse_ld_proof. destruct (fld m "proof") as [j|] eqn:Ef.
  - apply fld_some in Ef. destruct j; try discriminate.
    + intros H. eapply om_many; eauto using map_res_objs.
    + intros [= <-]. eapply om_one; eauto.
  - intros [= <-]. apply om_none. now apply fld_none_absent.
Qed.
Lemma new_presentation_ok E o m p : new_presentation E o m = Ok p ->
  vp_view m p /\ pr_jwt p = "" /\ pr_cwt p = None
  /\ decode_credentials E o (fld m "verifiableCredential") = Ok (pr_creds p)
  /\ execute_checks E o (pr_proofs p) (pr_creds p) (pr_holder p) = Ok tt.
Proof.
  unfold new_presentation. intros H. apply bind_ok in H as (ts & Ht & H). apply bind_ok in H as ([c1 c2] & Hc & H).
  apply bind_ok in H as (cs & Hcs & H). apply bind_ok in H as (ps & Hps & H). apply bind_ok in H as (id & Hid & H).
  apply bind_ok in H as (h & Hh & H). apply bind_ok in H as ([] & Hx & H). injection H as <-.
  cbn [pr_jwt pr_cwt pr_creds pr_proofs pr_holder]. split; [|auto]. unfold vp_view.
  cbn [pr_id pr_types pr_context pr_custom_ctx pr_holder pr_proofs pr_custom fst snd].
  split; [now apply string_fld_text|]. split.
  { unfold decode_type in Ht. destruct (fld m "type") as [[| | |s|l|]|] eqn:Ef; try discriminate; apply fld_some in Ef.
    - right. injection Ht as <-. eauto.
    - left. rewrite Ef. do 2 f_equal. revert ts Ht. clear. induction l as [|j l IH]; cbn [map_res]; intros ts H; [now injection H as <-|].
      apply bind_ok in H as (x & Hx & H). apply bind_ok in H as (xs & Hxs & H). injection H as <-. destruct j; try discriminate.
      injection Hx as <-. cbn [map]. f_equal. now apply IH. }
  split.
  { unfold decode_context in Hc. destruct (fld m "@context") as [[| | |s|l|]|] eqn:Ef; try discriminate; apply fld_some in Ef.
    - right. injection Hc as <- <-. eauto.
    - left. rewrite Ef. do 2 f_equal. injection Hc as Hc. revert c1 c2 Hc. clear. induction l as [|j l IH]; cbn [take_strings]; intros c1 c2 H; [now injection H as <- <-|].
      destruct j; try (injection H as <- <-; reflexivity). destruct (take_strings l) as [a b]. injection H as <- <-. cbn. f_equal. now apply IH. }
  split.
  { unfold decode_holder in Hh. unfold holder_in. destruct (fld m "holder") as [[| | |s|l|o']|] eqn:Ef; try discriminate.
    - apply fld_some in Ef. injection Hh as <-. auto.
    - apply fld_some in Ef. apply string_fld_text in Hh. eauto 6.
    - injection Hh as <-. apply fld_none_absent in Ef. auto. }
  split; [now apply ld_proof_view|]. intros k0. exact (mget_copy_except vp_fields m k0).
Qed.
Lemma parse_vp_ok P o d p : parse_presentation_vp P o d = Ok p ->
  exists r, read_presentation P o d = Ok r /\ validate_vp P o (vr_raw r) = Ok tt /\ vp_view (vr_raw r) p
    /\ pr_jwt p = vr_jwt r /\ pr_cwt p = vr_cwt r
    /\ decode_credentials (pe_v P) o (fld (vr_raw r) "verifiableCredential") = Ok (pr_creds p)
    /\ execute_checks (pe_v P) o (pr_proofs p) (pr_creds p) (pr_holder p) = Ok tt
    /\ (vo_require_vc o = true -> pr_creds p <> []).
Proof.
  unfold parse_presentation_vp. intros H. apply bind_ok in H as (r & Hr & H). apply bind_ok in H as ([] & Hv & H).
  apply bind_ok in H as (q & Hq & H). apply bind_ok in H as (u & Hg & H). injection H as <-.
  apply new_presentation_ok in Hq as (H1 & H2 & H3 & H4 & H5). exists r. repeat (split; [assumption || reflexivity|]).
  cbn [with_envelope pr_creds] in *. repeat (split; [assumption || reflexivity|]).
  intros Hrq E0. cbn [with_envelope pr_creds] in *. rewrite Hrq, E0 in Hg. discriminate.
Qed.

(** *** The object a presentation text stands for *)
Inductive vp_object (E : venv) (data : string) (m : gomap json) (p : presentation) : Prop :=
| vob_json d : vp_text E "application/vp-ld+jwt" data d -> pr_cwt p = None -> vp_source E d m (pr_jwt p) -> vp_object E data m p
| vob_cwt d w : vp_text E "application/vp-ld+cose" data d -> pr_cwt p = Some w -> pr_jwt p = "" ->
    (vw_raw w = d \/ ve_hex E (un_quote d) = Some (vw_raw w)) ->
    ve_cose E (vw_raw w) = Some (vw_msg w) -> ve_cbor E (co_payload (vw_msg w)) = Some (vw_map w) ->
    m = match mget (vw_map w) "vp" with Some (JObj x) => x | _ => [] end -> vp_object E data m p.
(** the enclosed credentials, as they stand in the object *)
Inductive enclosed (m : gomap json) : list json -> Prop :=
| enc_none : absent m "verifiableCredential" -> enclosed m []
| enc_many l : mget m "verifiableCredential" = Some (JArr l) -> enclosed m l
| enc_one j : mget m "verifiableCredential" = Some j -> (forall l, j <> JArr l) -> j <> JNull -> enclosed m [j].
Lemma enclosed_ok E o m cs : decode_credentials E o (fld m "verifiableCredential") = Ok cs ->
  exists raws, enclosed m raws /\ Forall2 (fun j c => decode_one E o j = Ok c) raws cs.
Proof.
  unfold decode_credentials. destruct (fld m "verifiableCredential") as [j|] eqn:Ef.
  - pose proof (fld_some _ _ _ Ef) as Hm.
    assert (G : (forall l, j <> JArr l) -> rmap (fun c => [c]) (decode_one E o j) = Ok cs ->
      exists raws, enclosed m raws /\ Forall2 (fun j c => decode_one E o j = Ok c) raws cs).
    { intros Hn H. destruct (decode_one E o j) as [c| |] eqn:Ed; try discriminate. injection H as <-. exists [j]. split.
      - apply enc_one; auto. intros ->. discriminate.
      - constructor; [assumption|constructor]. }
    destruct j; try (apply G; intros; discriminate). intros H. exists l. split; [now apply enc_many|]. now apply map_res_forall2.
  - intros [= <-]. exists []. split; [apply enc_none; now apply fld_none_absent|constructor].
Qed.
Lemma parse_with_secured E o q d v : (forall x, q d = Ok (Some x) -> json_parser E o d = Ok (Some x) \/ cbor_parser E o d = Ok (Some x)) ->
  parse_with E o q d = Ok (Some v) -> co_no_proof o = false ->
  exists i, vc_issuer (cr_contents v) = Some i /\ is_id i <> "" /\ issuer_in (cr_json v) (Some i) /\ secured E o v (is_id i).
Proof.
  intros Hq H Hp. apply parse_with_ok in H as (v0 & H0 & H1 & _). apply Hq in H0. apply parser_sourced in H0 as (Hs & sd & Hc0).
  pose proof (parse_issued_by _ _ _ _ Hc0) as Hi0.
  assert (Hin0 : issuer_in (cr_json v0) (vc_issuer (cr_contents v0))) by (apply parse_view in Hc0; apply Hc0).
  pose proof (checked_same _ _ _ _ H1) as S1. unfold checked in H1. rewrite Hp in H1.
  destruct (checked_secured _ _ _ _ H1 Hs Hi0) as (i & Hi & Hsec).
  pose proof (same_issuer_in _ _ Hin0 S1) as Hin'. rewrite Hi in Hin'. exists i. repeat split; auto; try apply Hin'.
Qed.
Lemma data_url_secured E o u v : parse_data_url_cred E o u = Ok (Some v) -> co_no_proof o = false ->
  exists i, vc_issuer (cr_contents v) = Some i /\ is_id i <> "" /\ issuer_in (cr_json v) (Some i) /\ secured E o v (is_id i).
Proof.
  unfold parse_data_url_cred. intros H Hp. apply bind_ok in H as ([[media enc] d] & _ & H).
  destruct (String.eqb media vc_media_jwt || String.eqb media vc_media_sdjwt); [exact (parse_with_secured E o (json_parser E o) d v (fun x => @or_introl _ _) H Hp)|].
  destruct (String.eqb media vc_media_cose); [exact (parse_with_secured E o (cbor_parser E o) d v (fun x => @or_intror _ _) H Hp)|discriminate].
Qed.
(** a credential enclosed as text, or as an object that envelopes a token *)
Definition enveloped_cred (m : gomap json) : Prop :=
  mget m "type" = Some (JStr "EnvelopedVerifiableCredential")
  \/ exists l, mget m "type" = Some (JArr l) /\ In (JStr "EnvelopedVerifiableCredential") l.
Definition token_form (j : json) : Prop := (exists s, j = JStr s) \/ (exists m, j = JObj m /\ enveloped_cred m).
Lemma enveloped_cred_types m ts : decode_type (fld m "type") = Ok ts -> enveloped_cred m -> In enveloped_type ts.
Proof.
  intros H [He|(l & He & Hin)]; unfold fld in H; rewrite He in H; cbn [decode_type] in H.
  - injection H as <-. now left.
  - clear He. revert ts H. induction l as [|j l IH]; [destruct Hin|]. cbn [map_res]. intros ts H. apply bind_ok in H as (x & Hx & H).
    apply bind_ok in H as (xs & Hxs & H). injection H as <-. destruct Hin as [->|Hin]; [injection Hx as <-; now left|right; auto].
Qed.
Lemma decode_one_secured E o j c : vo_no_proof o = false -> token_form j -> decode_one E o j = Ok c ->
  exists nv i, vc_issuer (cr_contents c) = Some i /\ is_id i <> "" /\ issuer_in (cr_json c) (Some i) /\ secured E (cred_opts o nv) c (is_id i).
Proof.
  intros Hp [(s & ->)|(m & -> & He)]; cbn [decode_one]; intros H.
  - exists false. apply (parse_credential_secured E (cred_opts o false) s); auto.
  - exists true. unfold parse_credential_json in H. apply bind_ok in H as (ts & Ht & H).
    pose proof (enveloped_cred_types _ _ Ht He) as Hi. apply str_in_In in Hi. rewrite Hi in H.
    destruct (mget m "id") as [[]|]; try discriminate. apply bind_ok in H as (r & Hr & H). destruct r as [v|]; [|discriminate]. injection H as ->.
    eapply data_url_secured; eauto.
Qed.
Lemma cwt_object P d r : vp_cwt_parser P d = Ok r -> exists w, vr_cwt r = Some w /\ vr_jwt r = ""
  /\ (vw_raw w = d \/ ve_hex (pe_v P) (un_quote d) = Some (vw_raw w)) /\ ve_cose (pe_v P) (vw_raw w) = Some (vw_msg w)
  /\ ve_cbor (pe_v P) (co_payload (vw_msg w)) = Some (vw_map w)
  /\ vr_raw r = match mget (vw_map w) "vp" with Some (JObj x) => x | _ => [] end.
Proof.
  unfold vp_cwt_parser. intros H. apply bind_ok in H as ([raw msg] & Hd & H). cbn [fst snd] in H.
  destruct (ve_cbor (pe_v P) (co_payload msg)) as [q|] eqn:Eq; [|discriminate]. injection H as <-. eexists; split; [reflexivity|]. cbn [vw_raw vw_msg vw_map vr_jwt vr_raw].
  split; [reflexivity|]. destruct (ve_cose (pe_v P) d) as [c|] eqn:Ec.
  - injection Hd as <- <-. repeat split; auto.
  - destruct (ve_hex (pe_v P) (un_quote d)) as [b|] eqn:Eh; [|discriminate]. destruct (ve_cose (pe_v P) b) as [c|] eqn:Eb; [|discriminate].
    injection Hd as <- <-. repeat split; auto.
Qed.
(** everything about an accepted presentation *)
Lemma parse_vp_spec P o d p : parse_presentation_vp P o d = Ok p ->
  exists m raws, vp_object (pe_v P) d m p /\ vp_view m p /\ enclosed m raws
    /\ Forall2 (fun j c => decode_one (pe_v P) o j = Ok c) raws (pr_creds p)
    /\ validate_vp P o m = Ok tt /\ execute_checks (pe_v P) o (pr_proofs p) (pr_creds p) (pr_holder p) = Ok tt
    /\ (vo_require_vc o = true -> pr_creds p <> [])
    /\ (vo_no_proof o = false -> pr_cwt p = None -> vsecured (pe_v P) o m (pr_jwt p)).
Proof.
  intros H. apply parse_vp_ok in H as (r & Hr & Hv & Hw & Hj & Hc & Hd & Hx & Hq).
  destruct (enclosed_ok _ _ _ _ Hd) as (raws & He & Hf). exists (vr_raw r), raws. rewrite Hj, Hc in *.
  apply read_ok in Hr as (d' & [[Ht Hr]|[Ht Hr]]).
  - apply vp_json_secured in Hr as (Hs & Hn & Hsec). split; [eapply vob_json; eauto; rewrite ?Hj, ?Hc; auto|]. repeat (split; [assumption|]). auto.
  - pose proof (cwt_object _ _ _ Hr) as (w & H1 & H2 & H3 & H4 & H5 & H6). split; [eapply vob_cwt; eauto; rewrite ?Hj, ?Hc; auto|].
    repeat (split; [assumption|]). intros _ Hn. congruence.
Qed.
