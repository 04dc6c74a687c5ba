(** Property theorems for presentations: what a successful ParsePresentation says (C138-C147). *)
From Coq Require Import Permutation.
From Verif Require Import GoBase Base64 StatusModel PexModel StrLemmas JwtSpec DiSpec VcSpec JwtModel SdSpec SdModel SdParse DiModel
  VcModel VcJwt VcParse VcProofs VcView VcText VcMod VcSecure VcJwtProofs VcPanic VcSign VcSignProofs DiProofs DiProps JwtProofs JwtProps VcProps VcProps2 VcProps3 VcProps4
  VpModel VpProofs.

(** ** C138  With proof checking on, the object of an accepted JSON or JWT presentation is covered by a proof that a
    configured checker accepted, and the presentation returned says what that object says. *)
Theorem C138_accepted_means_checked : forall (P : vpenv) (o : vopts) (data : string) (p : presentation),
  parse_presentation_vp P o data = Ok p -> vo_no_proof o = false -> pr_cwt p = None ->
  exists m, vp_object (pe_v P) data m p /\ vp_view m p /\ vsecured (pe_v P) o m (pr_jwt p).
Proof.
  intros P o data p H Hp Hc. apply parse_vp_spec in H as (m & raws & H1 & H2 & _ & _ & _ & _ & _ & H3). exists m. auto.
Qed.
(** example: a JWT presentation that holds a JWT credential, under the default checkers *)
Definition ex_comb : combined :=
  {| cc_jwt := default_jwt ex_cenv ex_resolve; cc_ld := default_ld ex_cenv ex_resolve;
     cc_cwt := default_cwt ex_cenv ex_resolve (fun _ => Err "x") |}.
Definition ex_vopts : vopts :=
  {| vo_check := Some ex_comb; vo_no_proof := false; vo_strict := false; vo_require_vc := true; vo_require_proof := true;
     vo_no_jsonld := false; vo_di := None; vo_purpose := ""; vo_domain := ""; vo_challenge := ""; vo_holder := true; vo_related := true |}.
Definition ex_vp (raws : list json) : gomap json :=
  [("@context", JArr [JStr v1_context]); ("type", JStr "VerifiablePresentation"); ("verifiableCredential", JArr raws)].
Definition ex_vp_members (raws : list json) : list (string * json) :=
  [("iss", JStr "did:h"); ("jti", JStr "urn:vp"); ("exp", jnum 1); ("aud", JStr "other"); ("vp", JObj (ex_vp raws))].
Definition vp_jws (sig : string) : jws :=
  {| jws_headers := [("alg", JStr "EdDSA"); ("kid", JStr "did:i#k")]; jws_payload := "V"; jws_input := "m"; jws_sig := sig |}.
Definition ex_vp_env (raws : list json) : venv :=
  toyV0 [(ex_tok "good", ex_jws "sig:m"); (ex_tok "bad", ex_jws "sig:x"); (ex_tok "vp", vp_jws "sig:m"); (ex_tok "vpbad", vp_jws "sig:x")]
    [("P", ex_jwt_members); ("V", ex_vp_members raws); ("{}", [])].
Definition toyP (E : venv) : vpenv :=
  {| pe_v := E; pe_valid := fun _ _ => Ok tt; pe_jsonld := fun _ _ => Ok tt; pe_marshal := fun _ => "" |}.
Definition ex_P : vpenv := toyP (ex_vp_env [JStr (ex_tok "good")]).
Definition ex_parsed : res presentation := Eval vm_compute in parse_presentation_vp ex_P ex_vopts (ex_tok "vp").
Lemma ex_parsed_eq : parse_presentation_vp ex_P ex_vopts (ex_tok "vp") = ex_parsed.
Proof. vm_cast_no_check (eq_refl ex_parsed). Qed.
Example C138_example : exists p,
  parse_presentation_vp ex_P ex_vopts (ex_tok "vp") = Ok p /\ pr_cwt p = None /\ pr_jwt p = ex_tok "vp"
  /\ pr_holder p = "did:h" /\ pr_id p = "urn:vp" /\ List.length (pr_creds p) = 1%nat
  /\ is_err (parse_presentation_vp ex_P ex_vopts (ex_tok "vpbad")) = true
  /\ is_err (parse_presentation_vp (toyP (ex_vp_env [JStr (ex_tok "bad")])) ex_vopts (ex_tok "vp")) = true.
Proof.
  rewrite ex_parsed_eq. eexists; split; [reflexivity|]. do 5 (split; [reflexivity|]). split; vm_compute; reflexivity.
Qed.
Print Assumptions C138_accepted_means_checked.

(** ** C139  (refuted) A CWT presentation is accepted although its signature was refused, or never looked at. *)
Definition refuse_all : combined :=
  {| cc_jwt := fun _ _ _ _ => Err "no"; cc_ld := fun _ _ _ _ => Err "no"; cc_cwt := fun _ _ _ _ => Err "no" |}.
Definition with_check (o : vopts) (c : combined) : vopts :=
  {| vo_check := Some c; vo_no_proof := false; vo_strict := vo_strict o; vo_require_vc := vo_require_vc o; vo_require_proof := vo_require_proof o;
     vo_no_jsonld := vo_no_jsonld o; vo_di := vo_di o; vo_purpose := vo_purpose o; vo_domain := vo_domain o; vo_challenge := vo_challenge o;
     vo_holder := vo_holder o; vo_related := vo_related o |}.
Definition ex_vp_bare : gomap json := [("@context", JArr [JStr v1_context]); ("type", JStr "VerifiablePresentation")].
Definition no_vc (o : vopts) : vopts :=
  {| vo_check := vo_check o; vo_no_proof := vo_no_proof o; vo_strict := vo_strict o; vo_require_vc := false; vo_require_proof := vo_require_proof o;
     vo_no_jsonld := vo_no_jsonld o; vo_di := vo_di o; vo_purpose := vo_purpose o; vo_domain := vo_domain o; vo_challenge := vo_challenge o;
     vo_holder := vo_holder o; vo_related := vo_related o |}.
Definition cwt_vp_P : vpenv := toyP (cw_env [("vp", JObj ex_vp_bare)]).
Theorem C139_cwt_presentation_checked_refuted : ~ forall (P : vpenv) (o : vopts) (data : string) (p : presentation) w,
  parse_presentation_vp P o data = Ok p -> vo_no_proof o = false -> pr_cwt p = Some w ->
  exists cc tbs alg iss, vo_check o = Some cc /\ co_tbs (vw_msg w) = Ok tbs /\ co_alg (vw_msg w) = Ok alg
    /\ cc_cwt cc {| cw_kid := co_kid (vw_msg w); cw_key := co_key (vw_msg w); cw_alg := alg |} iss tbs (co_sig (vw_msg w)) = Ok tt.
Proof.
  intros H.
  destruct (parse_presentation_vp cwt_vp_P (no_vc (with_check ex_vopts refuse_all)) "d2") as [p| |] eqn:Ep; [|vm_compute in Ep; discriminate..].
  destruct (pr_cwt p) as [w|] eqn:Ew; [|vm_compute in Ep; injection Ep as <-; discriminate].
  destruct (H _ _ _ _ w Ep eq_refl Ew) as (cc & tbs & alg & iss & Hc & _ & _ & Hv). injection Hc as <-. discriminate Hv.
Qed.
(** the same in general: for CWT texts no setting of the checkers or of proof checking matters *)
Theorem C139_cwt_ignores_checkers_refuted : forall (P : vpenv) (data : string) (r : vresp),
  vp_cwt_parser P data = Ok r -> ve_members (pe_v P) data = None -> is_jws (ve_obj (pe_v P)) (un_quote data) = false ->
  is_jwt_unsecured (ve_obj (pe_v P)) (un_quote data) = false ->
  forall o, read_presentation P o data = Ok r.
Proof.
  intros P data r Hr Hm Hj Hu o. unfold read_presentation, vp_enveloped_parser, vp_json_parser, parse_json. rewrite Hm, Hj, Hu. exact Hr.
Qed.
Print Assumptions C139_cwt_presentation_checked_refuted.
Print Assumptions C139_cwt_ignores_checkers_refuted.

(** ** C140  With proof checking on, every credential enclosed as a token or as an enveloping object has an issuer, and a
    configured checker accepted, for exactly that issuer, a proof over exactly the credential returned. *)
Theorem C140_enclosed_tokens_checked : forall (P : vpenv) (o : vopts) (data : string) (p : presentation),
  parse_presentation_vp P o data = Ok p -> vo_no_proof o = false ->
  exists m raws, vp_object (pe_v P) data m p /\ enclosed m raws
    /\ Forall2 (fun j c => token_form j ->
         exists nv i, vc_issuer (cr_contents c) = Some i /\ is_id i <> "" /\ issuer_in (cr_json c) (Some i)
           /\ secured (pe_v P) (cred_opts o nv) c (is_id i)) raws (pr_creds p).
Proof.
  intros P o data p H Hp. apply parse_vp_spec in H as (m & raws & H1 & _ & H2 & H3 & _). exists m, raws. split; [assumption|]. split; [assumption|].
  clear - H3 Hp. induction H3 as [|j c js cs Hj _ IH]; constructor; [|assumption]. intros Ht. now apply decode_one_secured with (j := j).
Qed.
Example C140_example : exists p c je,
  parse_presentation_vp ex_P ex_vopts (ex_tok "vp") = Ok p /\ vo_no_proof ex_vopts = false /\ pr_creds p = [c]
  /\ cr_jwt c = Some je /\ je_jwt je = ex_tok "good" /\ token_form (JStr (ex_tok "good")).
Proof. rewrite ex_parsed_eq. eexists _, _, _. split; [reflexivity|]. split; [reflexivity|]. split; [reflexivity|]. split; [reflexivity|]. split; [reflexivity|]. left. eauto. Qed.
Print Assumptions C140_enclosed_tokens_checked.

(** ** C141  (refuted) A credential enclosed as a plain JSON object is returned without its proof being looked at. *)
Definition with_ldproofs (E : venv) (l : list ldproof) : venv := {|
  ve_time := ve_time E; ve_jwt := ve_jwt E; ve_members := ve_members E; ve_obj := ve_obj E; ve_sd := ve_sd E; ve_order := ve_order E;
  ve_cose := ve_cose E; ve_hex := ve_hex E; ve_cbor := ve_cbor E; ve_schema := ve_schema E; ve_valid := ve_valid E; ve_jsonld := ve_jsonld E;
  ve_ext := ve_ext E; ve_ldproofs := fun _ => Ok l; ve_ldmsg := ve_ldmsg E; ve_di := ve_di E; ve_now := ve_now E; ve_related := ve_related E |}.
Definition forged_proof : ldproof := {| lp_type := "Ed25519Signature2018"; lp_pkid := Ok "did:i#k"; lp_sig := Ok "forged"; lp_raw := JNull |}.
Definition forged_P : vpenv := toyP (with_ldproofs (ex_vp_env [JObj ex_forged]) [forged_proof]).
Definition forged_opts : vopts := with_check ex_vopts {| cc_jwt := cc_jwt ex_comb; cc_ld := fun _ _ _ _ => Err "no"; cc_cwt := cc_cwt ex_comb |}.
Definition forged_parsed : res presentation := Eval vm_compute in parse_presentation_vp forged_P forged_opts (ex_tok "vp").
Lemma forged_eq : parse_presentation_vp forged_P forged_opts (ex_tok "vp") = forged_parsed.
Proof. vm_cast_no_check (eq_refl forged_parsed). Qed.
Theorem C141_enclosed_objects_checked_refuted : ~ forall (P : vpenv) (o : vopts) (data : string) (p : presentation) c,
  parse_presentation_vp P o data = Ok p -> vo_no_proof o = false -> In c (pr_creds p) ->
  exists nv iss, secured (pe_v P) (cred_opts o nv) c iss.
Proof.
  intros H. pose proof forged_eq as E. unfold forged_parsed in E.
  match type of E with _ = Ok ?q => pose (p := q); change (parse_presentation_vp forged_P forged_opts (ex_tok "vp") = Ok p) in E end.
  destruct (pr_creds p) as [|c cs] eqn:Ec; [discriminate|].
  assert (Hc : cr_jwt c = None /\ cr_cwt c = None) by (unfold p in Ec; cbn [pr_creds] in Ec; injection Ec as <- _; split; reflexivity).
  destruct Hc as [H1 H2]. destruct (H _ _ _ p c E eq_refl) as (nv & iss & Hs); [rewrite Ec; now left|].
  destruct Hs as [je j pc G|ce pc tbs alg q _ G|chk ps _ _ Hk Hl Hf|V _ _ Hv].
  - congruence.
  - congruence.
  - injection Hk as <-. injection Hl as <-. apply Forall_inv in Hf as (msg & sig & Hm & Hsg & Hok). injection Hm as <-. injection Hsg as <-.
    discriminate Hok.
  - discriminate.
Qed.
Print Assumptions C141_enclosed_objects_checked_refuted.

(** ** C142  Holder check: when asked for, a presentation with embedded proofs is accepted only if, unless its credentials
    speak of no or of several subjects, every credential secured by a key of the same DID as a proof of the presentation
    was issued by the holder; and no presentation is refused for any other reason by that check. *)
(** proof [q] was made by a key of [did]: its verification method is [did], possibly followed by "#" and a fragment *)
Definition method_did (q : gomap json) (did : string) : Prop :=
  exists vm, mget q "verificationMethod" = Some (JStr vm) /\ vm <> "" /\ before_hash vm = did.
Definition methods_given (ps : list (gomap json)) : Prop := forall q, In q ps -> exists did, method_did q did.
Definition one_subject (cs : list credential) : Prop :=
  exists id, forall x, (exists c s, In c cs /\ In s (vc_subject (cr_contents c)) /\ sj_id s = x) <-> x = id.
Definition holder_rule (ps : list (gomap json)) (cs : list credential) (holder : string) : Prop :=
  ps <> [] -> one_subject cs ->
  forall c q q' did, In c cs -> In q (cr_proofs c) -> In q' ps -> method_did q did -> method_did q' did ->
    holder <> "" /\ exists i, vc_issuer (cr_contents c) = Some i /\ is_id i = holder.
Lemma one_subject_iff cs : (List.length (nodup string_dec (subject_ids cs)) =? 1)%nat = true <-> one_subject cs.
Proof.
  assert (Hin : forall x, In x (subject_ids cs) <-> exists c s, In c cs /\ In s (vc_subject (cr_contents c)) /\ sj_id s = x).
  { intros x. unfold subject_ids. rewrite in_flat_map. split.
    - intros (c & Hc & Hx). apply in_map_iff in Hx as (s & Hs & Hi). eauto.
    - intros (c & s & Hc & Hs & <-). exists c. split; [assumption|]. now apply in_map. }
  rewrite Nat.eqb_eq. unfold one_subject. pose proof (NoDup_nodup string_dec (subject_ids cs)) as Hnd.
  assert (Hx : forall x, In x (nodup string_dec (subject_ids cs)) <-> exists c s, In c cs /\ In s (vc_subject (cr_contents c)) /\ sj_id s = x).
  { intros x. rewrite nodup_In. apply Hin. }
  clear Hin. destruct (nodup string_dec (subject_ids cs)) as [|a [|b l]].
  - split; [discriminate|]. intros (id & H). exfalso. apply (proj2 (Hx id)). now apply H.
  - split; [|reflexivity]. intros _. exists a. intros x. rewrite <- Hx. cbn [In]. split; [intros [->|[]]; reflexivity|intros ->; now left].
  - split; [discriminate|]. intros (id & H). exfalso. apply NoDup_cons_iff in Hnd as [Hn _]. apply Hn. left.
    transitivity id; [|symmetry]; apply H, Hx; cbn; auto.
Qed.
Lemma controller_of T q did : method_did q did -> controller T q = did /\ String.eqb (method_of T q) "" = false.
Proof.
  intros (vm & Hm & Hne & <-). unfold controller, method_of, fld. rewrite Hm. cbn [sprint]. split; [reflexivity|]. now destruct (String.eqb_spec vm "").
Qed.
Lemma vp_methods_in T ps d : methods_given ps -> (In d (vp_methods T ps) <-> exists q, In q ps /\ method_did q d).
Proof.
  intros Hg. unfold vp_methods. rewrite in_map_iff. split.
  - intros (q & Hc & Hq). apply filter_In in Hq as [Hq _]. exists q. split; [assumption|]. destruct (Hg q Hq) as (did & Hd).
    destruct (controller_of T q did Hd) as [He _]. congruence.
  - intros (q & Hq & Hd). destruct (controller_of T q d Hd) as [He Hn]. exists q. split; [assumption|]. apply filter_In. split; [assumption|]. now rewrite Hn.
Qed.
Lemma holder_iff T ps cs h : methods_given ps -> (forall c, In c cs -> methods_given (cr_proofs c)) ->
  (validate_holder T ps cs h = Ok tt <-> holder_rule ps cs h).
Proof.
  intros Hp Hc. unfold validate_holder, holder_rule. destruct ps as [|p0 ps']; [split; [intros _ H; contradiction|reflexivity]|].
  set (ps := p0 :: ps') in *. assert (Hne : ps <> []) by discriminate. clearbody ps.
  destruct (List.length (nodup string_dec (subject_ids cs)) =? 1)%nat eqn:E1; cbn [negb].
  2:{ split; [|reflexivity]. intros _ _ Ho. apply one_subject_iff in Ho. congruence. }
  assert (Hone : one_subject cs) by now apply one_subject_iff.
  match goal with |- context [guard ?b _] => destruct b eqn:Ef end; cbn [guard].
  - split; [|reflexivity]. intros _ _ _ c q q' did Hin Hq Hq' Hd Hd'. rewrite forallb_forall in Ef. specialize (Ef c Hin).
    assert (Hs : existsb (fun x => str_in (controller T x) (vp_methods T ps)) (cr_proofs c) = true).
    { apply existsb_exists. exists q. split; [assumption|]. apply str_in_In. apply vp_methods_in; [assumption|]. exists q'. split; [assumption|].
      destruct (controller_of T q did Hd) as [-> _]. assumption. }
    rewrite Hs in Ef. cbn [negb orb] in Ef. apply andb_true_iff in Ef as [Ea Eb]. apply String.eqb_eq in Eb.
    destruct (String.eqb_spec h "") as [|Hn]; [discriminate|]. split; [assumption|]. unfold issuer_id in Eb.
    destruct (vc_issuer (cr_contents c)) as [i|]; [eauto|contradiction].
  - split; [discriminate|]. intros Hr. exfalso. enough (forallb (fun c => negb (existsb (fun x => str_in (controller T x) (vp_methods T ps)) (cr_proofs c))
      || (negb (String.eqb h "") && String.eqb h (issuer_id (cr_contents c)))) cs = true) by congruence.
    apply forallb_forall. intros c Hin. destruct (existsb _ _) eqn:Es; [|reflexivity]. cbn [negb orb].
    apply existsb_exists in Es as (q & Hq & Hs). apply str_in_In in Hs. apply vp_methods_in in Hs as (q' & Hq' & Hd'); [|assumption].
    destruct (Hc c Hin q Hq) as (did & Hd). destruct (controller_of T q did Hd) as [Hco _]. rewrite Hco in Hd'.
    destruct (Hr Hne Hone c q q' did Hin Hq Hq' Hd Hd') as (Hh & i & Hi & <-). unfold issuer_id. rewrite Hi, String.eqb_refl.
    now destruct (String.eqb_spec (is_id i) "").
Qed.
Theorem C142_holder_check : forall (P : vpenv) (o : vopts) (data : string) (p : presentation),
  parse_presentation_vp P o data = Ok p -> vo_holder o = true ->
  methods_given (pr_proofs p) -> (forall c, In c (pr_creds p) -> methods_given (cr_proofs c)) ->
  holder_rule (pr_proofs p) (pr_creds p) (pr_holder p).
Proof.
  intros P o data p H Hh Hp Hc. apply parse_vp_spec in H as (m & raws & _ & _ & _ & _ & _ & Hx & _).
  unfold execute_checks in Hx. rewrite Hh in Hx. apply bind_ok in Hx as ([] & Hx & _). now apply holder_iff in Hx.
Qed.
(** and the check refuses nothing else *)
Theorem C142_holder_check_exact : forall (E : venv) (o : vopts) ps cs h,
  vo_holder o = true -> vo_related o = false -> methods_given ps -> (forall c, In c cs -> methods_given (cr_proofs c)) ->
  (execute_checks E o ps cs h = Ok tt <-> holder_rule ps cs h).
Proof.
  intros E o ps cs h Hh Hr Hp Hc. rewrite <- (holder_iff (ve_time E) ps cs h Hp Hc). unfold execute_checks. rewrite Hh, Hr.
  destruct (validate_holder _ _ _ _) as [[]| |]; cbn [bind]; split; congruence.
Qed.
(** example: a self-issued credential; the holder is its issuer, or not *)
Definition self_cred : gomap json :=
  [("@context", JStr v1_context); ("type", JStr "VerifiableCredential"); ("issuer", JStr "did:i"); ("credentialSubject", JStr "did:s");
   ("proof", JObj [("type", JStr "T"); ("verificationMethod", JStr "did:i#1")])].
Definition self_vp (holder : string) : gomap json :=
  (ex_vp [JObj self_cred] ++ [("holder", JStr holder); ("proof", JObj [("type", JStr "T"); ("verificationMethod", JStr "did:i#2")])])%list.
Definition self_P (holder : string) : vpenv := toyP (toyV0 [] [(ex_text, self_vp holder)]).
Definition method_check (ps : list (gomap json)) : bool :=
  forallb (fun q => match mget q "verificationMethod" with Some (JStr s) => negb (String.eqb s "") | _ => false end) ps.
Lemma methods_check ps : method_check ps = true -> methods_given ps.
Proof.
  unfold method_check, methods_given, method_did. rewrite forallb_forall. intros H q Hq. specialize (H q Hq).
  destruct (mget q "verificationMethod") as [[]|]; try discriminate. exists (before_hash s), s. split; [reflexivity|]. split; [|reflexivity].
  now destruct (String.eqb_spec s "").
Qed.
Example C142_example :
  (exists p, parse_presentation_vp (self_P "did:i") ex_vopts ex_text = Ok p /\ vo_holder ex_vopts = true /\ methods_given (pr_proofs p)
     /\ (forall c, In c (pr_creds p) -> methods_given (cr_proofs c)) /\ List.length (pr_creds p) = 1%nat /\ List.length (pr_proofs p) = 1%nat)
  /\ parse_presentation_vp (self_P "did:x") ex_vopts ex_text = Err "holder".
Proof.
  split; [|vm_compute; reflexivity]. eexists. split; [vm_compute; reflexivity|]. split; [reflexivity|]. split; [apply methods_check; reflexivity|].
  split; [|split; reflexivity]. intros c [<-|[]]. apply methods_check. reflexivity.
Qed.
Print Assumptions C142_holder_check.
Print Assumptions C142_holder_check_exact.

(** ** C143  (refuted) The holder is not tied to the signer: a JWT presentation names one DID as holder (iss) and is signed
    with a key of another, and the holder check passes. *)
Theorem C143_holder_is_signer_refuted : ~ forall (P : vpenv) (o : vopts) (data : string) (p : presentation) j kid,
  parse_presentation_vp P o data = Ok p -> vo_no_proof o = false -> vo_holder o = true -> pr_holder p <> "" ->
  de_jws (ve_jwt (pe_v P)) (pr_jwt p) None = Ok j -> mget (jws_headers j) "kid" = Some (JStr kid) ->
  before_hash kid = pr_holder p.
Proof.
  intros H. pose proof ex_parsed_eq as E. unfold ex_parsed in E.
  match type of E with _ = Ok ?q => pose (p := q); change (parse_presentation_vp ex_P ex_vopts (ex_tok "vp") = Ok p) in E end.
  assert (Hh : pr_holder p = "did:h") by reflexivity.
  specialize (H ex_P ex_vopts (ex_tok "vp") p (vp_jws "sig:m") "did:i#k" E eq_refl eq_refl). rewrite Hh in H.
  assert (Hb : before_hash "did:i#k" = "did:h") by (apply H; [discriminate|vm_compute; reflexivity|reflexivity]). discriminate Hb.
Qed.
Print Assumptions C143_holder_is_signer_refuted.

(** ** C144  The object of a JWT presentation is its "vp" claim, with a non-empty iss claim as "holder" and a non-empty jti
    claim as "id"; nothing else differs. *)
Definition plain_vp_claims (ms : gomap json) : Prop :=
  NoDup (map fst ms) /\ forall r k, In r ("vp" :: registered) -> In k (map fst ms) -> equal_fold r k = true -> k = r.
Definition vp_refined (m0 m : gomap json) (iss jti : string) : Prop :=
  forall k, mget m k = if String.eqb k "holder" && negb (String.eqb iss "") then Some (JStr iss)
                       else if String.eqb k "id" && negb (String.eqb jti "") then Some (JStr jti) else mget m0 k.
Lemma pres_claims_plain ms c : plain_vp_claims ms -> pres_claims ms = Ok c ->
  text_member ms "iss" (pc_iss c) /\ text_member ms "jti" (pc_jti c)
  /\ match mget ms "vp" with
     | Some (JObj o) => pc_vp c = Some (to_map o) | Some JNull | None => pc_vp c = None | Some _ => False end.
Proof.
  intros [Hn Hf] H. unfold pres_claims in H. apply bind_ok in H as (iss & H1 & H). do 5 (apply bind_ok in H as (? & _ & H)).
  apply bind_ok in H as (jti & H2 & H). apply bind_ok in H as (vp & H3 & H). injection H as <-. cbn [pc_iss pc_jti pc_vp].
  rewrite occ_nodup in H1, H2, H3 by (try assumption; intros k; apply Hf; cbn; tauto).
  assert (G : forall r s, fold_res str_step match mget ms r with Some j => [j] | None => [] end "" = Ok s -> text_member ms r s).
  { intros r s. unfold fold_res, text_member, absent. destruct (mget ms r) as [[]|]; cbn; intros H; try discriminate; injection H as <-; auto. }
  split; [auto|]. split; [auto|]. unfold fold_res, to_map in *.
  destruct (mget ms "vp") as [[]|]; cbn in H3; try discriminate; injection H3 as <-; auto.
Qed.
Theorem C144_registered_claims : forall (P : vpenv) (o : vopts) (data : string) (p : presentation) j ms m0,
  parse_presentation_vp P o data = Ok p -> pr_jwt p <> "" ->
  de_jws (ve_jwt (pe_v P)) (pr_jwt p) None = Ok j -> ve_members (pe_v P) (jws_payload j) = Some ms ->
  plain_vp_claims ms -> mget ms "vp" = Some (JObj m0) -> NoDup (map fst m0) ->
  exists m iss jti, text_member ms "iss" iss /\ text_member ms "jti" jti /\ vp_refined m0 m iss jti /\ vp_view m p
    /\ (iss <> "" -> pr_holder p = iss) /\ (jti <> "" -> pr_id p = jti).
Proof.
  intros P o data p j ms m0 H Hj Hd Hm Hp Hv Hn. apply parse_vp_spec in H as (m & raws & Ho & Hw & _).
  destruct Ho as [d _ _ Hs|d w _ _ Hjw _ _ _ _]; [|contradiction]. destruct Hs as [j' Hq _ Hd' (c & Hc & Hvc)|?|?]; [|contradiction..].
  rewrite Hd in Hd'. injection Hd' as <-. unfold pres_claims_of in Hc. rewrite Hm in Hc.
  destruct (pres_claims_plain _ _ Hp Hc) as (H1 & H2 & H3). rewrite Hv in H3. rewrite (to_map_nodup _ Hn) in H3.
  exists m, (pc_iss c), (pc_jti c). split; [assumption|]. split; [assumption|]. unfold vp_of_claims in Hvc. rewrite H3 in Hvc.
  split; [exact Hvc|]. split; [assumption|]. destruct Hw as (W1 & _ & _ & W4 & _). split; intros Hne.
  - specialize (Hvc "holder"). destruct (String.eqb_spec (pc_iss c) ""); [contradiction|]. cbn in Hvc. destruct W4 as [[[W|W] _]|[W|(ob & W & _)]]; congruence.
  - specialize (Hvc "id"). destruct (String.eqb_spec (pc_jti c) ""); [contradiction|]. rewrite !andb_true_r in Hvc. cbn in Hvc. destruct W1 as [W|[[W|W] _]]; congruence.
Qed.
Lemma vp_names_check (ms : gomap json) : forallb (fun r => forallb (fun k => negb (equal_fold r k) || String.eqb k r) (map fst ms)) ("vp" :: registered) = true ->
  forall r k, In r ("vp" :: registered) -> In k (map fst ms) -> equal_fold r k = true -> k = r.
Proof.
  intros H r k Hr Hk He. rewrite forallb_forall in H. specialize (H r Hr). rewrite forallb_forall in H. specialize (H k Hk).
  rewrite He in H. cbn [negb orb] in H. now apply String.eqb_eq.
Qed.
Example C144_example : exists p j, let ms := ex_vp_members [JStr (ex_tok "good")] in
  parse_presentation_vp ex_P ex_vopts (ex_tok "vp") = Ok p /\ pr_jwt p <> ""
  /\ de_jws (ve_jwt (pe_v ex_P)) (pr_jwt p) None = Ok j /\ ve_members (pe_v ex_P) (jws_payload j) = Some ms
  /\ plain_vp_claims ms /\ mget ms "vp" = Some (JObj (ex_vp [JStr (ex_tok "good")])) /\ NoDup (map fst (ex_vp [JStr (ex_tok "good")]))
  /\ mget (ex_vp [JStr (ex_tok "good")]) "holder" = None.
Proof.
  rewrite ex_parsed_eq. exists (match ex_parsed with Ok p => p | _ => new_empty "" [] end), (vp_jws "sig:m"). cbv zeta.
  split; [reflexivity|]. split; [discriminate|]. split; [reflexivity|]. split; [reflexivity|]. split.
  { split; [nodup_keys|]. apply vp_names_check. vm_compute. reflexivity. }
  split; [reflexivity|]. split; [nodup_keys|reflexivity].
Qed.
Print Assumptions C144_registered_claims.

(** ** C145  Every accepted presentation, in whatever form it came (JSON, JWT or CWT), has a supported base context first and passed
    the JSON schema of that data model and, unless disabled, the JSON-LD check; with requireVC it holds a credential. *)
Definition first_context (m : gomap json) (c : string) : Prop :=
  mget m "@context" = Some (JStr c) \/ exists l, mget m "@context" = Some (JArr (JStr c :: l)).
Theorem C145_validation_enforced : forall (P : vpenv) (o : vopts) (data : string) (p : presentation),
  parse_presentation_vp P o data = Ok p ->
  exists m, vp_object (pe_v P) data m p /\ vp_view m p
    /\ ((first_context m "https://www.w3.org/2018/credentials/v1" /\ pe_valid P false m = Ok tt)
        \/ (first_context m "https://www.w3.org/ns/credentials/v2" /\ pe_valid P true m = Ok tt))
    /\ (vo_no_jsonld o = false -> pe_jsonld P (vo_strict o) m = Ok tt)
    /\ (vo_require_vc o = true -> pr_creds p <> []).
Proof.
  intros P o data p H. apply parse_vp_spec in H as (m & raws & Ho & Hw & _ & _ & Hv & _ & Hq & _). exists m. split; [assumption|]. split; [assumption|].
  unfold validate_vp, get_base_context_raw in Hv. apply bind_ok in Hv as (b & Hb & Hv). apply bind_ok in Hv as ([] & Hs & Hv).
  destruct (mhas m "@context"); [|discriminate]. apply bind_ok in Hb as ([l cu] & Hl & Hb). cbn [fst] in Hb. unfold get_base_context in Hb.
  destruct l as [|c l]; [discriminate|].
  assert (Hf : first_context m c).
  { unfold decode_context in Hl. unfold first_context. destruct (fld m "@context") as [[| | |s|js|]|] eqn:Ef; try discriminate; apply fld_some in Ef.
    - injection Hl as <- _ _. auto.
    - right. destruct js as [|j js]; [discriminate|]. cbn [take_strings] in Hl. destruct j; try discriminate. destruct (take_strings js). injection Hl as <- _ _. eauto. }
  split; [|split; [|assumption]].
  - destruct (String.eqb_spec c v1_context) as [->|Hn]; cbn [orb] in Hb; [injection Hb as <-; left; split; [exact Hf|exact Hs]|].
    destruct (String.eqb_spec c v2_context) as [->|]; [injection Hb as <-; right; split; [exact Hf|exact Hs]|discriminate].
  - intros Hn. now rewrite Hn in Hv.
Qed.
Definition picky_P : vpenv :=
  {| pe_v := pe_v ex_P; pe_valid := fun v2 m => if mhas m "holder" then Ok tt else Err "no holder"; pe_jsonld := fun s m => Ok tt; pe_marshal := fun _ => "" |}.
Definition picky_P2 : vpenv :=
  {| pe_v := pe_v cwt_vp_P; pe_valid := pe_valid picky_P; pe_jsonld := fun s m => Ok tt; pe_marshal := fun _ => "" |}.
Example C145_example :
  is_ok (parse_presentation_vp picky_P ex_vopts (ex_tok "vp")) = true
  /\ parse_presentation_vp picky_P2 (no_vc ex_vopts) "d2" = Err "no holder"
  /\ is_ok (parse_presentation_vp cwt_vp_P (no_vc ex_vopts) "d2") = true.
Proof. split; [vm_compute; reflexivity|]. split; vm_compute; reflexivity. Qed.
Print Assumptions C145_validation_enforced.
