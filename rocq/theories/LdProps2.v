(** Property theorems for linked-data proofs of presentations and DID documents (C201-C205). *)
From Coq Require Import Permutation.
From Verif Require Import GoBase Base64 StatusModel PexModel StrLemmas JwtSpec DiSpec VcSpec JwtModel SdSpec SdModel SdParse DiModel
  VcModel VcJwt VcParse VcSign VpModel VcAdd VcProofs VcView VcText VcMod VcSecure DiProofs DiProps JwtProofs JwtProps VcProps VcProps2
  VcProps3 VcProps4 VcProps5 VcProps6 VpSignProofs VpProps VpProps3 VcProps7 LdModel LdSpec LdProofs LdProps.

(** ** C201  A linked-data proof added to a presentation is accepted (issuer: the DID in the proof's key id). *)
Theorem C201_add_proof_then_parse : forall (P : vpenv) (D : senv) (U : credential -> res json) L ser suites rd now c (o : vopts) ck
    (p p' : presentation) cs (data : string) m m0,
  add_ld_pres L U now c p = Ok p' ->
  ld_lib L ser -> ld_reader L ser (pe_v P) suites rd ->
  pr_jwt p = "" -> cwt_of p = None -> pr_cwt p = None -> plain_vp p ->
  (forall k, In k (map fst (pr_custom p)) -> equal_fold "type" k = false /\ k <> "jwt") ->
  ~ In "EnvelopedVerifiablePresentation" (pr_types p) ->
  (* earlier proofs, if any, are linked-data proofs that are accepted *)
  pres_raw U p = Ok m -> earlier_accepted (pe_v P) (embedded_opts o) None m (pr_proofs p) ->
  (* the context names a representation and a key; creator and checker fit *)
  lx_rep c <> RepOther -> lx_vm c <> "" -> lx_type c <> "DataIntegrityProof" ->
  vo_check o = Some ck -> ld_fits suites (lx_creator c) (cc_ld ck) (lx_type c) (lx_key c) (lx_vm c) (hd "" (split_on "#" (lx_vm c))) ->
  (* the text of the result *)
  pres_raw U p' = Ok m0 -> marshal_vp P D U p' = Ok data ->
  (exists rest ms, data = String brace rest /\ ve_members (pe_v P) data = Some ms /\ Permutation ms m0) ->
  creds_back (pe_v P) o U p' cs -> acceptable P o U p' cs ->
  exists q x, parse_presentation_vp P o data = Ok q /\ same_vp p' q cs /\ pr_proofs q = (pr_proofs p ++ [x])%list /\ pr_jwt q = "" /\ pr_cwt q = None
    /\ (forall ps, with_proofs p' ps = with_proofs p ps).
Proof.
  intros P D U L ser suites rd now c o ck p p' cs data m m0 H HL HR Hj Hw Hw' Hpl Hcu Hty Hm He Hrep Hvm Hdt Hck Hfit Hr0 Hmar Hd Hcr Hac.
  unfold add_ld_pres in H. rewrite Hm in H. cbn [bind] in H. apply bind_ok in H as (ps & Ha & H). injection H as <-.
  destruct (add_ld L now c m) as [d r] eqn:Ea. cbn [snd] in Ha. subst r.
  destruct (raw_spec U p m Hm ltac:(apply Hpl)) as (js & Hjs & Hn & Hg).
  assert (Hmp : mget m "proof" = nonempty (pr_proofs p) (proofs_to_raw (pr_proofs p))) by (rewrite Hg; reflexivity).
  assert (Hnn : mget m "proof" <> Some JNull) by (rewrite Hmp; destruct (pr_proofs p) as [|? [|? ?]]; discriminate).
  assert (Hpp : parse_ld_proof (fld m "proof") = Ok (pr_proofs p)).
  { unfold fld. rewrite Hmp. destruct (pr_proofs p) as [|a [|b l]]; [reflexivity|reflexivity|]. cbn [nonempty proofs_to_raw parse_ld_proof]. apply map_res_objs. }
  destruct (add_ld_spec _ _ _ _ _ _ _ HL Ea Hnn) as (g & Hmk & -> & old & Ho & ->).
  rewrite (parse_earlier _ _ Hpp Hnn), map_res_objs in Ho. injection Ho as <-.
  destruct (raw_spec U _ m0 Hr0 ltac:(apply Hpl)) as (js' & Hjs' & Hn0 & Hg0). cbn [with_proofs pr_creds] in Hjs'. rewrite Hjs in Hjs'. injection Hjs' as <-.
  assert (Hne : (pr_proofs p ++ [ser g])%list <> []) by (destruct (pr_proofs p); discriminate).
  assert (Hoth : forall k, k <> "proof" -> mget m0 k = mget m k).
  { intros k Hk. rewrite Hg0, Hg. unfold vp_member. cbn [with_proofs pr_context pr_id pr_types pr_holder pr_proofs pr_custom].
    destruct (String.eqb_spec k "proof"); [contradiction|reflexivity]. }
  assert (Hpf : mget m0 "proof" = Some (proofs_to_raw (pr_proofs p ++ [ser g]))).
  { rewrite Hg0. unfold vp_member. cbn. destruct (pr_proofs p); reflexivity. }
  assert (Hnj : forall k, In k (map fst m0) -> k <> "jwt").
  { intros k Hk0 ->. assert (Hx : mget m0 "jwt" <> None) by (intros E0; apply mget_None in E0; contradiction). rewrite Hg0 in Hx. unfold vp_member in Hx. cbn in Hx.
    destruct (in_dec string_dec "jwt" (map fst (pr_custom p))) as [Hi|Hni]; [|apply mget_none_notin in Hni; contradiction]. apply Hcu in Hi as (_ & Hi). now apply Hi. }
  assert (Hemb : forall m1, Permutation m1 m0 -> check_pres_embedded (pe_v P) o m1 = Ok tt).
  { intros m1 Hm1. unfold check_pres_embedded. destruct (vo_no_proof o); [reflexivity|].
    assert (Ej : mdel m1 "jwt" = m1).
    { assert (Hx : forall k, In k (map fst m1) -> k <> "jwt") by (intros k Hk0; apply Hnj; apply (Permutation_in _ (Permutation_map fst Hm1)); assumption).
      clear - Hx. induction m1 as [|[k v] l IH]; [reflexivity|]. cbn [mdel]. destruct (String.eqb_spec "jwt" k) as [<-|]; [exfalso; now apply (Hx "jwt"); [now left|]|].
      f_equal. apply IH. intros k0 Hk0. apply Hx. now right. }
    rewrite Ej. assert (Hn1 : NoDup (map fst m1)) by (eapply Permutation_NoDup; [apply Permutation_map, Permutation_sym, Hm1|assumption]).
    assert (Hme : forall k, mget m1 k = mget m0 k) by (intros k; now apply mget_perm).
    rewrite (add_embedded L ser (pe_v P) suites rd now c (embedded_opts o) (cc_ld ck) None m g (pr_proofs p) m1 (proofs_to_raw (pr_proofs p ++ [ser g]))); try assumption; try reflexivity.
    - cbn. now rewrite Hck.
    - split; [assumption|]. split; [assumption|]. intros k Hk. now rewrite Hme, Hoth.
    - apply fld_some. rewrite Hme. split; [assumption|]. destruct (pr_proofs p ++ [ser g])%list as [|a [|b l]]; [contradiction|discriminate|discriminate].
    - now apply get_to_raw. }
  destruct (C154_json_round_trip P D U o (with_proofs p (pr_proofs p ++ [ser g])) cs data m0) as (q & Hq & Hs & H1 & H2); try assumption.
  - intros k Hk0. now apply Hcu.
  - intros _. exact Hne.
  - exists q, (ser g). pose proof Hs as (_ & _ & _ & _ & _ & Hx & _). cbn [with_proofs pr_proofs] in Hx. auto 10.
Qed.
Print Assumptions C201_add_proof_then_parse.
(** example: a presentation of one JWT credential, a JWS-represented proof *)
Definition lv_opts (resolve : string -> res diddoc) : vopts := let o := ex_vopts in
  {| vo_check := Some {| cc_jwt := default_jwt ex_cenv ex_resolve; cc_ld := default_ld ex_cenv resolve; cc_cwt := default_cwt ex_cenv ex_resolve (fun _ => Err "x") |};
     vo_no_proof := false; vo_strict := vo_strict o; vo_require_vc := vo_require_vc o; vo_require_proof := true;
     vo_no_jsonld := vo_no_jsonld o; vo_di := None; vo_purpose := ""; vo_domain := ""; vo_challenge := "";
     vo_holder := vo_holder o; vo_related := vo_related o |}.
Definition lv_p' : presentation := Eval vm_compute in match add_ld_pres xl_lib xp_U ord_now (xl_ctx RepJWS) (jp_vp []) with Ok p => p | _ => jp_vp [] end.
Definition lv_raw : gomap json := Eval vm_compute in match pres_raw xp_U lv_p' with Ok m => m | _ => [] end.
Definition lv_P : vpenv :=
  {| pe_v := xl_env (toyV0 [(ex_tok "good", ex_jws "sig:m")] [("P", ex_jwt_members); ("{}", []); (jp_text, rev lv_raw)]);
     pe_valid := fun _ _ => Ok tt; pe_jsonld := fun _ _ => Ok tt; pe_marshal := fun _ => jp_text |}.
Example C201_example :
  add_ld_pres xl_lib xp_U ord_now (xl_ctx RepJWS) (jp_vp []) = Ok lv_p' /\ plain_vp (jp_vp [])
  /\ ld_lib xl_lib xl_ser /\ ld_reader xl_lib xl_ser (pe_v lv_P) (fun _ => xl_suite) xl_rd
  /\ ld_fits (fun _ => xl_suite) (lx_creator (xl_ctx RepJWS)) (default_ld ex_cenv ex_resolve) "Ed25519Signature2018" (Some ED25519Type) "did:i#k"
       (hd "" (split_on "#" "did:i#k"))
  /\ pres_raw xp_U lv_p' = Ok lv_raw /\ marshal_vp lv_P cw_senv xp_U lv_p' = Ok jp_text
  /\ creds_back (pe_v lv_P) (lv_opts ex_resolve) xp_U lv_p' xp_creds /\ acceptable lv_P (lv_opts ex_resolve) xp_U lv_p' xp_creds
  /\ is_ok (parse_presentation_vp lv_P (lv_opts ex_resolve) jp_text) = true
  /\ is_ok (parse_presentation_vp lv_P (lv_opts (fun _ => Ok [])) jp_text) = false.
Proof.
  split; [vm_compute; reflexivity|].
  assert (Hpl : plain_vp (jp_vp [])).
  { split; [discriminate|]. split; [reflexivity|]. split; [discriminate|]. split; [cbn; nodup_keys|]. cbn. intuition (subst; discriminate). }
  assert (Hpl' : plain_vp lv_p') by exact Hpl.
  split; [exact Hpl|]. split; [exact xl_is_lib|]. split; [apply xl_is_reader|]. split; [exact (xl_fits RepJWS)|]. split; [vm_compute; reflexivity|]. split; [vm_compute; reflexivity|].
  split.
  { unfold creds_back. change (pr_creds lv_p') with xp_creds. unfold xp_creds at 1 2. constructor; [|constructor]. exists (JStr (ex_tok "good")). split; vm_compute; reflexivity. }
  split.
  { split; [|split; [vm_compute; reflexivity|discriminate]]. intros m1 m2 Hm1 Hm2.
    destruct (acceptable_toy (toyV0 [] []) (lv_opts ex_resolve) xp_U lv_p' xp_creds) as (A1 & _); [now left|apply Hpl'|vm_compute; reflexivity|discriminate|]. exact (A1 m1 m2 Hm1 Hm2). }
  split; vm_compute; reflexivity.
Qed.

(** ** C202  What VerifyDIDProof accepts (linked-data proofs, default checker): the document has a proof member, and every proof
    GetProofs finds verifies over the document with a key, fitting its type, that sits in the DID document of the DID its own
    key id names, outside key agreement. *)
Theorem C202_accepted_did_document : forall (C : cenv) resolve (E : venv) (o : didopts) (doc : gomap json) j ps,
  verify_did E o doc = Ok tt -> do_external o = [] ->
  fld doc "proof" = Some j -> get_proofs j = Ok ps -> (forall p rest, ps = p :: rest -> mget p "type" <> Some (JStr "DataIntegrityProof")) ->
  do_ld_check o = Some (default_ld C resolve) ->
  exists l, ve_ldproofs E doc = Ok l /\
    Forall (fun q => exists kid vm sc msg sig, lp_pkid q = Ok kid /\ issuer_key resolve (hd "" (split_on "#" kid)) kid vm /\ ld_scheme (lp_type q) sc
              /\ ve_ldmsg E q doc = Ok msg /\ lp_sig q = Ok sig /\ prim_ok C vm sc msg sig) l.
Proof.
  intros C resolve E o doc j ps H Hex Hf Hg Hnd Hchk. unfold verify_did, rmap in H. apply bind_ok in H as (m & H & _).
  unfold check_embedded in H. rewrite Hf, Hg in H. cbn [did_copts co_external co_ld_check bind] in H. rewrite Hex, Hchk in H.
  assert (Hdi : is_di ps = false).
  { destruct ps as [|p rest]; [reflexivity|]. specialize (Hnd _ _ eq_refl). unfold is_di. destruct (mget p "type") as [[]|]; try reflexivity. apply String.eqb_neq. congruence. }
  rewrite Hdi in H. apply bind_ok in H as (l & Hl & H). apply bind_ok in H as ([] & Hv & _). exists l. split; [assumption|]. clear Hl.
  induction l as [|q l IH]; [constructor|]. cbn [verify_ld] in Hv. apply bind_ok in Hv as (msg & Hmsg & Hv). apply bind_ok in Hv as (sig & Hsig & Hv).
  apply bind_ok in Hv as (i & Hi & Hv). apply bind_ok in Hv as ([] & Hc & Hv). constructor; [|now apply IH].
  destruct (lp_pkid q) as [kid| |] eqn:Ek; try discriminate. injection Hi as <-.
  unfold default_ld in Hc. rewrite Ek in Hc. apply check_ld_ok in Hc as (kid' & vm & sc & [= <-] & Hr & Hs & Hp & _).
  exists kid, vm, sc, msg, sig. repeat (split; [assumption || reflexivity|]). split; [now apply resolved_key|]. auto.
Qed.

(** and a proof added by AddDIDLinkedDataProof is accepted, next to earlier accepted ones *)
Theorem C202_add_proof_then_verify : forall (E : venv) L ser suites rd now c (o : didopts) chk (doc doc' : gomap json) ps,
  add_ld_did L now c doc = Ok doc' -> ld_lib L ser -> ld_reader L ser E suites rd ->
  NoDup (map fst doc) -> mget doc "proof" <> Some JNull -> parse_ld_proof (fld doc "proof") = Ok ps ->
  earlier_accepted E (did_copts o) None doc ps ->
  lx_rep c <> RepOther -> lx_vm c <> "" -> lx_type c <> "DataIntegrityProof" ->
  do_ld_check o = Some chk -> do_external o = [] ->
  ld_fits suites (lx_creator c) chk (lx_type c) (lx_key c) (lx_vm c) (hd "" (split_on "#" (lx_vm c))) ->
  (forall k, k <> "proof" -> mget doc' k = mget doc k) /\ (exists p, earlier doc' = (earlier doc ++ [JObj p])%list)
  /\ forall doc2, Permutation doc2 doc' -> verify_did E o doc2 = Ok tt.
Proof.
  intros E L ser suites rd now c o chk doc doc' ps H HL HR Hn Hnn Hp He Hrep Hvm Hdt Hchk Hex Hfit.
  unfold add_ld_did, sign_object in H. destruct (make_proof L (lx_creator c) now (map_context c) doc) as [p| |] eqn:Em; try discriminate.
  rewrite (la_add _ _ HL _ _ Hnn) in H. cbn in H. injection H as <-.
  assert (Hoth : forall k, k <> "proof" -> mget (mset doc "proof" (JArr (earlier doc ++ [JObj (ser p)]))) k = mget doc k).
  { intros k Hk. rewrite mget_mset. destruct (String.eqb_spec k "proof"); [contradiction|reflexivity]. }
  split; [exact Hoth|]. split; [exists (ser p); unfold earlier at 1; now rewrite mget_mset, String.eqb_refl|].
  intros doc2 Hperm. assert (Hn' : NoDup (map fst (mset doc "proof" (JArr (earlier doc ++ [JObj (ser p)]))))) by (now apply mset_nodup).
  assert (Hn2 : NoDup (map fst doc2)) by (eapply Permutation_NoDup; [apply Permutation_map, Permutation_sym, Hperm|assumption]).
  assert (Hme : forall k, mget doc2 k = mget (mset doc "proof" (JArr (earlier doc ++ [JObj (ser p)]))) k) by (intros k; now apply mget_perm).
  unfold verify_did. erewrite (add_embedded L ser E suites rd now c (did_copts o) chk None doc p ps doc2 (JArr (earlier doc ++ [JObj (ser p)]))); try eassumption; try reflexivity.
  - split; [assumption|]. split; [assumption|]. intros k Hk. now rewrite Hme, Hoth.
  - apply fld_some. rewrite Hme, mget_mset, String.eqb_refl. split; [reflexivity|discriminate].
  - cbn [get_proofs]. rewrite (parse_earlier _ _ Hp Hnn), map_res_app, map_res_objs. reflexivity.
Qed.
Definition xd_doc (id : string) : gomap json := [("@context", JArr [JStr "https://w3id.org/did/v1"]); ("id", JStr id); ("type", JStr "x")].
Definition xd_opts (resolve : string -> res diddoc) : didopts :=
  {| do_ld_check := Some (default_ld ex_cenv resolve); do_di := None; do_purpose := ""; do_domain := ""; do_challenge := ""; do_external := [] |}.
Definition xd_env : venv := xl_env (toyV0 [] []).
Definition xd_signed (id : string) : gomap json := match add_ld_did xl_lib ord_now (xl_ctx RepJWS) (xd_doc id) with Ok d => d | _ => [] end.
Example C202_example :
  add_ld_did xl_lib ord_now (xl_ctx RepJWS) (xd_doc "did:i") = Ok (xd_signed "did:i") /\ ld_reader xl_lib xl_ser xd_env (fun _ => xl_suite) xl_rd
  /\ ld_fits (fun _ => xl_suite) (lx_creator (xl_ctx RepJWS)) (default_ld ex_cenv ex_resolve) "Ed25519Signature2018" (Some ED25519Type) "did:i#k"
       (hd "" (split_on "#" "did:i#k"))
  /\ verify_did xd_env (xd_opts ex_resolve) (xd_signed "did:i") = Ok tt
  /\ (exists j ps, fld (xd_signed "did:i") "proof" = Some j /\ get_proofs j = Ok ps /\ map (fun p => mget p "type") ps = [Some (JStr "Ed25519Signature2018")])
  (* another document under the same proof is refused, and so is the document without a proof *)
  /\ is_err (verify_did xd_env (xd_opts ex_resolve) (mset (xd_signed "did:i") "id" (JStr "did:evil"))) = true
  /\ is_err (verify_did xd_env (xd_opts ex_resolve) (xd_doc "did:i")) = true.
Proof.
  split; [vm_compute; reflexivity|]. split; [apply xl_is_reader|]. split; [exact (xl_fits RepJWS)|]. split; [vm_compute; reflexivity|]. split.
  { eexists. eexists. split; [vm_compute; reflexivity|]. split; [vm_compute; reflexivity|]. vm_compute. reflexivity. }
  split; vm_compute; reflexivity.
Qed.
Print Assumptions C202_accepted_did_document.
Print Assumptions C202_add_proof_then_verify.

(** ** C203  (refuted) A DID document VerifyDIDProof accepts is signed by a key of the DID it describes: the expected issuer is
    taken from the proof itself, so a document for one DID signed by another DID is accepted. *)
Theorem C203_own_did_refuted : ~ forall (C : cenv) resolve (E : venv) (o : didopts) (doc : gomap json) id,
  verify_did E o doc = Ok tt -> do_ld_check o = Some (default_ld C resolve) -> mget doc "id" = Some (JStr id) ->
  forall l, ve_ldproofs E doc = Ok l -> Forall (fun q => exists kid, lp_pkid q = Ok kid /\ hd "" (split_on "#" kid) = id) l.
Proof.
  intros H. assert (X := H ex_cenv ex_resolve xd_env (xd_opts ex_resolve) (xd_signed "did:victim") "did:victim").
  specialize (X ltac:(vm_compute; reflexivity) eq_refl eq_refl).
  set (r := ve_ldproofs xd_env (xd_signed "did:victim")) in X.
  assert (Hr : match r with Ok [q] => lp_pkid q = Ok "did:i#k" | _ => False end) by (vm_compute; reflexivity).
  destruct r as [[|q [|q' l]]| |]; try contradiction. specialize (X _ eq_refl). apply Forall_inv in X. destruct X as (kid & Hk & Hh).
  rewrite Hr in Hk. injection Hk as <-. vm_compute in Hh. discriminate.
Qed.
Example C203_example : verify_did xd_env (xd_opts ex_resolve) (xd_signed "did:victim") = Ok tt.
Proof. vm_compute. reflexivity. Qed.
Print Assumptions C203_own_did_refuted.

(** ** C204  A data integrity proof added to a DID document is accepted by VerifyDIDProof with a fitting verifier, purpose,
    domain and challenge. *)
Theorem C204_add_di_then_verify : forall (E : venv) (S : dsigner) (V : dverifier) sg now c (o : didopts) (doc doc' : gomap json),
  add_di_did S now c doc = Ok doc' ->
  NoDup (map fst doc) -> one_spelling doc -> mget doc "proof" = None ->
  di_ready (ve_di E) S V sg (ve_now E) (sign_opts now c) -> order_free (ve_di E) ->
  do_di o = Some V -> expects (do_purpose o) (do_domain o) (do_challenge o) c -> do_external o = [] ->
  (forall k, k <> "proof" -> mget doc' k = mget doc k) /\ (exists p, mget doc' "proof" = Some (JObj p))
  /\ forall doc2, Permutation doc2 doc' -> verify_did E o doc2 = Ok tt.
Proof.
  intros E S V sg now c o doc doc' H Hn Hsp Hpf R Hof Hdi Hk Hex. apply (expects_keeps now c (did_copts o)) in Hk. unfold add_di_did in H. apply bind_ok in H as (ps & Ha & H). injection H as <-.
  split; [intros k Hkp; rewrite mget_mset; destruct (String.eqb_spec k "proof"); [contradiction|reflexivity]|].
  assert (Hn' : NoDup (map fst (mset doc "proof" (proofs_to_raw ps)))) by (now apply mset_nodup).
  assert (G : forall doc2, Permutation doc2 (mset doc "proof" (proofs_to_raw ps)) ->
    exists p, ps = [proof_members p] /\ verify_did E o doc2 = Ok tt).
  { intros doc2 Hperm. destruct (added_accepted (ve_di E) S V sg now (ve_now E) c doc ps doc2 (di_opts (did_copts o)) Ha Hn Hsp Hpf R Hof)
      as (p & -> & Hpt & Hver); [repeat split|assumption|assumption|]. exists p. split; [reflexivity|].
    assert (Hn2 : NoDup (map fst doc2)) by (eapply Permutation_NoDup; [apply Permutation_map, Permutation_sym, Hperm|assumption]).
    assert (Hfp : fld doc2 "proof" = Some (JObj (proof_members p))).
    { unfold fld. rewrite (mget_perm doc2 _ "proof" Hn2 Hperm), mget_mset, String.eqb_refl. reflexivity. }
    unfold verify_did, check_embedded. rewrite Hfp. cbn [get_proofs bind did_copts co_external]. rewrite Hex. unfold is_di. rewrite proof_members_type, Hpt. cbn match.
    change (String.eqb "DataIntegrityProof" "DataIntegrityProof") with true. cbn match. unfold check_di. change (co_di _) with (do_di o). rewrite Hdi.
    fold (did_copts o). rewrite Hver. reflexivity. }
  split; [|intros doc2 Hperm; destruct (G doc2 Hperm) as (_ & _ & X); exact X].
  destruct (G _ (Permutation_refl _)) as (p & -> & _). exists (proof_members p). now rewrite mget_mset, String.eqb_refl.
Qed.
Definition xe_env : venv := with_di (toyV0 [] []) ordE.
Definition xe_opts (dom : string) : didopts :=
  {| do_ld_check := None; do_di := Some ordV; do_purpose := ""; do_domain := dom; do_challenge := ""; do_external := [] |}.
Definition xe_signed : gomap json := Eval vm_compute in match add_di_did ordS ord_now ord_ctx (xd_doc "did:a") with Ok d => d | _ => [] end.
Example C204_example :
  add_di_did ordS ord_now ord_ctx (xd_doc "did:a") = Ok xe_signed /\ NoDup (map fst (xd_doc "did:a")) /\ one_spelling (xd_doc "did:a")
  /\ di_ready (ve_di xe_env) ordS ordV toy_sign (ve_now xe_env) (sign_opts ord_now ord_ctx) /\ order_free (ve_di xe_env)
  /\ expects (do_purpose (xe_opts "shop")) (do_domain (xe_opts "shop")) (do_challenge (xe_opts "shop")) ord_ctx
  /\ verify_did xe_env (xe_opts "shop") xe_signed = Ok tt /\ is_err (verify_did xe_env (xe_opts "other") xe_signed) = true.
Proof.
  split; [vm_compute; reflexivity|]. split; [apply nodup_str_spec; vm_compute; reflexivity|]. split.
  { intros k Hk. vm_compute in Hk. repeat (destruct Hk as [<-|Hk]; [vm_compute; intros; (reflexivity || discriminate)|]). destruct Hk. }
  split; [exact ord_ready|]. split; [exact ord_free|]. split; [repeat split|]. split; vm_compute; reflexivity.
Qed.
Print Assumptions C204_add_di_then_verify.

(** ** C205  (refuted) A linked-data proof added to a JWT or CWT credential is part of what is marshalled: the proof is kept in
    the object, but the marshalled form is the token as before (as for data integrity proofs, C160). *)
Theorem C205_not_marshalled_refuted : forall D sd L now c (v v' : credential),
  add_ld_cred L now c v = (v', Ok tt) -> cr_jwt v <> None \/ cr_cwt v <> None -> vc_sdalg (cr_contents v) = None ->
  to_universal D sd v' = to_universal D sd v.
Proof.
  intros D sd L now c v v' H Hj Hsd. unfold add_ld_cred in H. destruct (add_ld L now c (cr_json v)) as [d r]. injection H as <- _.
  unfold to_universal. cbn [cr_cwt cr_jwt cr_contents]. destruct (cr_cwt v); [reflexivity|]. destruct Hj as [Hj|Hj]; [|contradiction].
  destruct (cr_jwt v) as [je|] eqn:Ej; [|contradiction]. unfold to_jwt_string. cbn [cr_jwt cr_contents]. rewrite Ej, Hsd. cbn [bind]. unfold to_enveloped. reflexivity.
Qed.
Example C205_example :
  snd (add_ld_cred xl_lib ord_now (xl_ctx RepValue) env_cred) = Ok tt /\ cr_jwt env_cred <> None /\ vc_sdalg (cr_contents env_cred) = None
  /\ cr_proofs (add1 RepValue env_cred) <> [].
Proof. split; [vm_compute; reflexivity|]. split; [discriminate|]. split; [reflexivity|]. vm_compute. discriminate. Qed.
Print Assumptions C205_not_marshalled_refuted.
