(** Property theorems for adding data integrity proofs to credentials and presentations (C157-C161). *)
From Coq Require Import Permutation.
From Verif Require Import GoBase Base64 StatusModel PexModel StrLemmas JwtSpec DiSpec VcSpec JwtModel SdSpec SdModel SdParse DiModel
  VcModel VcJwt VcParse VcProofs VcView VcText VcMod VcSecure VcJwtProofs VcPanic VcSign VcSignProofs DiProofs DiProps JwtProofs JwtProps VcProps VcProps2 VcProps3 VcProps4 VcProps5
  VpModel VpProofs VpPanic VpSignProofs VpProps VpProps2 VpProps3 VcAdd.

(** Canonicalisation does not depend on the order of the members of an object. *)
Definition order_free (E : dienv) : Prop :=
  forall h m m', NoDup (map fst m) -> Permutation m m' -> d_canon E h m = d_canon E h m'.
Lemma suite_verify_perm E suites n s (a b : gomap json) p o : std_suites E suites -> mget suites n = Some s -> order_free E ->
  NoDup (map fst a) -> Permutation a b -> vs_verify s (JObj a) p o = vs_verify s (JObj b) p o.
Proof.
  intros Hstd Hs Ho Hn Hp. assert (Hc : context_of a = context_of b) by (unfold context_of; now rewrite (mget_perm a b)).
  destruct (Hstd _ _ Hs) as [[-> _]|[-> _]]; cbn [vs_verify ecdsa_verifier eddsa_verifier]; unfold suite_verify.
  - assert (Ht : ecdsa_transform E (JObj a) o = ecdsa_transform E (JObj b) o); [|unfold sbind; rewrite Ht; reflexivity].
    unfold ecdsa_transform, doc_map, sbind, sput, sget, sret, sguard. cbn beta iota zeta.
    destruct (o_vm _); [|reflexivity]. destruct (ecdsa_key E _) as [[[al h] k]| |]; [|reflexivity|reflexivity].
    destruct (guard _ _); [|reflexivity|reflexivity]. rewrite (Ho h a b Hn Hp), Hc. reflexivity.
  - assert (Ht : eddsa_transform E (JObj a) o = eddsa_transform E (JObj b) o); [|unfold sbind; rewrite Ht; reflexivity].
    unfold eddsa_transform, doc_map, sbind, sput, sget, sret, sguard. cbn beta iota zeta.
    destruct (o_vm _); [|reflexivity]. destruct (eddsa_key _); [|reflexivity|reflexivity].
    destruct (guard _ _); [|reflexivity|reflexivity]. rewrite (Ho _ a b Hn Hp), Hc. reflexivity.
Qed.
Lemma sbind_ext {A B} (m : st A) (f g : A -> st B) o : (forall a o', f a o' = g a o') -> sbind m f o = sbind m g o.
Proof. intros H. unfold sbind. destruct (m o) as [o' [a| |]]; auto. Qed.
Lemma verify_one_perm E V now (a b : gomap json) pj o : std_suites E (dv_suites V) -> order_free E -> NoDup (map fst a) -> Permutation a b ->
  verify_one E V now (JObj a) pj o = verify_one E V now (JObj b) pj o.
Proof.
  intros Hstd Ho Hn Hp. unfold verify_one. apply sbind_ext; intros p o1. apply sbind_ext; intros _ o2. apply sbind_ext; intros _ o3.
  destruct (mget (dv_suites V) (p_suite p)) as [s|] eqn:Es; [|reflexivity]. unfold sbind at 1 14. cbn [sret].
  change (fun o : popts => (o, @Ok vsuite s)) with (@sret vsuite (Ok s)).
  repeat (apply sbind_ext; intros ? ?). rewrite (suite_verify_perm E _ _ s a b p _ Hstd Es Ho Hn Hp). reflexivity.
Qed.

Lemma verify_all_perm E V now (a b : gomap json) ps : std_suites E (dv_suites V) -> order_free E -> NoDup (map fst a) -> Permutation a b ->
  forall o, verify_all E V now (JObj a) ps o = verify_all E V now (JObj b) ps o.
Proof.
  intros Hstd Ho Hn Hp. induction ps as [|p ps IH]; intros o; [reflexivity|]. cbn [verify_all]. unfold sbind.
  rewrite (verify_one_perm E V now a b p o Hstd Ho Hn Hp). destruct (verify_one E V now (JObj b) p o) as [o' [u| |]]; auto.
Qed.
Lemma mdel_perm {V} (a b : gomap V) k : Permutation a b -> Permutation (mdel a k) (mdel b k).
Proof.
  induction 1 as [|[x v] a b H IH|[x v] [y w] a|a b c H1 IH1 H2 IH2].
  - constructor.
  - cbn. destruct (String.eqb k x); cbn; [assumption|now constructor].
  - cbn. destruct (String.eqb k x), (String.eqb k y); cbn; try reflexivity. apply perm_swap.
  - eapply Permutation_trans; eassumption.
Qed.
Lemma verify_proof_perm E V now (a b : gomap json) o : std_suites E (dv_suites V) -> order_free E -> NoDup (map fst a) -> Permutation a b ->
  verify_proof E V now (JObj a) o = verify_proof E V now (JObj b) o.
Proof.
  intros Hstd Ho Hn Hp. unfold verify_proof, doc_proof, del_proof. rewrite (mget_perm a b) by assumption.
  destruct (mget b "proof"); [|reflexivity]. apply verify_all_perm; auto using mdel_perm. now apply mdel_nodup.
Qed.
Definition proof_members (p : dproof) : gomap json := match marshal_proof p with JObj m => m | _ => [] end.
Lemma marshal_members p : marshal_proof p = JObj (proof_members p). Proof. reflexivity. Qed.
Lemma proof_members_nodup p : NoDup (map fst (proof_members p)).
Proof.
  apply nodup_str_spec. unfold proof_members, marshal_proof, opt_field.
  destruct p as [f1 f2 f3 f4 f5 f6 f7 f8 f9 f10 f11]; cbn [p_id p_type p_suite p_purpose p_vm p_created p_expires p_domain p_challenge p_value p_prev].
  destruct (String.eqb f1 ""), (String.eqb f3 ""), (String.eqb f6 ""), (String.eqb f7 ""), (String.eqb f8 ""), (String.eqb f9 ""), (String.eqb f11 "");
    vm_compute; reflexivity.
Qed.
Lemma proof_members_type p : mget (proof_members p) "type" = Some (JStr (p_type p)).
Proof.
  unfold proof_members, marshal_proof, opt_field. destruct (String.eqb (p_id p) ""); reflexivity.
Qed.
(** no member is called "proof" in another spelling *)
Definition one_spelling (m : gomap json) : Prop := forall k, In k (map fst m) -> equal_fold "proof" k = true -> k = "proof".
Lemma add_di_spec S now c m ps : add_di S now c (JObj m) = Ok ps -> NoDup (map fst m) -> one_spelling m ->
  exists o' p s o1, add_proof S (JObj m) (sign_opts now c) = (o', Ok (JObj (mset m "proof" (marshal_proof p)))) /\ ps = [proof_members p]
    /\ mget (dg_suites S) (dx_suite c) = Some s /\ ss_create s (JObj m) o1 = (o', Ok p).
Proof.
  intros H Hn Hsp. unfold add_di in H. destruct (add_proof S (JObj m) (sign_opts now c)) as [o' r] eqn:Ea. cbn [snd] in H.
  apply bind_ok in H as (out & -> & H). pose proof Ea as Ea'.
  apply add_proof_ok in Ea as (s & o1 & p & Hs & _ & Hc & _ & _ & _ & _ & _ & _ & Hout). cbn [set_proof] in Hout. subst out.
  exists o', p, s, o1. split; [reflexivity|]. split; [|split; assumption]. rewrite occ_nodup in H.
  - rewrite mget_mset, String.eqb_refl in H. unfold fold_res in H. cbn [fold_left bind] in H. rewrite marshal_members in H. cbn [raw_proof_step bind of_nil] in H.
    injection H as <-. f_equal. apply (to_map_nodup (proof_members p)), proof_members_nodup.
  - now apply mset_nodup.
  - intros k Hk. apply mset_keys in Hk as [->|Hk]; [reflexivity|now apply Hsp].
Qed.
(** Signer and verifier configured for each other: matching suites for the suite asked for, the same resolver, the method's
    key, faithful encodings of bytes and times, and a verification time ([later]) not after the expiry. *)
Record di_ready (E : dienv) (S : dsigner) (V : dverifier) (sg : option jwk -> string -> res string) (later : gtime) (o : popts) : Prop := {
  dr_suites : exists ss vs, paired E sg (o_suite o) ss vs /\ mget (dg_suites S) (o_suite o) = Some ss /\ mget (dv_suites V) (o_suite o) = Some vs;
  dr_std : std_suites E (dv_suites V);
  dr_resolver : dg_resolver S = dv_resolver V;
  dr_key : forall vm, vm_resolved (dv_resolver V) (o_purpose o) (o_vmid o) vm -> dm_id vm = o_vmid o /\
     forall a h k msg sig, suite_key E (o_suite o) vm a h k -> sg (key_jwk k) msg = Ok sig -> d_verify E a k msg sig = true;
  dr_multibase : forall s, d_mbdec E (d_mbenc E s) = Some s;
  dr_times : forall t, t = o_created o \/ t = o_expires o ->
     d_fmt E t <> "" /\ exists t', d_parse E (d_fmt E t) = Some t' /\ is_zero t' = is_zero t /\ d_fmt E t' = d_fmt E t;
  dr_expiry : is_zero (o_expires o) = false -> forall t', d_parse E (d_fmt E (o_expires o)) = Some t' -> gt_ns later <= gt_ns t' }.
Lemma paired_type E sg n ss vs doc o1 o' p : paired E sg n ss vs -> ss_create ss doc o1 = (o', Ok p) -> p_type p = "DataIntegrityProof".
Proof. intros [n0 _|] H; apply transform_create in H as (? & ? & ? & ? & ? & _ & _ & _ & ->); reflexivity. Qed.
(** what was added is accepted, whatever the order of the members *)
Lemma added_accepted E S V sg now later c m ps m' o : add_di S now c (JObj m) = Ok ps -> NoDup (map fst m) -> one_spelling m -> mget m "proof" = None ->
  di_ready E S V sg later (sign_opts now c) -> order_free E ->
  fresh o -> keeps (sign_opts now c) o -> Permutation m' (mset m "proof" (proofs_to_raw ps)) ->
  exists p, ps = [proof_members p] /\ p_type p = "DataIntegrityProof" /\ snd (verify_proof E V later (JObj m') o) = Ok tt.
Proof.
  intros H Hn Hsp Hp R Ho Hf Hk Hperm. destruct (add_di_spec _ _ _ _ _ H Hn Hsp) as (o' & p & s & o1 & Ha & -> & Hs & Hc).
  exists p. split; [reflexivity|]. destruct (dr_suites _ _ _ _ _ _ R) as (ss & vs & Hpair & Hss & Hvs). cbn [sign_opts o_suite] in *.
  assert (s = ss) by congruence. subst s. split; [eapply paired_type; eassumption|].
  cbn [proofs_to_raw] in Hperm. rewrite <- marshal_members in Hperm.
  assert (Hn' : NoDup (map fst (mset m "proof" (marshal_proof p)))) by (now apply mset_nodup).
  rewrite <- (verify_proof_perm E V later (mset m "proof" (marshal_proof p)) m' o); [|apply R|assumption|assumption|now apply Permutation_sym].
  eapply (sign_then_verify E sg S V later m (sign_opts now c)); try eassumption; try apply R; reflexivity.
Qed.

Lemma mset_again {V} (m : gomap V) k (x : V) : mset (mset m k x) k x = mset m k x.
Proof.
  induction m as [|[y w] m IH]; cbn [mset]; [now rewrite String.eqb_refl|].
  destruct (String.eqb_spec k y); cbn [mset]; [now rewrite String.eqb_refl|]. apply String.eqb_neq in n. now rewrite n, IH.
Qed.
(** a verifier's purpose, domain and challenge fit a proof context (no purpose means assertionMethod) *)
Definition or_assertion (p : string) : string := if String.eqb p "" then "assertionMethod" else p.
Definition expects (purpose domain challenge : string) (c : dictx) : Prop :=
  or_assertion purpose = or_assertion (dx_purpose c) /\ domain = dx_domain c /\ challenge = dx_challenge c.
Lemma expects_keeps now c o : expects (co_di_purpose o) (co_di_domain o) (co_di_challenge o) c -> keeps (sign_opts now c) (di_opts o).
Proof. intros (H1 & H2 & H3). unfold keeps, sign_opts, di_opts. cbn. repeat split; assumption. Qed.

(** ** C157  A data integrity proof added to a credential is accepted: the JSON text of the result is parsed back - proof
    checking on - to the same credential with that one proof. *)
Theorem C157_add_proof_then_parse : forall (E : venv) (D : senv) sd (S : dsigner) (V : dverifier) sg now c (o : copts) (v v' : credential) (data : string),
  add_di_cred D sd S now c v = Ok v' ->
  (* a credential that is neither a JWT nor a CWT and has no proof yet, coherent (as CreateCredential or a parser makes it) *)
  cr_jwt v = None -> cr_cwt v = None -> cr_proofs v = [] -> mget (cr_json v) "proof" = None -> one_spelling (cr_json v) ->
  NoDup (map fst (cr_json v)) ->
  coherent (ve_time E) v -> ~ In "EnvelopedVerifiableCredential" (vc_types (cr_contents v)) -> vc_issuer (cr_contents v) <> None ->
  (* signer and verifier fit *)
  di_ready (ve_di E) S V sg (ve_now E) (sign_opts now c) -> order_free (ve_di E) ->
  co_di o = Some V -> expects (co_di_purpose o) (co_di_domain o) (co_di_challenge o) c -> co_external o = [] ->
  (* validation and related resources, if not switched off, pass *)
  (co_no_validation o = true \/ forall m c', (forall k, mget m k = mget (to_raw_json v') k) -> same_contents (ve_time E) (cr_contents v) c' ->
     validate_credential E c' m o = Ok tt) ->
  (co_no_related o = true \/ ve_related E (vc_related (cr_contents v)) = Ok tt) ->
  json_text E data (to_raw_json v') ->
  exists w p, parse_credential E o data = Ok w /\ same_contents (ve_time E) (cr_contents v) (cr_contents w)
    /\ cr_proofs w = [p] /\ cr_proofs v' = [p] /\ cr_jwt w = None /\ cr_cwt w = None
    /\ (forall k, mget (to_raw_json w) k = mget (to_raw_json v') k)
    /\ (forall k, k <> "proof" -> mget (to_raw_json w) k = mget (to_raw_json v) k).
Proof.
  intros E D sd S V sg now c o v v' data H Hj Hw Hps Hpf Hsp Hn (c0 & Hc0 & Hs) Hty Hiss R Hof Hdi Hk Hex Hval Hrel Hd. apply (expects_keeps now) in Hk.
  unfold add_di_cred, to_universal in H. rewrite Hw, Hj in H. cbn [bind] in H. unfold to_raw_json in H at 1. rewrite Hps in H.
  apply bind_ok in H as (ps & Ha & H).
  assert (Hv' : v' = reset_proofs v ps /\ ps <> []).
  { unfold add_di in Ha. apply bind_ok in Ha as (? & _ & Ha). apply bind_ok in Ha as (? & _ & Ha). injection Ha as <-. injection H as <-. split; [reflexivity|discriminate]. }
  destruct Hv' as [-> Hne]. clear H. set (m2 := mset (cr_json v) "proof" (proofs_to_raw ps)).
  assert (Hraw : to_raw_json (reset_proofs v ps) = m2).
  { unfold to_raw_json, reset_proofs. cbn [cr_proofs cr_json]. destruct ps; [contradiction|]. apply mset_again. }
  rewrite Hraw in *. assert (Hn2 : NoDup (map fst m2)) by (now apply mset_nodup).
  destruct (json_parser_text E o data m2 Hd) as (ms & Hperm & Hjp).
  assert (Hme : forall k, mget ms k = mget m2 k) by (intros k; symmetry; apply mget_perm; [assumption|now apply Permutation_sym]).
  assert (Hme2 : forall k, k <> "proof" -> mget m2 k = mget (cr_json v) k).
  { intros k Hkp. unfold m2. rewrite mget_mset. destruct (String.eqb_spec k "proof"); [contradiction|reflexivity]. }
  destruct (added_accepted (ve_di E) S V sg now (ve_now E) c (cr_json v) ps ms (di_opts o) Ha Hn Hsp Hpf R Hof) as (p & -> & Hpt & Hver);
    [repeat split|assumption|assumption|].
  assert (Hpc : parse_contents (ve_time E) ms false = Ok c0).
  { rewrite <- Hc0. apply parse_contents_agree. intros k Hkd. apply fld_mget. rewrite Hme. apply Hme2. intros ->. cbn in Hkd.
    repeat (destruct Hkd as [Hkd|Hkd]; [discriminate|]). destruct Hkd. }
  assert (Hpr : fld ms "proof" = Some (JObj (proof_members p))).
  { unfold fld. rewrite Hme. unfold m2. rewrite mget_mset, String.eqb_refl. reflexivity. }
  rewrite Hpc, Hpr in Hjp. cbn [bind parse_ld_proof] in Hjp.
  assert (Hvc : (if co_no_validation o then Ok tt else validate_credential E c0 ms o) = Ok tt).
  { destruct (co_no_validation o) eqn:En; [reflexivity|]. destruct Hval as [Hval|Hval]; [discriminate|]. apply Hval; assumption. }
  rewrite Hvc in Hjp. cbn [bind] in Hjp.
  set (w := {| cr_json := ms; cr_contents := c0; cr_proofs := [proof_members p]; cr_jwt := None; cr_cwt := None |}) in *.
  assert (Hjp' : json_parser E o data = Ok (Some w)) by exact Hjp.
  assert (Hck : (if co_no_proof o then Ok w else check_cred_proof E o w) = Ok w).
  { destruct (co_no_proof o); [reflexivity|]. unfold check_cred_proof. cbn [w cr_contents cr_jwt cr_cwt cr_json].
    assert (Hi : vc_issuer c0 = vc_issuer (cr_contents v)) by (symmetry; apply Hs). rewrite Hi. destruct (vc_issuer (cr_contents v)) as [i|]; [|contradiction].
    unfold check_embedded. rewrite Hpr. cbn [get_proofs bind]. rewrite Hex. unfold is_di. rewrite proof_members_type, Hpt. cbn.
    unfold check_di. rewrite Hdi, Hver. reflexivity. }
  assert (Ety : vc_types c0 = vc_types (cr_contents v)) by (symmetry; apply Hs).
  assert (Htm : decode_type (fld m2 "type") = Ok (vc_types c0)).
  { pose proof (parse_contents_parts _ _ _ _ Hc0) as (_ & Ht & _). rewrite <- Ht. f_equal. apply fld_mget, Hme2. discriminate. }
  exists w, (proof_members p). split.
  - unfold parse_credential. cbn [try_parsers]. unfold parse_with at 1.
    rewrite (enveloped_other E o data m2 (vc_types c0) Hd Htm) by (rewrite Ety; exact Hty).
    cbn [bind]. unfold parse_with at 1. rewrite Hjp'. cbn [bind]. rewrite Hck. cbn [bind w cr_contents].
    assert (Hr : (if co_no_related o then Ok tt else ve_related E (vc_related c0)) = Ok tt).
    { destruct Hrel as [->|Hrel]; [reflexivity|]. destruct (co_no_related o); [reflexivity|]. rewrite <- Hrel. f_equal. symmetry. apply Hs. }
    rewrite Hr. reflexivity.
  - cbn [w cr_contents cr_proofs cr_jwt cr_cwt reset_proofs]. repeat (split; [solve [assumption | reflexivity]|]).
    assert (G : forall k, mget (to_raw_json w) k = mget m2 k).
    { intros k. unfold to_raw_json. cbn [w cr_proofs cr_json proofs_to_raw]. rewrite mget_mset. destruct (String.eqb_spec k "proof") as [->|]; [|apply Hme].
      unfold m2. now rewrite mget_mset, String.eqb_refl. }
    split; [exact G|]. intros k Hkp. rewrite G, Hme2 by assumption. unfold to_raw_json. now rewrite Hps.
Qed.
Print Assumptions C157_add_proof_then_parse.
(** an environment whose canonicalisation reads the members of a vocabulary, in a fixed order *)
Definition ord_keys : list string :=
  ["@context"; "id"; "type"; "issuer"; "credentialSubject"; "issuanceDate"; "cryptosuite"; "verificationMethod"; "proofPurpose"; "created";
   "expires"; "challenge"; "domain"; "holder"; "verifiableCredential"].
Definition ord_canon (m : gomap json) : string :=
  fold_right (fun k s => match mget m k with Some j => k ++ ":" ++ ser j ++ ";" ++ s | None => s end) "" ord_keys.
Definition ordE : dienv := {| d_parse := d_parse toyE; d_fmt := d_fmt toyE; d_canon := fun _ m => Ok (ord_canon m); d_hash := d_hash toyE;
  d_mbdec := d_mbdec toyE; d_mbenc := d_mbenc toyE; d_point := d_point toyE; d_verify := d_verify toyE |}.
Lemma ord_free : order_free ordE.
Proof. intros h m m' Hn Hp. cbn [d_canon ordE]. f_equal. unfold ord_canon. induction ord_keys as [|k ks IH]; [reflexivity|]. cbn [fold_right]. now rewrite IH, (mget_perm m m'). Qed.
Definition ordV : dverifier := {| dv_suites := [("ecdsa-2019", ecdsa_verifier ordE)]; dv_resolver := Some toy_resolve |}.
Definition ordS : dsigner := {| dg_suites := [("ecdsa-2019", ecdsa_signer ordE toy_sign)]; dg_resolver := Some toy_resolve |}.
Definition ord_ctx : dictx := {| dx_key := "did:a#k"; dx_purpose := ""; dx_suite := "ecdsa-2019"; dx_created := None;
  dx_expires := Some {| gt_ns := 99; gt_off := 0 |}; dx_domain := "shop"; dx_challenge := "" |}.
Definition ord_now : gtime := {| gt_ns := 7; gt_off := 0 |}.
Lemma ord_ready : di_ready ordE ordS ordV toy_sign toy_now (sign_opts ord_now ord_ctx).
Proof.
  constructor.
  - exists (ecdsa_signer ordE toy_sign), (ecdsa_verifier ordE). repeat split. apply pr_ecdsa. cbn. auto.
  - intros n s. cbn. destruct (String.eqb_spec n "ecdsa-2019") as [->|]; [|discriminate]. intros [= <-]. left. cbn. auto.
  - reflexivity.
  - intros vm Hvm. apply vm_resolved_iff in Hvm. vm_compute in Hvm. injection Hvm as <-. split; [reflexivity|].
    intros a h k msg sig Hk Hs. inversion Hk; subst; try discriminate.
    + cbn in Hs. match goal with H : dm_jwk _ = Some _ |- _ => injection H as <- end. injection Hs as <-. cbn. apply String.eqb_refl.
    + match goal with H : dm_jwk _ = Some _ |- _ => injection H as <- end. discriminate.
    + cbn in *. destruct H; discriminate.
  - reflexivity.
  - intros t [-> | ->]; (split; [discriminate|]); eexists; vm_compute; eauto.
  - intros _ t'. vm_compute. intros [= <-]. discriminate.
Qed.
Definition with_di (E : venv) (d : dienv) : venv := {|
  ve_time := ve_time E; ve_jwt := ve_jwt E; ve_members := ve_members E; ve_obj := ve_obj E; ve_sd := ve_sd E;
  ve_order := ve_order E; ve_cose := ve_cose E; ve_hex := ve_hex E; ve_cbor := ve_cbor E; ve_schema := ve_schema E; ve_valid := ve_valid E;
  ve_jsonld := ve_jsonld E; ve_ext := ve_ext E; ve_ldproofs := ve_ldproofs E; ve_ldmsg := ve_ldmsg E; ve_di := d; ve_now := ve_now E;
  ve_related := ve_related E |}.
Definition ord_opts (dom : string) : copts :=
  let o := with_checkers toyO None None None (Some ordV) in
  {| co_jwt_check := co_jwt_check o; co_ld_check := co_ld_check o; co_cwt_check := co_cwt_check o; co_no_proof := co_no_proof o;
     co_no_validation := co_no_validation o; co_no_related := co_no_related o; co_no_custom := co_no_custom o; co_schema := co_schema o;
     co_schema_of := co_schema_of o; co_mode := co_mode o; co_contexts := co_contexts o; co_types := co_types o; co_strict := co_strict o;
     co_ld_types := co_ld_types o; co_external := co_external o; co_di := co_di o; co_di_purpose := co_di_purpose o;
     co_di_domain := dom; co_di_challenge := "" |}.
Definition add_v' : credential := Eval vm_compute in
  match add_di_cred cw_senv (fun _ => Err "x") ordS ord_now ord_ctx sg_cred with Ok v => v | _ => sg_cred end.
Lemma add_v'_eq : add_di_cred cw_senv (fun _ => Err "x") ordS ord_now ord_ctx sg_cred = Ok add_v'.
Proof. vm_cast_no_check (eq_refl (@Ok credential add_v')). Qed.
Definition add_text : string := String brace "added".
Definition add_env : venv := with_di (toyV0 [] [(add_text, rev (to_raw_json add_v'))]) ordE.
Lemma add_json_text : json_text add_env add_text (to_raw_json add_v').
Proof.
  exists "added", (rev (to_raw_json add_v')). split; [reflexivity|]. split; [vm_compute; reflexivity|]. split; [apply Permutation_sym, Permutation_rev|].
  split; [apply nodup_str_spec; vm_compute; reflexivity|]. intros k Hk. vm_compute in Hk. repeat (destruct Hk as [<-|Hk]; [vm_compute; reflexivity|]). destruct Hk.
Qed.
Lemma sg_coherent : coherent toyT sg_cred.
Proof. eexists. split; [vm_compute; reflexivity|]. unfold same_contents. repeat split; vm_compute; auto. Qed.
Example C157_example :
  add_di_cred cw_senv (fun _ => Err "x") ordS ord_now ord_ctx sg_cred = Ok add_v'
  /\ coherent toyT sg_cred /\ one_spelling (cr_json sg_cred) /\ NoDup (map fst (cr_json sg_cred))
  /\ di_ready (ve_di add_env) ordS ordV toy_sign (ve_now add_env) (sign_opts ord_now ord_ctx) /\ order_free (ve_di add_env)
  /\ expects (co_di_purpose (ord_opts "shop")) (co_di_domain (ord_opts "shop")) (co_di_challenge (ord_opts "shop")) ord_ctx /\ json_text add_env add_text (to_raw_json add_v')
  /\ co_no_proof (ord_opts "shop") = false /\ is_ok (parse_credential add_env (ord_opts "shop") add_text) = true
  (* the check is on: another domain is refused *)
  /\ is_ok (parse_credential add_env (ord_opts "other") add_text) = false.
Proof.
  split; [exact add_v'_eq|]. split; [exact sg_coherent|]. split.
  { intros k Hk. vm_compute in Hk. repeat (destruct Hk as [<-|Hk]; [vm_compute; intros; (reflexivity || discriminate)|]). destruct Hk. }
  split; [apply nodup_str_spec; vm_compute; reflexivity|]. split; [exact ord_ready|]. split; [exact ord_free|]. split; [repeat split|].
  split; [exact add_json_text|]. split; [reflexivity|]. split; vm_compute; reflexivity.
Qed.

(** ** C158  (refuted) AddDataIntegrityProof adds a proof: it replaces the proofs that were there, and - because they were
    hashed - the new one is not accepted either. *)
Theorem C158_proofs_dropped_refuted : forall D sd S now c (v v' : credential),
  add_di_cred D sd S now c v = Ok v' -> cr_proofs v <> [] ->
  (exists p, cr_proofs v' = [p]) /\ forall p, cr_proofs v' <> (cr_proofs v ++ [p])%list.
Proof.
  intros D sd S now c v v' H Hne. unfold add_di_cred in H. apply bind_ok in H as (doc & _ & H). apply bind_ok in H as (ps & Ha & H).
  unfold add_di in Ha. apply bind_ok in Ha as (out & _ & Ha). apply bind_ok in Ha as (q & _ & Ha). injection Ha as <-. injection H as <-.
  cbn [reset_proofs cr_proofs]. split; [eauto|]. intros p Hp. apply (f_equal (@List.length _)) in Hp. rewrite app_length in Hp. cbn in Hp.
  destruct (cr_proofs v); [contradiction|]. cbn in Hp. lia.
Qed.
Print Assumptions C158_proofs_dropped_refuted.
(** with a canonicalisation that reads every member *)
Definition full_opts : copts :=
  let o := ord_opts "shop" in
  {| co_jwt_check := co_jwt_check o; co_ld_check := co_ld_check o; co_cwt_check := co_cwt_check o; co_no_proof := co_no_proof o;
     co_no_validation := co_no_validation o; co_no_related := co_no_related o; co_no_custom := co_no_custom o; co_schema := co_schema o;
     co_schema_of := co_schema_of o; co_mode := co_mode o; co_contexts := co_contexts o; co_types := co_types o; co_strict := co_strict o;
     co_ld_types := co_ld_types o; co_external := co_external o; co_di := Some toyV; co_di_purpose := co_di_purpose o;
     co_di_domain := co_di_domain o; co_di_challenge := "" |}.
Definition add_full (v : credential) : credential := match add_di_cred cw_senv (fun _ => Err "x") toyS ord_now ord_ctx v with Ok v => v | _ => sg_cred end.
Definition full_once : credential := Eval vm_compute in add_full sg_cred.
Definition full_twice : credential := Eval vm_compute in add_full full_once.
Definition full_env : venv := toyV0 [] [("{1", to_raw_json full_once); ("{2", to_raw_json full_twice)].
Theorem C158_second_proof_refused_refuted :
  add_di_cred cw_senv (fun _ => Err "x") toyS ord_now ord_ctx sg_cred = Ok full_once
  /\ is_ok (parse_credential full_env full_opts "{1") = true
  /\ add_di_cred cw_senv (fun _ => Err "x") toyS ord_now ord_ctx full_once = Ok full_twice
  /\ is_ok (parse_credential full_env full_opts "{2") = false.
Proof. split; [vm_compute; reflexivity|]. split; [vm_compute; reflexivity|]. split; vm_compute; reflexivity. Qed.
Print Assumptions C158_second_proof_refused_refuted.
Example C158_example : cr_proofs full_once <> [] /\ List.length (cr_proofs full_twice) = 1%nat /\ cr_proofs full_twice <> cr_proofs full_once.
Proof. split; [discriminate|]. split; [reflexivity|]. intros H. vm_compute in H. discriminate H. Qed.

Lemma perm_of_mget (a b : gomap json) : NoDup (map fst a) -> NoDup (map fst b) -> (forall k, mget a k = mget b k) -> Permutation a b.
Proof.
  intros Ha Hb H. apply NoDup_Permutation; [now apply NoDup_map_inv in Ha|now apply NoDup_map_inv in Hb|]. intros [k v].
  split; intros Hi; apply mget_In; [rewrite <- H|rewrite H]; now apply mget_In_nodup.
Qed.
(** ** C159  The same for presentations. *)
Theorem C159_add_proof_then_parse : forall (P : vpenv) (D : senv) (U : credential -> res json) (S : dsigner) (V : dverifier) sg now c (o : vopts)
    (p p' : presentation) cs (data : string) m0,
  add_di_pres D U S now c p = Ok p' ->
  pr_jwt p = "" -> cwt_of p = None -> pr_cwt p = None -> pr_proofs p = [] -> plain_vp p ->
  (forall k, In k (map fst (pr_custom p)) -> equal_fold "type" k = false /\ equal_fold "proof" k = false /\ k <> "jwt") ->
  ~ In "EnvelopedVerifiablePresentation" (pr_types p) ->
  (* signer and verifier fit *)
  di_ready (ve_di (pe_v P)) S V sg (ve_now (pe_v P)) (sign_opts now c) -> order_free (ve_di (pe_v P)) ->
  vo_di o = Some V -> expects (vo_purpose o) (vo_domain o) (vo_challenge o) c ->
  (* the text of the result *)
  pres_raw U p' = Ok m0 -> marshal_vp P D U p' = Ok data ->
  (exists rest ms, data = String brace rest /\ ve_members (pe_v P) data = Some ms /\ Permutation ms m0) ->
  creds_back (pe_v P) o U p' cs -> acceptable P o U p' cs ->
  exists q x, parse_presentation_vp P o data = Ok q /\ same_vp p' q cs /\ pr_proofs q = [x] /\ pr_jwt q = "" /\ pr_cwt q = None
    /\ (forall ps, with_proofs p' ps = with_proofs p ps).
Proof.
  intros P D U S V sg now c o p p' cs data m0 H Hj Hw Hw' Hps Hpl Hcu Hty R Hof Hdi Hk Hr0 Hmar Hd Hcr Hac. apply (expects_keeps now c (embedded_opts o)) in Hk.
  unfold add_di_pres, vp_form in H. unfold is_jwt_vp in H. rewrite Hj, Hw in H. cbn [String.eqb negb andb] in H. rewrite andb_false_r in H.
  assert (Ex : (if is_base_context (pr_context p) v2_context then @None vpcwt else None) = None) by (now destruct (is_base_context _ _)).
  rewrite Ex in H. clear Ex. apply bind_ok in H as (doc & Hdoc & H). apply bind_ok in H as (ps & Ha & H). injection H as <-.
  unfold rmap in Hdoc. apply bind_ok in Hdoc as (m & Hm & Hdoc). injection Hdoc as <-.
  destruct (raw_spec U p m Hm ltac:(apply Hpl)) as (js & Hjs & Hn & Hg).
  destruct (raw_spec U (with_proofs p ps) m0 Hr0 ltac:(apply Hpl)) as (js' & Hjs' & Hn0 & Hg0). cbn [with_proofs pr_creds] in Hjs'. rewrite Hjs in Hjs'. injection Hjs' as <-.
  assert (Hkeys : forall k, In k (map fst m) -> In k ["@context"; "id"; "type"; "holder"; "proof"; "verifiableCredential"] \/ In k (map fst (pr_custom p))).
  { intros k Hk0. assert (Hx : mget m k <> None) by (intros E0; apply mget_None in E0; contradiction). rewrite Hg in Hx. unfold vp_member in Hx.
    repeat match type of Hx with context [String.eqb k ?x] => destruct (String.eqb_spec k x) as [->|]; [left; cbn; tauto|] end.
    right. destruct (in_dec string_dec k (map fst (pr_custom p))) as [|Hni]; [assumption|]. exfalso. apply Hx. now apply mget_none_notin. }
  assert (Hsp : one_spelling m).
  { intros k Hk0 He. apply Hkeys in Hk0 as [Hk0|Hk0].
    - cbn in Hk0. repeat (destruct Hk0 as [<-|Hk0]; [vm_compute in He |- *; (reflexivity || discriminate)|]). destruct Hk0.
    - apply Hcu in Hk0 as (_ & Hk0 & _). congruence. }
  assert (Hpf : mget m "proof" = None) by (rewrite Hg; unfold vp_member; cbn; now rewrite Hps).
  assert (Hpsne : exists x, ps = [x]).
  { unfold add_di in Ha. apply bind_ok in Ha as (? & _ & Ha). apply bind_ok in Ha as (? & _ & Ha). injection Ha as <-. eauto. }
  destruct Hpsne as (x & ->).
  assert (Hmg : forall k, mget m0 k = mget (mset m "proof" (proofs_to_raw [x])) k).
  { intros k. rewrite Hg0, mget_mset, Hg. unfold vp_member. cbn [with_proofs pr_context pr_id pr_types pr_holder pr_proofs pr_custom]. rewrite Hps. cbn [nonempty].
    repeat match goal with |- context [String.eqb k ?y] => destruct (String.eqb_spec k y) as [->|]; [try reflexivity|] end; reflexivity. }
  assert (Hnp : NoDup (map fst (mset m "proof" (proofs_to_raw [x])))) by (now apply mset_nodup).
  assert (Hnj : forall k, In k (map fst m0) -> k <> "jwt").
  { intros k Hk0 ->. assert (Hx : mget m0 "jwt" <> None) by (intros E0; apply mget_None in E0; contradiction). rewrite Hmg, mget_mset in Hx. cbn in Hx.
    assert (Hi : In "jwt" (map fst m)) by (destruct (in_dec string_dec "jwt" (map fst m)) as [|Hni]; [assumption|apply mget_none_notin in Hni; contradiction]).
    apply Hkeys in Hi as [Hi|Hi]; [cbn in Hi; intuition discriminate|]. apply Hcu in Hi as (_ & _ & Hi). now apply Hi. }
  assert (Hemb : forall m1, Permutation m1 m0 -> check_pres_embedded (pe_v P) o m1 = Ok tt).
  { intros m1 Hm1. unfold check_pres_embedded. destruct (vo_no_proof o); [reflexivity|].
    assert (Ej : mdel m1 "jwt" = m1).
    { assert (Hx : forall k, In k (map fst m1) -> k <> "jwt") by (intros k Hk0; apply Hnj; apply (Permutation_in _ (Permutation_map fst Hm1)); assumption).
      clear - Hx. induction m1 as [|[k v] l IH]; [reflexivity|]. cbn [mdel]. destruct (String.eqb_spec "jwt" k) as [<-|]; [exfalso; now apply (Hx "jwt"); [now left|]|].
      f_equal. apply IH. intros k0 Hk0. apply Hx. now right. }
    rewrite Ej. assert (Hp1 : Permutation m1 (mset m "proof" (proofs_to_raw [x]))).
    { eapply Permutation_trans; [exact Hm1|]. apply perm_of_mget; assumption. }
    destruct (added_accepted (ve_di (pe_v P)) S V sg now (ve_now (pe_v P)) c m [x] m1 (di_opts (embedded_opts o)) Ha Hn Hsp Hpf R Hof)
      as (pp & Epp & Hpt & Hver); [repeat split|assumption|assumption|]. injection Epp as ->.
    assert (Hn1 : NoDup (map fst m1)) by (eapply Permutation_NoDup; [apply Permutation_map, Permutation_sym, Hm1|assumption]).
    assert (Hfp : fld m1 "proof" = Some (JObj (proof_members pp))).
    { unfold fld. rewrite (mget_perm m1 _ "proof" Hn1 Hp1), mget_mset, String.eqb_refl. reflexivity. }
    unfold check_embedded. rewrite Hfp. cbn [get_proofs bind embedded_opts co_external is_di]. rewrite proof_members_type, Hpt.
    change (String.eqb "DataIntegrityProof" "DataIntegrityProof") with true. cbn match. unfold check_di. change (co_di _) with (vo_di o). rewrite Hdi. fold (embedded_opts o). rewrite Hver. reflexivity. }
  destruct (C154_json_round_trip P D U o (with_proofs p [x]) cs data m0) as (q & Hq & Hs & H1 & H2); try assumption.
  - intros k Hk0. now apply Hcu.
  - intros _. discriminate.
  - exists q, x. pose proof Hs as (_ & _ & _ & _ & _ & Hx & _). cbn [with_proofs pr_proofs] in Hx. auto 10.
Qed.
Print Assumptions C159_add_proof_then_parse.
(** example: a presentation of one JWT credential *)
Definition av_opts : vopts := let o := ex_vopts in
  {| vo_check := vo_check o; vo_no_proof := false; vo_strict := vo_strict o; vo_require_vc := vo_require_vc o; vo_require_proof := true;
     vo_no_jsonld := vo_no_jsonld o; vo_di := Some ordV; vo_purpose := ""; vo_domain := "shop"; vo_challenge := "";
     vo_holder := vo_holder o; vo_related := vo_related o |}.
Definition av_p' : presentation := Eval vm_compute in match add_di_pres cw_senv xp_U ordS ord_now ord_ctx (jp_vp []) with Ok p => p | _ => jp_vp [] end.
Definition av_raw : gomap json := Eval vm_compute in match pres_raw xp_U av_p' with Ok m => m | _ => [] end.
Definition av_P : vpenv :=
  {| pe_v := with_di (toyV0 [(ex_tok "good", ex_jws "sig:m")] [("P", ex_jwt_members); ("{}", []); (jp_text, rev av_raw)]) ordE;
     pe_valid := fun _ _ => Ok tt; pe_jsonld := fun _ _ => Ok tt; pe_marshal := fun _ => jp_text |}.
Example C159_example :
  add_di_pres cw_senv xp_U ordS ord_now ord_ctx (jp_vp []) = Ok av_p' /\ plain_vp (jp_vp [])
  /\ di_ready (ve_di (pe_v av_P)) ordS ordV toy_sign (ve_now (pe_v av_P)) (sign_opts ord_now ord_ctx) /\ order_free (ve_di (pe_v av_P))
  /\ expects (vo_purpose av_opts) (vo_domain av_opts) (vo_challenge av_opts) ord_ctx
  /\ pres_raw xp_U av_p' = Ok av_raw /\ marshal_vp av_P cw_senv xp_U av_p' = Ok jp_text
  /\ creds_back (pe_v av_P) av_opts xp_U av_p' xp_creds /\ acceptable av_P av_opts xp_U av_p' xp_creds
  /\ vo_no_proof av_opts = false /\ is_ok (parse_presentation_vp av_P av_opts jp_text) = true.
Proof.
  split; [vm_compute; reflexivity|].
  assert (Hpl : plain_vp (jp_vp [])).
  { split; [discriminate|]. split; [reflexivity|]. split; [discriminate|]. split; [cbn; nodup_keys|]. cbn. intuition (subst; discriminate). }
  assert (Hpl' : plain_vp av_p') by exact Hpl.
  split; [exact Hpl|]. split; [exact ord_ready|]. split; [exact ord_free|]. split; [repeat split|]. split; [vm_compute; reflexivity|]. split; [vm_compute; reflexivity|].
  split.
  { unfold creds_back. change (pr_creds av_p') with xp_creds. unfold xp_creds at 1 2. constructor; [|constructor]. exists (JStr (ex_tok "good")). split; vm_compute; reflexivity. }
  split.
  { split; [|split; [vm_compute; reflexivity|discriminate]]. intros m1 m2 Hm1 Hm2. destruct (acceptable_toy (toyV0 [] []) av_opts xp_U av_p' xp_creds) as (A1 & _); [now left|apply Hpl'|vm_compute; reflexivity|discriminate|]. exact (A1 m1 m2 Hm1 Hm2). }
  split; [reflexivity|vm_compute; reflexivity].
Qed.

(** ** C160  (refuted) A proof added to a JWT or CWT credential, or to a JWT presentation, is part of what is marshalled: the
    text is the same as before. *)
Theorem C160_not_marshalled_refuted : forall D sd S now c (v v' : credential),
  add_di_cred D sd S now c v = Ok v' -> cr_jwt v <> None \/ cr_cwt v <> None -> vc_sdalg (cr_contents v) = None ->
  cr_proofs v' <> [] /\ to_universal D sd v' = to_universal D sd v.
Proof.
  intros D sd S now c v v' H Hj Hsd. unfold add_di_cred in H. apply bind_ok in H as (doc & _ & H). apply bind_ok in H as (ps & Ha & H).
  unfold add_di in Ha. apply bind_ok in Ha as (out & _ & Ha). apply bind_ok in Ha as (q & _ & Ha). injection Ha as <-. injection H as <-.
  split; [discriminate|]. unfold to_universal, to_jwt_string, to_enveloped. cbn [reset_proofs cr_jwt cr_cwt cr_contents cr_proofs cr_json].
  rewrite Hsd. destruct (cr_cwt v); [reflexivity|]. destruct (cr_jwt v); [reflexivity|]. destruct Hj; contradiction.
Qed.
Theorem C160_presentation_refuted : forall D U S now c (p p' : presentation),
  add_di_pres D U S now c p = Ok p' -> pr_jwt p <> "" -> pr_proofs p' <> [] /\ vp_form D U p' = vp_form D U p.
Proof.
  intros D U S now c p p' H Hj. unfold add_di_pres in H. apply bind_ok in H as (doc & _ & H). apply bind_ok in H as (ps & Ha & H). injection H as <-.
  unfold add_di in Ha. apply bind_ok in Ha as (out & _ & Ha). apply bind_ok in Ha as (q & _ & Ha). injection Ha as <-.
  split; [discriminate|]. unfold vp_form, is_jwt_vp, cwt_of. cbn [with_proofs pr_context pr_jwt pr_cwt].
  assert (E : negb (String.eqb (pr_jwt p) "") = true) by (destruct (String.eqb_spec (pr_jwt p) ""); [contradiction|reflexivity]). rewrite E.
  reflexivity.
Qed.
Print Assumptions C160_not_marshalled_refuted.
Print Assumptions C160_presentation_refuted.
(** example: a JWT credential of data model 2.0; the proof in its object is not accepted either *)
Definition env_cred : credential := {|
  cr_json := [("@context", JStr v2_context); ("type", JStr "VerifiableCredential"); ("issuer", JStr "did:a")];
  cr_contents := {| vc_context := [v2_context]; vc_custom_ctx := []; vc_id := ""; vc_types := ["VerifiableCredential"]; vc_subject := [];
     vc_issuer := Some {| is_id := "did:a"; is_custom := [] |}; vc_issued := None; vc_expired := None; vc_status := []; vc_schemas := []; vc_evidence := None;
     vc_terms := []; vc_refresh := None; vc_sdalg := None; vc_related := [] |};
  cr_proofs := []; cr_jwt := Some {| je_jwt := "a.b.c"; je_headers := []; je_discs := []; je_binding := "" |}; cr_cwt := None |}.
Definition env_added : credential := Eval vm_compute in add_full env_cred.
Example C160_example :
  add_di_cred cw_senv (fun _ => Err "x") toyS ord_now ord_ctx env_cred = Ok env_added /\ cr_jwt env_cred <> None
  /\ is_ok (parse_credential (toyV0 [] [("{1", to_raw_json env_added)]) full_opts "{1") = false
  /\ exists p, add_di_pres cw_senv xp_U toyS ord_now ord_ctx (with_envelope (new_empty v2_context []) "a.b.c" None) = Ok p.
Proof. split; [vm_compute; reflexivity|]. split; [discriminate|]. split; [vm_compute; reflexivity|]. eexists; vm_compute; reflexivity. Qed.
