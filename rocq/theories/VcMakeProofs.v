(** MakeSDJWT and parsing what it made: lemmas. *)
From Coq Require Import Permutation.
From Verif Require Import GoBase Base64 StrLemmas JwtSpec DiSpec VcSpec JwtModel JwtProofs SdSpec SdModel SdProofs SdRun SdOrder SdSubset SdParse SdParseProofs
  SdIssueSpec SdIssueModel SdIssueEnc SdIssueTop SdIssueV2 SdIssueMain SdIssueV5 SdIssueVc SdIssueProps
  DiModel VcModel VcJwt VcParse VcProofs VcView VcText VcMod VcSecure VcJwtProofs VcPanic VcSign VcSignProofs VcSd VcSdProofs DispSpec VcDispProofs VcProps4 VcProps7.

Definition with_subject (c : contents) (s : list subject) (a : option hashalg) : contents :=
  {| vc_context := vc_context c; vc_custom_ctx := vc_custom_ctx c; vc_id := vc_id c; vc_types := vc_types c; vc_subject := s;
     vc_issuer := vc_issuer c; vc_issued := vc_issued c; vc_expired := vc_expired c; vc_status := vc_status c; vc_schemas := vc_schemas c;
     vc_evidence := vc_evidence c; vc_terms := vc_terms c; vc_refresh := vc_refresh c; vc_sdalg := a; vc_related := vc_related c |}.

Lemma refine_nodup T c m m' : refine T c = Ok (Some m') -> jc_vc c = Some m -> NoDup (map fst m) -> NoDup (map fst m').
Proof.
  intros H Hv Hn. unfold refine in H. destruct (jc_alloc c); [|discriminate]. cbn [negb] in H. rewrite Hv in H.
  assert (O : forall (x : option (gomap json)) k j y, oset x k j = Ok y -> (forall m, x = Some m -> NoDup (map fst m)) -> forall m, y = Some m -> NoDup (map fst m)).
  { intros [x|] k j y Hy Hx z ->; [|discriminate]. injection Hy as <-. apply mset_nodup. now apply Hx. }
  assert (D : forall d (x : option (gomap json)) f2 f1 y, refine_date T d x f2 f1 = Ok y -> (forall m, x = Some m -> NoDup (map fst m)) -> forall m, y = Some m -> NoDup (map fst m)).
  { intros [d|] x f2 f1 y Hy Hx z Hz; cbn [refine_date] in Hy; [eapply O; eauto|]. injection Hy as <-. auto. }
  apply bind_ok in H as (a & Ha & H). apply bind_ok in H as (b & Hb & H). apply bind_ok in H as (d & Hd & H). apply bind_ok in H as (e & He & H).
  assert (Na : forall z, a = Some z -> NoDup (map fst z)).
  { assert (Nm : forall z, Some m = Some z -> NoDup (map fst z)) by (intros z [= <-]; assumption).
    destruct (String.eqb (jc_iss c) ""); [injection Ha as <-; exact Nm|]. unfold refine_issuer in Ha.
    destruct (oget (Some m) "issuer") as [j|]; [|eapply O; eauto]. apply bind_ok in Ha as (i & _ & Ha).
    destruct (has_prefix "did:" (jc_iss c) && has_prefix "did:" i && negb (String.eqb (jc_iss c) i)); [discriminate|].
    destruct j; try (injection Ha as <-; exact Nm); eapply O; eauto. }
  pose proof (D _ _ _ _ _ Hb Na) as Nb.
  assert (Nd : forall z, d = Some z -> NoDup (map fst z)) by (destruct (String.eqb (jc_jti c) ""); [injection Hd as <-; exact Nb|eapply O; eauto]).
  pose proof (D _ _ _ _ _ He Nd) as Ne. eapply D; eauto.
Qed.
(** what the refined members are *)
Lemma refine_ordinary T c m m' : refine T c = Ok (Some m') -> jc_vc c = Some m ->
  forall k v, mget m' k = Some v -> In k special ->
    (exists s, v = JStr s) \/ mget m k = Some v \/ (exists o s, mget m k = Some (JObj o) /\ v = JObj (mset o "id" (JStr s))).
Proof.
  intros H Hv k v Hg Hk. unfold refine in H. destruct (jc_alloc c); [|discriminate]. cbn [negb] in H. rewrite Hv in H.
  set (Q := fun y : option (gomap json) => forall z v, y = Some z -> mget z k = Some v ->
    (exists s, v = JStr s) \/ mget m k = Some v \/ (exists o s, mget m k = Some (JObj o) /\ v = JObj (mset o "id" (JStr s)))).
  assert (O : forall (x : option (gomap json)) f s y, oset x f (JStr s) = Ok y -> Q x -> Q y).
  { intros [x|] f s y Hy Hx z w -> Hz; [|discriminate]. injection Hy as <-. rewrite mget_mset in Hz. destruct (String.eqb k f); [injection Hz as <-; eauto|eapply Hx; eauto]. }
  assert (D : forall d (x : option (gomap json)) f2 f1 y, refine_date T d x f2 f1 = Ok y -> Q x -> Q y).
  { intros [d|] x f2 f1 y Hy Hx; cbn [refine_date] in Hy; [eapply O; eauto|]. injection Hy as <-. auto. }
  apply bind_ok in H as (a & Ha & H). apply bind_ok in H as (b & Hb & H). apply bind_ok in H as (d & Hd & H). apply bind_ok in H as (e & He & H).
  assert (Qm : Q (Some m)) by (intros z w [= <-] Hz; auto).
  assert (Na : Q a).
  { destruct (String.eqb (jc_iss c) ""); [injection Ha as <-; exact Qm|]. unfold refine_issuer in Ha. cbn [oget] in Ha.
    destruct (mget m "issuer") as [j|] eqn:Ej; [|eapply O; eauto]. apply bind_ok in Ha as (i & _ & Ha).
    destruct (has_prefix "did:" (jc_iss c) && has_prefix "did:" i && negb (String.eqb (jc_iss c) i)); [discriminate|].
    destruct j; try (injection Ha as <-; exact Qm); try (eapply O; eauto; fail).
    cbn [oset] in Ha. injection Ha as <-. intros z w [= <-] Hz. rewrite mget_mset in Hz. destruct (String.eqb_spec k "issuer") as [->|].
    - injection Hz as <-. right. right. eauto.
    - eapply Qm; eauto. }
  pose proof (D _ _ _ _ _ Hb Na) as Nb.
  assert (Nd : Q d) by (destruct (String.eqb (jc_jti c) ""); [injection Hd as <-; exact Nb|eapply O; eauto]).
  pose proof (D _ _ _ _ _ He Nd) as Ne. exact (D _ _ _ _ _ H Ne m' v eq_refl Hg).
Qed.
Lemma ordinary_obj m : ordinary (JObj m) <-> NoDup (map fst m) /\ forall k v, In (k, v) m -> ~ reserved k /\ ordinary v.
Proof. split; [intros H; inversion H as [? Hx| |? N A]; subst; [destruct Hx|auto]|intros [N A]; now apply ord_obj]. Qed.
Lemma ordinary_mget m k v : ordinary (JObj m) -> mget m k = Some v -> ordinary v.
Proof. intros H Hg. apply ordinary_obj in H as [_ A]. apply mget_In in Hg. now apply A in Hg. Qed.
Lemma reserved_id : ~ reserved "id".
Proof. unfold reserved. intuition discriminate. Qed.
Lemma special_plain k : In k special -> ~ reserved k /\ k <> "credentialSubject" /\ k <> "_sd_alg" /\ k <> "vc".
Proof. cbn. unfold reserved. intuition (subst; discriminate). Qed.

(** contents of an object with another subject *)
Lemma parse_contents_subject T m m1 c s : parse_contents T m false = Ok c ->
  (forall k, k <> "credentialSubject" -> k <> "_sd_alg" -> mget m1 k = mget m k) ->
  parse_subject (fld m1 "credentialSubject") = Ok s ->
  parse_contents T m1 false = Ok (with_subject c s None).
Proof.
  intros H Hk Hs. pose proof (parse_contents_fields _ _ _ H) as (F1 & F2 & F3 & F4 & F5 & F6 & F7 & F8 & F9 & F10 & (t1 & F11 & F11') & (t2 & F12 & F12') & F13 & F14).
  assert (Hf : forall k, k <> "credentialSubject" -> k <> "_sd_alg" -> fld m1 k = fld m k) by (intros k H1 H2; unfold fld; now rewrite Hk).
  unfold with_subject. rewrite F14, <- (Hf "evidence") by discriminate.
  eapply parse_contents_intro; unfold parse_string_fld, parse_time_fld in *; try rewrite Hf by discriminate; try eassumption.
Qed.
(** with the algorithm *)
Lemma parse_contents_sd T m c h : parse_contents T m false = Ok c -> mget m "_sd_alg" = Some (JStr (hash_name h)) ->
  parse_contents T m true = Ok (with_subject c (vc_subject c) (Some h)).
Proof.
  intros H Ha. unfold parse_contents in *.
  repeat (let x := fresh "x" in let Hx := fresh "Hx" in apply bind_ok in H as (x & Hx & H)).
  injection H as <-. rewrite Hx, Hx0, Hx1, Hx2, Hx3, Hx4, Hx5, Hx6. cbn [bind parse_sd_alg] in *.
  assert (Hp : parse_string_fld m "_sd_alg" = Ok (hash_name h)) by (unfold parse_string_fld, fld; now rewrite Ha).
  rewrite Hp. cbn [bind]. assert (Hv : parse_sd_alg_value (hash_name h) x6 = Ok h) by (unfold parse_sd_alg_value; destruct h; reflexivity).
  rewrite Hv. cbn [rmap bind]. rewrite Hx8, Hx9. cbn [bind]. rewrite Hx10. cbn [bind]. rewrite Hx11. cbn [bind]. rewrite Hx12. cbn [bind]. rewrite Hx13. reflexivity.
Qed.

(** *** A credential whose subject has been encoded, read back from its claims *)
Lemma Enc_clear_get E h mems dg decs n j : Enc E h (TObj mems) (JObj dg) decs -> In (n, None, TVal j) mems -> mget dg n = Some j.
Proof.
  intros HEnc Hi. inversion HEnc as [| |? c hd dec decoys sdp sds HM Nn Hres Hsd Hp]; subst.
  rewrite mget_app. assert (G : mget c n = Some j); [|now rewrite G].
  clear - HM Hi Nn. revert Nn Hi. induction HM as [|n0 t v d1 r c hd d He HM IH|n0 s t v v' r c hd d He Hs Hj HM IH]; intros Nn Hi.
  - destruct Hi.
  - cbn [names map fst] in Nn. inversion Nn as [|? ? N1 N2]; subst. cbn [mget]. destruct Hi as [[= -> ->]|Hi].
    + rewrite String.eqb_refl. inversion He; subst; reflexivity.
    + destruct (String.eqb_spec n n0) as [->|]; [|auto]. exfalso. apply N1. change n0 with (fst (fst (n0, @None string, TVal j))).
      unfold names. apply in_map_iff. exists (n0, None, TVal j). auto.
  - inversion Nn as [|? ? N1 N2]; subst. destruct Hi as [Hi|Hi]; [discriminate|auto].
Qed.

Lemma display_all_vp E v je h ds m o out : wf_env (ve_sd E) -> visits_all (ve_order E) -> wf_json (JObj (cr_json v)) -> sd_facts E v je h ds m ->
  dp_all o = true -> vp_disclosed (ve_sd E) h ds (ve_order E) (cr_json v) = Ok out -> display_object E h je o = Ok (clear_subject out).
Proof.
  intros HE Hord Hwf F Ha Hvp. destruct F as [Hdec Hh Hv Hg Hd].
  destruct (claims_sources (ve_sd E) h ds (cr_json v) (ve_order E) m HE Hwf Hord Hv Hh Hg) as (N & K & Sr).
  unfold vp_disclosed in Hvp. rewrite Hg in Hvp. cbn [bind] in Hvp.
  unfold display_object. rewrite Hdec. cbn [bind snd]. unfold filter_list. rewrite Ha.
  assert (HL : digest_map (ve_sd E) h (je_discs je) = m).
  { rewrite digest_map_list; rewrite Hd.
    - rewrite map_map. rewrite <- (map_id m) at 2. apply map_ext_in. intros [k c] Hi. cbn [snd]. f_equal. now apply Sr in Hi.
    - rewrite map_map. rewrite (map_ext_in _ fst); [assumption|]. intros [k c] Hi. cbn [snd fst]. now apply Sr in Hi. }
  rewrite HL, Hvp. reflexivity.
Qed.
Lemma decode_jws_text E tok j ms c m : jws_text E tok j ms -> unmarshal_claims ms = Ok c -> refine (ve_time E) c = Ok (Some m) ->
  decode_cred_jwt (ve_time E) (ve_jwt E) (ve_members E) tok = Ok (jws_headers j, m).
Proof.
  intros (Hs & Hm & Hi & Hco & Hj & Hh & Hp) Hc Hr.
  unfold decode_cred_jwt, jwt_parse, parse_jwt, map_jws. rewrite Hco. cbn [guard bind]. rewrite Hj. cbn [bind]. rewrite Hh. cbn [bind].
  unfold claims_of. rewrite Hp, Hc. cbn [is_ok guard bind snd]. rewrite Hp, Hc. cbn [bind]. rewrite Hr. reflexivity.
Qed.

Section Made.
Variables (E : venv) (o : iopts) (v : credential) (cs : gomap json) (mems : list (string * option string * tree)) (digests : gomap json) (decs : list string)
  (cl : jclaims) (m1 : gomap json) (sid : string).
Notation T := (ve_time E).
Notation J := (cr_json v).
Notation H := (get_hash (ve_sd E) (io_hash o)).
Notation alg := (hash_name (io_hash o)).
Hypotheses (HE : wf_env (ve_sd E)) (Hvis : visits_all (ve_order E))
  (Hhol : io_holder o = None) (Hpay : create_payload "" o = [("_sd_alg", JStr alg)])
  (HJ : ordinary (JObj J)) (Hvc : mget J "vc" = None) (Hc : parse_contents T J false = Ok (cr_contents v))
  (Hcl : new_jwt_claims v false = Ok cl)
  (Hcs : mget J "credentialSubject" = Some (JObj cs))
  (HEnc : Enc (ve_sd E) (io_hash o) (TObj mems) (JObj digests) decs) (He : erase (TObj mems) = JObj cs)
  (Hid : In ("id", None, TVal (JStr sid)) mems)
  (Hr1 : rfc_ok T (vc_issued (cr_contents v))) (Hr2 : rfc_ok T (vc_expired (cr_contents v)))
  (Hz1 : nonzero (vc_issued (cr_contents v))) (Hz2 : nonzero (vc_expired (cr_contents v)))
  (Hm1 : forall k, mget m1 k = mget (mset (mset J "_sd_alg" (JStr alg)) "credentialSubject" (JObj digests)) k)
  (Nm1 : NoDup (map fst m1)).

Lemma made_mget k : mget m1 k = if String.eqb k "credentialSubject" then Some (JObj digests) else if String.eqb k "_sd_alg" then Some (JStr alg) else mget J k.
Proof. rewrite Hm1, !mget_mset. reflexivity. Qed.
Lemma subject_keeps_id d j : mget d "id" = Some (JStr j) -> exists cu, subject_from d = Ok {| sj_id := j; sj_custom := cu |}.
Proof.
  intros Hd. unfold subject_from. destruct (split_obj d ["id"]) as [f r] eqn:Es.
  assert (Ef : f = fst (split_obj d ["id"])) by now rewrite Es. exists r.
  assert (Hp : parse_string_fld f "id" = Ok j); [|now rewrite Hp].
  unfold parse_string_fld, fld. rewrite Ef, split_fst by reflexivity. now rewrite Hd.
Qed.
Lemma clear_id_cs : mget cs "id" = Some (JStr sid).
Proof.
  pose proof (ordinary_mget _ _ _ HJ Hcs) as Hco. apply ordinary_obj in Hco as [N _].
  apply mget_In_nodup; [assumption|]. cbn [erase] in He. injection He as <-. apply in_map_iff. exists ("id", None, TVal (JStr sid)). auto.
Qed.
Lemma made_subject_id : vc_subject (cr_contents v) = [{| sj_id := sid; sj_custom := snd (split_obj cs ["id"]) |}].
Proof.
  pose proof (parse_contents_fields _ _ _ Hc) as (_ & _ & _ & _ & _ & _ & _ & F & _).
  unfold fld in F. rewrite Hcs in F. cbn [parse_subject] in F.
  assert (Hs : subject_from cs = Ok {| sj_id := sid; sj_custom := snd (split_obj cs ["id"]) |}).
  { unfold subject_from. destruct (split_obj cs ["id"]) as [f r] eqn:Es. assert (Ef : f = fst (split_obj cs ["id"])) by now rewrite Es.
    assert (Hp : parse_string_fld f "id" = Ok sid); [|now rewrite Hp]. unfold parse_string_fld, fld. rewrite Ef, split_fst by reflexivity. now rewrite clear_id_cs. }
  rewrite Hs in F. cbn [rmap] in F. now injection F as <-.
Qed.
Definition made_cred (c : contents) : credential := {| cr_json := m1; cr_contents := c; cr_proofs := []; cr_jwt := None; cr_cwt := None |}.
Lemma made_refined : exists m' c' cu,
  refine T (set_vc cl (Some m1)) = Ok (Some m') /\ parse_contents T m' true = Ok c' /\ vc_sdalg c' = Some (io_hash o)
  /\ same_signed (with_subject (cr_contents v) [{| sj_id := sid; sj_custom := cu |}] (Some (io_hash o))) c'
  /\ (forall k, ~ In k special -> mget m' k = mget m1 k)
  /\ NoDup (map fst m') /\ mget m' "vc" = None
  /\ (forall k w, mget m' k = Some w -> k <> "credentialSubject" -> k <> "_sd_alg" -> ~ reserved k /\ ordinary w).
Proof.
  pose proof (Enc_clear_get _ _ _ _ _ _ _ HEnc Hid) as Hdi.
  destruct (subject_keeps_id digests sid Hdi) as (cu & Hsf).
  assert (Hps : parse_subject (fld m1 "credentialSubject") = Ok [{| sj_id := sid; sj_custom := cu |}]).
  { unfold fld. rewrite made_mget. cbn [String.eqb Ascii.eqb Bool.eqb parse_subject]. now rewrite Hsf. }
  assert (Hoth : forall k, k <> "credentialSubject" -> k <> "_sd_alg" -> mget m1 k = mget J k).
  { intros k H1 H2. rewrite made_mget. destruct (String.eqb_spec k "credentialSubject"); [contradiction|]. destruct (String.eqb_spec k "_sd_alg"); [contradiction|reflexivity]. }
  pose proof (parse_contents_subject T J m1 _ _ Hc Hoth Hps) as Hpc.
  set (c1 := with_subject (cr_contents v) [{| sj_id := sid; sj_custom := cu |}] None) in *.
  assert (Hcl1 : new_jwt_claims (made_cred c1) false = Ok (set_vc cl (Some m1))).
  { unfold new_jwt_claims in Hcl |- *. cbn [made_cred cr_contents cr_json c1 with_subject vc_subject vc_issuer vc_id vc_expired vc_issued].
    rewrite made_subject_id in Hcl. cbn [subject_id sj_id] in *. destruct (String.eqb sid ""); [discriminate|]. cbn [bind] in *.
    destruct (vc_issuer (cr_contents v)); [|discriminate]. injection Hcl as <-. reflexivity. }
  destruct (sign_round T (made_cred c1) false _ Hpc Hr1 Hr2 Hz1 Hz2 Hcl1) as (m' & c' & Hrf & Hp' & Hsg & Ho).
  cbn [made_cred cr_json cr_contents] in *.
  assert (Halg : mget m' "_sd_alg" = Some (JStr alg)).
  { rewrite Ho by (cbn; intuition discriminate). rewrite made_mget. reflexivity. }
  pose proof (parse_contents_sd T m' c' (io_hash o) Hp' Halg) as Hsd.
  exists m', (with_subject c' (vc_subject c') (Some (io_hash o))), cu.
  split; [assumption|]. split; [assumption|]. split; [reflexivity|].
  split; [|split; [assumption|split; [|split]]].
  - unfold same_signed in *. cbn. cbn in Hsg. intuition.
  - eapply refine_nodup; [exact Hrf|reflexivity|assumption].
  - rewrite Ho by (cbn; intuition discriminate). rewrite made_mget. exact Hvc.
  - intros k w Hg H1 H2. pose proof HJ as HJ'. apply ordinary_obj in HJ' as [N A].
    assert (HJk : forall x, mget J k = Some x -> ~ reserved k /\ ordinary x) by (intros x Hx; apply mget_In in Hx; now apply A in Hx).
    destruct (in_dec string_dec k special) as [Hk|Hk].
    + split; [now apply special_plain|].
      assert (Hmk : mget m1 k = mget J k).
      { rewrite made_mget. destruct (String.eqb_spec k "credentialSubject"); [contradiction|]. destruct (String.eqb_spec k "_sd_alg"); [contradiction|reflexivity]. }
      destruct (refine_ordinary T _ _ _ Hrf eq_refl k w Hg Hk) as [(s & ->)|[Hw|(ob & s & Hob & ->)]].
      * now constructor.
      * rewrite Hmk in Hw. now apply HJk.
      * rewrite Hmk in Hob. apply HJk in Hob as [_ Hob]. apply ordinary_obj in Hob as [No Ao]. apply ordinary_obj. split; [now apply mset_nodup|].
        intros k' v' Hi. apply mset_In in Hi as [[-> ->]|[[_ Hi]|[_ Hi]]]; [|now apply Ao..]. split; [apply reserved_id|now constructor].
    + rewrite (Ho k Hk), made_mget in Hg. destruct (String.eqb_spec k "credentialSubject"); [contradiction|]. destruct (String.eqb_spec k "_sd_alg"); [contradiction|]. now apply HJk.
Qed.

Section Refined.
Variables (m' : gomap json).
Hypotheses (Ho : forall k, ~ In k special -> mget m' k = mget m1 k) (Nm' : NoDup (map fst m')) (Hvc' : mget m' "vc" = None)
  (Hord' : forall k w, mget m' k = Some w -> k <> "credentialSubject" -> k <> "_sd_alg" -> ~ reserved k /\ ordinary w).
Definition made_vc : gomap json := mset (mdel m' "_sd_alg") "credentialSubject" (JObj cs).
Lemma made_vc_get k : mget made_vc k = if String.eqb k "credentialSubject" then Some (JObj cs) else if String.eqb k "_sd_alg" then None else mget m' k.
Proof. unfold made_vc. now rewrite mget_mset, mget_mdel. Qed.
Lemma made_vc_ordinary : ordinary (JObj made_vc).
Proof.
  assert (N : NoDup (map fst made_vc)) by (unfold made_vc; apply mset_nodup, mdel_nodup; assumption).
  apply ordinary_obj. split; [assumption|]. intros k w Hi. apply mget_In_nodup in Hi; [|assumption]. rewrite made_vc_get in Hi.
  destruct (String.eqb_spec k "credentialSubject") as [->|].
  - injection Hi as <-. split; [apply not_res_cs|]. exact (ordinary_mget _ _ _ HJ Hcs).
  - destruct (String.eqb_spec k "_sd_alg"); [discriminate|]. now apply Hord'.
Qed.
Lemma made_claims : vc_claims made_vc = made_vc /\ forall c, with_claims made_vc c = c.
Proof.
  assert (Hn : mget made_vc "vc" = None) by (rewrite made_vc_get; exact Hvc').
  unfold vc_claims, with_claims. rewrite Hn. auto.
Qed.
Lemma no_fields : subject_fields o = [].
Proof. unfold subject_fields. rewrite Hpay. reflexivity. Qed.
Lemma made_m'_wf : wf_json (JObj m').
Proof.
  apply wf_obj_intro; [assumption|]. apply Forall_forall. intros [k w] Hi. cbn [snd]. apply mget_In_nodup in Hi; [|assumption].
  destruct (string_dec k "credentialSubject") as [->|Hk].
  - rewrite Ho, made_mget in Hi by (cbn; intuition discriminate). injection Hi as <-. exact (proj1 (Enc_wf (ve_sd E) (io_hash o)) _ _ _ HEnc).
  - destruct (string_dec k "_sd_alg") as [->|Hk2].
    + rewrite Ho, made_mget in Hi by (cbn; intuition discriminate). injection Hi as <-. exact I.
    + apply ordinary_wf. now apply (Hord' k w).
Qed.
Lemma perm_jeq a b : Permutation a b -> jeq (JObj a) (JObj b).
Proof.
  intros P. eapply jeq_obj_intro; [|exact P]. clear. induction a as [|[k w] a IH]; constructor; [|assumption]. split; [reflexivity|apply jeq_refl].
Qed.
Lemma made_jeq : jeq (JObj (with_claims made_vc (signed_claims o made_vc alg (subject_fields o ++ digests)%list))) (JObj m').
Proof.
  destruct made_claims as (C1 & C2). rewrite C2, no_fields. cbn [app]. unfold signed_claims, bound. rewrite Hhol, C1.
  apply perm_jeq, perm_of_mget; [|assumption|].
  - apply mset_nodup, mset_nodup. unfold made_vc. apply mset_nodup, mdel_nodup. assumption.
  - intros k. rewrite !mget_mset, made_vc_get. destruct (String.eqb_spec k "credentialSubject") as [->|].
    + rewrite Ho, made_mget by (cbn; intuition discriminate). reflexivity.
    + destruct (String.eqb_spec k "_sd_alg") as [->|]; [|reflexivity]. rewrite Ho, made_mget by (cbn; intuition discriminate). reflexivity.
Qed.
Lemma made_accept sel : NoDup (map H (all_discs (TObj mems)) ++ decs)%list -> NoDup sel -> incl sel (all_discs (TObj mems)) ->
  (verify_disclosures (ve_sd E) sel m' = Ok tt <-> incl sel (reachable (fun s => str_in s sel) (TObj mems))) /\
  (verify_disclosures (ve_sd E) sel m' = Ok tt ->
   get_crypto_hash m' = Ok (io_hash o) /\
   exists out, vp_disclosed (ve_sd E) (io_hash o) sel (ve_order E) m' = Ok out /\
     jeq (JObj out) (JObj (mset (mdel m' "_sd_alg") "credentialSubject" (reveal (fun s => str_in s sel) (TObj mems))))).
Proof.
  intros ND Ns Hi.
  assert (Hdis : forall k, In k (names mems) -> ~ In k (map fst (create_payload "" o))).
  { intros k Hk. rewrite Hpay. intros [<-|[]]. inversion HEnc as [| |? c hd dec decoys sdp sds HM Nn Hres Hsd Hp]; subst. apply (Hres _ Hk). right. now left. }
  assert (Hh : forall jwk, io_holder o = Some jwk -> ordinary jwk) by (rewrite Hhol; discriminate).
  destruct (vc_main (ve_sd E) o made_vc HE made_vc_ordinary Hh mems digests decs HEnc Hdis sel m' ND Ns Hi made_m'_wf made_jeq) as (A & B).
  split; [assumption|]. intros Hv. destruct (B Hv) as (B1 & B2). split; [assumption|]. destruct (B2 _ Hvis) as (out & Ho' & Hj). exists out.
  split; [assumption|]. eapply jeq_trans; [exact Hj|]. unfold target. destruct made_claims as (C1 & C2).
  rewrite C2, C1, no_fields. unfold bound. rewrite Hhol. cbn [app members_of reveal]. unfold made_vc. rewrite mset_mset. apply jeq_refl.
Qed.
End Refined.

Lemma made_round tok j ms ps : jws_text E tok j ms -> unmarshal_claims ms = Ok (set_vc cl (Some m1)) -> parse_ld_proof (fld J "proof") = Ok ps ->
  NoDup (map H (all_discs (TObj mems)) ++ decs)%list ->
  forall sel hb o', NoDup sel -> incl sel (all_discs (TObj mems)) -> sel <> [] -> Forall (free_of tilde) sel -> free_of tilde hb ->
    (hb = "" \/ is_jws (ve_obj E) hb = true) ->
    ve_members E (serialize_presentation {| cp_jwt := tok; cp_discs := sel; cp_holder := hb |}) = None ->
    (co_no_proof o' = true \/ exists i pc, vc_issuer (cr_contents v) = Some i /\ co_jwt_check o' = Some pc /\ pc (jws_headers j) (is_id i) (jws_input j) (jws_sig j) = Ok tt) ->
    (co_no_related o' = true \/ ve_related E (vc_related (cr_contents v)) = Ok tt) ->
    incl sel (reachable (fun s => str_in s sel) (TObj mems)) ->
    exists w shown s0 s cu, parse_credential E o' (serialize_presentation {| cp_jwt := tok; cp_discs := sel; cp_holder := hb |}) = Ok w
      /\ display_map E w {| dp_all := true; dp_given := [] |} = Ok shown
      /\ same_signed (with_subject (cr_contents v) [{| sj_id := sid; sj_custom := cu |}] (Some (io_hash o))) (cr_contents w)
      /\ (forall k, ~ In k special -> k <> "credentialSubject" ->
           match mget shown k, mget J k with Some a, Some b => jeq a b | None, None => True | _, _ => False end)
      /\ mget shown "credentialSubject" = Some (JObj s) /\ jeq (JObj s0) (reveal (fun x => str_in x sel) (TObj mems)) /\ Pruned s0 s.
Proof.
  intros Ht Hum Hps ND sel hb o' Ns Hi Hsne Hsf Hbf Hb Hmem Hck Hrel Hreach.
  destruct made_refined as (m' & c' & cu & Hrf & Hpc & Hal & Hsg & Ho & Nm' & Hvc' & Hord').
  destruct (made_accept m' Ho Nm' Hvc' Hord' sel ND Ns Hi) as (Hv1 & Hv2). apply Hv1 in Hreach. clear Hv1. destruct (Hv2 Hreach) as (Hh & out & Hvp & Hj). clear Hv2.
  pose proof (made_m'_wf m' Ho Nm' Hord') as Hwf.
  pose proof (decode_jws_text E tok j ms _ _ Ht Hum Hrf) as Hdec.
  assert (Halg : mhas m' "_sd_alg" = true).
  { unfold mhas. rewrite Ho, made_mget by (cbn; intuition discriminate). reflexivity. }
  set (je := {| je_jwt := tok; je_headers := jws_headers j; je_discs := []; je_binding := "" |}).
  set (v0 := {| cr_json := m'; cr_contents := c'; cr_proofs := ps; cr_jwt := Some je; cr_cwt := None |}).
  assert (Hprf : parse_ld_proof (fld m' "proof") = Ok ps).
  { unfold fld. rewrite Ho, made_mget by (cbn; intuition discriminate). exact Hps. }
  pose proof Ht as (Hsp & Hmt & Hjw & _ & Hdj & _).
  assert (S : sd_cred E v0 je []).
  { constructor; cbn [v0 je je_jwt je_headers cr_json je_binding cr_contents cr_proofs je_discs cr_cwt]; auto; try (intros []; fail); try constructor.
    pose proof (split_on_parts tilde tok) as Hf. rewrite Hsp in Hf. now inversion Hf. }
  destruct (disclosed_after_verify (ve_sd E) (io_hash o) sel m' (ve_order E) HE Hwf Hvis Hreach Hh) as (dm & Hg & _).
  assert (Hpd : parse_disclosures E sel (vc_sdalg (cr_contents v0)) = Ok (map snd dm)).
  { cbn [v0 cr_contents]. rewrite Hal. unfold parse_disclosures. destruct sel; [congruence|]. rewrite Hg. reflexivity. }
  assert (Hval : validate_disclosures E (cr_json v0) sel = Ok tt).
  { apply validate_disclosures_intro; [now left|]. cbn [v0 cr_json]. unfold sd_payload. now rewrite Halg. }
  assert (Hsg' : vc_issuer c' = vc_issuer (cr_contents v) /\ vc_related c' = vc_related (cr_contents v)).
  { unfold same_signed in Hsg. cbn in Hsg. intuition. }
  pose proof (parse_again E o' v0 je [] sel hb (map snd dm) S) as Hpa. cbv zeta in Hpa. cbn [je je_jwt] in Hpa.
  specialize (Hpa Hmem Hsf Hbf Hb (or_introl Hsne) eq_refl Hval Hpd).
  assert (Hpar : parse_credential E o' (serialize_presentation {| cp_jwt := tok; cp_discs := sel; cp_holder := hb |}) = Ok (with_sd v0 je (map snd dm) hb)).
  { apply Hpa.
    - intros Hn. destruct Hck as [|(i & pc & Hi' & Hpc' & Hok)]; [congruence|]. unfold check_cred_proof, v0. cbn [cr_contents cr_jwt]. rewrite (proj1 Hsg'), Hi', Hpc'.
      cbn [je je_jwt]. unfold check_proof. rewrite Hdj. cbn [bind jose_verify]. now rewrite Hok.
    - intros Hn. destruct Hrel as [|Hrel]; [congruence|]. cbn [v0 cr_contents]. now rewrite (proj2 Hsg'). }
  exists (with_sd v0 je (map snd dm) hb), (clear_subject out).
  assert (Nout : NoDup (map fst (mset (mdel m' "_sd_alg") "credentialSubject" (reveal (fun s => str_in s sel) (TObj mems))))) by (apply mset_nodup, mdel_nodup; assumption).
  apply jeq_sym in Hj.
  assert (HG : forall k, match mget (mset (mdel m' "_sd_alg") "credentialSubject" (reveal (fun s => str_in s sel) (TObj mems))) k, mget out k with
                         | Some a, Some b => jeq a b | None, None => True | _, _ => False end) by (intros k; now apply jeq_get).
  pose proof (HG "credentialSubject") as Gs. rewrite mget_mset, String.eqb_refl in Gs.
  destruct (mget out "credentialSubject") as [x|] eqn:Ex; [|destruct Gs].
  assert (Hx : exists s0, x = JObj s0) by (cbn [reveal] in Gs; inversion Gs; subst; [tauto|eauto]). destruct Hx as (s0 & ->).
  destruct (clear_empty_obj s0) as (s & Hce & Hpr).
  assert (Hcsub : clear_subject out = mset out "credentialSubject" (JObj s)) by (unfold clear_subject; now rewrite Ex, Hce).
  exists s0, s, cu. split; [assumption|]. split; [|split; [exact Hsg|split; [|split; [|split; [|assumption]]]]].
  - unfold display_map. cbn [dp_all dp_given is_empty negb andb with_sd cr_contents cr_jwt v0]. rewrite Hal.
    eapply (display_all_vp E (with_sd v0 je (map snd dm) hb) _ (io_hash o) sel dm); try assumption; [|reflexivity].
    constructor; cbn [with_sd cr_json v0 je_jwt je_headers je_discs je]; auto.
  - intros k Hk Hk2. rewrite Hcsub, mget_mset. destruct (String.eqb_spec k "credentialSubject"); [contradiction|].
    pose proof (HG k) as G. rewrite mget_mset, mget_mdel in G. destruct (String.eqb_spec k "credentialSubject"); [contradiction|].
    rewrite Ho, made_mget in G by assumption. destruct (String.eqb_spec k "credentialSubject"); [contradiction|].
    destruct (String.eqb_spec k "_sd_alg") as [->|].
    + destruct (mget out "_sd_alg"); [destruct G|]. destruct (mget J "_sd_alg") eqn:Ea; [|exact I]. apply mget_In in Ea.
      pose proof HJ as HJ'. apply ordinary_obj in HJ' as [_ A]. apply A in Ea as [Ea _]. apply Ea. right. now left.
    + destruct (mget J k), (mget out k); [now apply jeq_sym|exact G..].
  - rewrite Hcsub, mget_mset, String.eqb_refl. reflexivity.
  - now apply jeq_sym.
Qed.
End Made.
