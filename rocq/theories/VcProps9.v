(** Property theorems for MakeSDJWT (C194-). *)
From Coq Require Import Permutation.
From Verif Require Import GoBase Base64 StrLemmas JwtSpec DiSpec VcSpec JwtModel JwtProofs SdSpec SdModel SdProofs SdRun SdOrder SdSubset SdParse SdParseProofs
  SdIssueSpec SdIssueModel SdIssueEnc SdIssueTop SdIssueV2 SdIssueMain SdIssueV5 SdIssueVc SdIssueProps SdIssueProps3
  DiModel VcModel VcJwt VcParse VcProofs VcView VcText VcMod VcSecure VcJwtProofs VcPanic VcSign VcSignProofs VcSd VcSdProofs DispSpec VcDispProofs VcProps VcProps2 VcProps4 VcProps6 VcProps7 VcProps8 VcMakeProofs.

(** A credential MakeSDJWT is meant for: its document holds only values that survive JSON and selective disclosure (no nulls, no
    empty arrays, no reserved names, readable texts), its contents are those of the document, dates are real dates. *)
Record issuable (T : tenv) (ok : string -> Prop) (v : credential) (ps : list (gomap json)) : Prop := {
  iu_ordinary : ordinary (JObj (cr_json v));
  iu_texts : texts ok (JObj (cr_json v));
  iu_contents : parse_contents T (cr_json v) false = Ok (cr_contents v);
  iu_proof : parse_ld_proof (fld (cr_json v) "proof") = Ok ps;
  iu_vc : mget (cr_json v) "vc" = None;
  iu_cnf : forall cs, mget (cr_json v) "credentialSubject" = Some (JObj cs) -> mget cs "cnf" = None;
  iu_issued : nonzero (vc_issued (cr_contents v)) /\ rfc_ok T (vc_issued (cr_contents v));
  iu_expired : nonzero (vc_expired (cr_contents v)) /\ rfc_ok T (vc_expired (cr_contents v)) }.
(** JSON coding of disclosures: what is written is read back, salts are texts, shuffling keeps the elements *)
Record coding (E : venv) (I : ienv) (ok : string -> Prop) : Prop := {
  cd_env : wf_env (ve_sd E); cd_visit : visits_all (ve_order E);
  cd_back : reads_back (sd_json (ve_sd E)) (ie_enc I) ok; cd_salt : forall n s, ie_salt I n = Some s -> ok s;
  cd_shuffle : forall n l, Permutation l (ie_shuffle I n l) }.
(** the signer makes a compact JWS of the claims *)
Definition signs (E : venv) (sign : jose_signer) (kid : string) (v5 : bool) (claims : gomap json) (tok : string) (j : jws) : Prop :=
  sign claims (sd_headers kid v5) = Ok tok -> exists ms, jws_text E tok j ms /\ Permutation ms claims.

Lemma issuer_payload o : create_payload "" (issuer_opts o) = [("_sd_alg", JStr (hash_name (io_hash (issuer_opts o))))].
Proof. reflexivity. Qed.
Lemma mset_last {V} (m : gomap V) k a b : ~ In k (map fst m) -> mset (m ++ [(k, a)])%list k b = (m ++ [(k, b)])%list.
Proof.
  induction m as [|[x y] m IH]; cbn [app mset map fst]; intros Hk; [now rewrite String.eqb_refl|].
  destruct (String.eqb_spec k x); [subst; elim Hk; now left|]. rewrite IH; [reflexivity|]. intros Hi; apply Hk; now right.
Qed.
Lemma claims_json_set cl m m' : jc_vc cl = Some m -> m <> [] -> m' <> [] ->
  claims_json (set_vc cl (Some m')) = mset (claims_json cl) "vc" (JObj m').
Proof.
  intros Hv Hm Hm'. unfold claims_json. rewrite Hv. cbn [set_vc jc_iss jc_sub jc_exp jc_nbf jc_iat jc_jti jc_vc].
  destruct m as [|x m]; [congruence|]. destruct m' as [|x' m']; [congruence|].
  rewrite !app_assoc, mset_last; [reflexivity|]. rewrite !map_app, !in_app_iff, !opt_keys, !date_keys.
  destruct (String.eqb (jc_iss cl) ""), (String.eqb (jc_sub cl) ""), (jc_exp cl), (jc_nbf cl), (jc_iat cl), (String.eqb (jc_jti cl) ""); cbn; intuition discriminate.
Qed.
Lemma new_claims_fields v cl : new_jwt_claims v false = Ok cl -> jc_vc cl = Some (cr_json v) /\ jc_alloc cl = true /\ jc_aud cl = [] /\ jc_sub cl <> ""
  /\ exists s, vc_subject (cr_contents v) = [s] /\ sj_id s = jc_sub cl.
Proof.
  unfold new_jwt_claims. intros H. apply bind_ok in H as (sub & Hs & H). destruct (vc_issuer (cr_contents v)); [|discriminate].
  cbn [bind] in H. injection H as <-. cbn. unfold subject_id in Hs. destruct (vc_subject (cr_contents v)) as [|s [|]]; try discriminate.
  destruct (String.eqb_spec (sj_id s) ""); [discriminate|]. injection Hs as <-. eauto 8.
Qed.
Lemma subject_text T v cs : parse_contents T (cr_json v) false = Ok (cr_contents v) -> mget (cr_json v) "credentialSubject" = Some (JObj cs) ->
  forall s, vc_subject (cr_contents v) = [s] -> sj_id s <> "" -> mget cs "id" = Some (JStr (sj_id s)).
Proof.
  intros Hc Hcs s Hs Hn. pose proof (parse_contents_fields _ _ _ Hc) as (_ & _ & _ & _ & _ & _ & _ & F & _).
  unfold fld in F. rewrite Hcs in F. cbn [parse_subject] in F. destruct (subject_from cs) as [s'| |] eqn:Es; try discriminate.
  cbn [rmap] in F. injection F as F. rewrite Hs in F. injection F as ->. apply subject_from_in in Es as (Ht & _). unfold text_member in Ht.
  destruct Ht as [Ht|(Hx & Ht)]; [assumption|congruence].
Qed.
Lemma claims_ordinary cl m : jc_vc cl = Some m -> m <> [] -> ordinary (JObj m) -> ordinary (JObj (claims_json cl)).
Proof.
  intros Hv Hm Ho. assert (Hl : vc_len0 cl = false) by (unfold vc_len0; rewrite Hv; now destruct m).
  destruct (claims_keys cl ltac:(congruence) Hl) as [N K]. apply ordinary_obj. split; [assumption|]. intros k w Hi.
  assert (Hk : In k ("vc" :: registered)) by (apply K; exact (in_map fst _ _ Hi)).
  split; [unfold reserved; cbn in Hk; intuition (subst; discriminate)|].
  apply mget_In_nodup in Hi; [|assumption]. rewrite mget_claims in Hi by assumption.
  assert (S : forall s, (if String.eqb s "" then None else Some (JStr s)) = Some w -> ordinary w) by (intros s Hs; destruct (String.eqb s ""); [discriminate|]; injection Hs as <-; now constructor).
  assert (D : forall d, option_map jnum d = Some w -> ordinary w) by (intros [d|] Hd; [|discriminate]; injection Hd as <-; now constructor).
  repeat match type of Hi with (if String.eqb k ?x then _ else _) = _ => destruct (String.eqb k x); [solve [eapply S; eauto | eapply D; eauto | rewrite Hv in Hi; injection Hi as <-; assumption]|] end.
  discriminate.
Qed.
Lemma marked_id sid cs mems : erase (TObj mems) = JObj cs -> mget cs "id" = Some (JStr sid) ->
  forall structured clear, v2_marked structured clear "" (TObj mems) -> In "id" clear -> In ("id", None, TVal (JStr sid)) mems.
Proof.
  intros He Hg structured clear Hm Hi. cbn [erase] in He. injection He as <-. apply mget_In, in_map_iff in Hg as ([[n l] t] & Hx & Hin).
  cbn [fst snd] in Hx. injection Hx as -> Ht. inversion Hm as [? ? H1 H2]; subst.
  destruct (H2 _ _ _ Hin) as (E1 & E2); [rewrite Ht; apply andb_false_r|]. rewrite E1, Ht in Hin. destruct E2 as [_ E2]. rewrite E2 in Hin; [assumption|exact Hi].
Qed.
(** the accepted ways to present the token, and what the parser needs from its environment *)
Record presents (E : venv) (o : copts) (v : credential) (j : jws) (tok : string) (sel : list string) (hb text : string) : Prop := {
  pt_text : text = serialize_presentation {| cp_jwt := tok; cp_discs := sel; cp_holder := hb |};
  pt_some : sel <> []; pt_once : NoDup sel; pt_hb : hb = "" \/ is_jws (ve_obj E) hb = true /\ free_of tilde hb;
  pt_not_json : ve_members E text = None;
  pt_proof : co_no_proof o = true \/ exists i pc, vc_issuer (cr_contents v) = Some i /\ co_jwt_check o = Some pc
                /\ pc (jws_headers j) (is_id i) (jws_input j) (jws_sig j) = Ok tt;
  pt_related : co_no_related o = true \/ ve_related E (vc_related (cr_contents v)) = Ok tt }.
(** [shows v T sel shown]: [shown] is the document of [v] - its issuer, id and dates aside - with, as subject, what the disclosures
    [sel] reveal of the marked subject [T], objects with nothing in them left out *)
Definition shows (v : credential) (T : tree) (sel : list string) (shown : gomap json) : Prop :=
  (forall k, ~ In k ["issuer"; "id"; "issuanceDate"; "validFrom"; "expirationDate"; "validUntil"; "credentialSubject"] ->
     match mget shown k, mget (cr_json v) k with Some a, Some b => jeq a b | None, None => True | _, _ => False end)
  /\ exists s0 s, jeq (JObj s0) (reveal (fun x => str_in x sel) T) /\ Pruned s0 s /\ mget shown "credentialSubject" = Some (JObj s).
(** [reads v h sid w]: the typed contents of [w] are those of [v] (dates to the second), but for the other claims of the subject *)
Definition reads (v : credential) (h : hashalg) (sid : string) (w : credential) : Prop :=
  exists cu, same_signed (with_subject (cr_contents v) [{| sj_id := sid; sj_custom := cu |}] (Some h)) (cr_contents w).

(** ** C194  MakeSDJWT (v2 format), ParseCredential of the token with any of its disclosures, display: the credential comes back,
    its subject with the identifier, the claims listed as not selectively disclosable, and what the disclosures reveal. *)
Theorem C194_make_parse_display : forall (E : venv) (I : ienv) (ok : string -> Prop) (v : credential) ps (sign : jose_signer) kid (o : mkopts) tok signed discs j,
  issuable (ve_time E) ok v ps -> coding E I ok -> mk_v5 o = false ->
  make_sdjwt E I v sign kid o = Ok (tok, signed, discs) -> signs E sign kid false signed tok j ->
  NoDup (digests_in false (JObj signed)) -> Forall (free_of tilde) discs ->
  exists cs T sid, mget (cr_json v) "credentialSubject" = Some (JObj cs) /\ erase T = JObj cs
    /\ mget cs "id" = Some (JStr sid) /\ sid <> ""
    /\ v2_marked true (mk_nonsd o ++ ["id"])%list "" T /\ Permutation discs (all_discs T)
    /\ forall o' sel hb text, presents E o' v j tok sel hb text -> incl sel discs ->
         exists w shown, parse_credential E o' text = Ok w /\ reads v (io_hash (issuer_opts o)) sid w
           /\ display_map E w {| dp_all := true; dp_given := [] |} = Ok shown /\ shows v T sel shown.
Proof.
  intros E I ok v ps sign kid o tok signed discs j [Uo Ut Uc Up Uv Un [Uz1 Ur1] [Uz2 Ur2]] [HE Hvis Hrb Hsalt Hshuf] Hv5 Hmk Hsg ND Hfree.
  unfold make_sdjwt in Hmk. rewrite Hv5 in Hmk. apply bind_ok in Hmk as (cl & Hcl & Hmk). apply bind_ok in Hmk as ([sgn ds] & Hn & Hmk).
  apply bind_ok in Hmk as (tk & Htk & Hmk). cbn [fst snd] in *. injection Hmk as -> -> ->.
  destruct (new_claims_fields v cl Hcl) as (Hjv & Hja & Hjaud & Hjs & s & Hs & Hsid).
  assert (HJne : cr_json v <> []) by (intros Hx; rewrite Hx in Uc; discriminate).
  assert (Hl : vc_len0 cl = false) by (unfold vc_len0; rewrite Hjv; now destruct (cr_json v)).
  assert (Hgvc : mget (claims_json cl) "vc" = Some (JObj (cr_json v))) by (rewrite mget_claims by assumption; cbn [String.eqb Ascii.eqb Bool.eqb]; now rewrite Hjv).
  assert (Hgcs : mget (claims_json cl) "credentialSubject" = None) by (now rewrite mget_claims by assumption).
  assert (Hcc : vc_claims (claims_json cl) = cr_json v) by (unfold vc_claims; now rewrite Hgvc).
  apply new_from_vc_inv in Hn as (cs & payload & Hcs & Hn & Hsigned); [|now left]. rewrite Hcc in Hcs.
  apply new_sdjwt_inv in Hn as (dm & st & Hc & ->).
  pose proof (ordinary_mget _ _ _ Uo Hcs) as Hco.
  assert (Hct : texts ok (JObj cs)) by (pose proof (mget_In _ _ _ Hcs) as Hi; now apply (texts_obj_inv ok (cr_json v) "credentialSubject")).
  destruct (v2_create_ok (ve_sd E) I (issuer_opts o) ok Hrb Hsalt Hshuf (JObj cs) "" 0 _ Hco Hct eq_refl Hc) as (mems & dec & HEnc & He & Hm & Hp).
  cbn [fst snd] in *.
  assert (Hnm : forall k, In k (names mems) -> In k (map fst cs)) by (intros k Hk; cbn [erase] in He; injection He as <-; rewrite map_map; exact Hk).
  assert (Hres : forall k, In k (names mems) -> ~ reserved k).
  { intros k Hk. apply Hnm in Hk. apply in_map_iff in Hk as ([k' w] & Hx & Hk). cbn in Hx. subst k'. apply ordinary_obj in Hco as [_ A]. now apply A in Hk. }
  assert (Hdis2 : forall k, In k (names mems) -> ~ In k (map fst (create_payload "" (issuer_opts o)))).
  { intros k Hk. rewrite issuer_payload. intros [<-|[]]. apply (Hres _ Hk). right. now left. }
  assert (Hcnf : ~ In "cnf" (names mems)).
  { intros Hk. apply Hnm in Hk. specialize (Un cs Hcs). apply mget_None in Un. contradiction. }
  assert (Hh : forall jwk, io_holder (issuer_opts o) = Some jwk -> ordinary jwk) by discriminate.
  pose proof (claims_ordinary cl _ Hjv HJne Uo) as Hclo.
  pose proof (signed_eq (ve_sd E) (issuer_opts o) (claims_json cl) Hh mems dm dec HEnc Hcnf Hdis2) as Hse. cbv zeta in Hse. cbv zeta in Hsigned. rewrite Hse in Hsigned.
  assert (NA : NoDup (map (get_hash (ve_sd E) (io_hash (issuer_opts o))) (all_discs (TObj mems)) ++ dec)%list).
  { rewrite <- (v2_reachable _ _ (fun _ => false) _ _ Hm). subst signed.
    eapply Permutation_NoDup; [apply (vc_digests (ve_sd E) (issuer_opts o) (claims_json cl) Hclo Hh mems dm dec HEnc Hdis2)|exact ND]. }
  set (m1 := mset (mset (cr_json v) "_sd_alg" (JStr (hash_name (io_hash (issuer_opts o))))) "credentialSubject" (JObj dm)).
  assert (Hne1 : m1 <> []) by (unfold m1; intros Hx; apply (f_equal (fun m => mget m "credentialSubject")) in Hx; rewrite mget_mset in Hx; discriminate).
  assert (Hs1 : signed = claims_json (set_vc cl (Some m1))).
  { transitivity (mset (claims_json cl) "vc" (JObj m1)); [|symmetry; exact (claims_json_set cl (cr_json v) m1 Hjv HJne Hne1)].
    rewrite Hsigned. unfold with_claims. rewrite Hgvc. unfold signed_claims, bound. cbn [io_holder issuer_opts]. rewrite Hcc. reflexivity. }
  assert (Nm1 : NoDup (map fst m1)) by (unfold m1; apply mset_nodup, mset_nodup; now apply ordinary_obj in Uo as [? _]).
  destruct (Hsg Htk) as (ms & Hjt & Hpm).
  assert (Hum : unmarshal_claims ms = Ok (set_vc cl (Some m1))).
  { apply (claims_round _ _ m1); auto. now rewrite <- Hs1. }
  pose proof (subject_text _ v cs Uc Hcs s Hs ltac:(congruence)) as Hsi.
  pose proof (marked_id (sj_id s) cs mems He Hsi _ _ Hm ltac:(apply in_app_iff; right; now left)) as Hidm.
  exists cs, (TObj mems), (sj_id s). split; [assumption|]. split; [assumption|]. split; [assumption|]. split; [congruence|]. split; [assumption|]. split; [assumption|].
  intros o' sel hb text [Ptx Psome Ponce Phb Pnj Ppr Prel] Hin.
  assert (Hin2 : incl sel (all_discs (TObj mems))) by (intros x Hx; eapply Permutation_in; [exact Hp|auto]).
  subst text.
  destruct (made_round E (issuer_opts o) v cs mems dm dec cl m1 (sj_id s) HE Hvis eq_refl (issuer_payload o) Uo Uv Uc Hcl Hcs HEnc He Hidm Ur1 Ur2 Uz1 Uz2
    (fun k => eq_refl) Nm1 tok j ms ps Hjt Hum Up NA sel hb o' Ponce Hin2 Psome) as (w & shown & s0 & s' & cu & W1 & W2 & W3 & W4 & W5 & W6 & W7); try assumption.
  - apply Forall_forall. intros x Hx. rewrite Forall_forall in Hfree. auto.
  - destruct Phb as [->|[_ ?]]; [intros []|assumption].
  - destruct Phb as [->|[? _]]; auto.
  - rewrite (v2_reachable _ _ _ _ _ Hm). assumption.
  - exists w, shown. split; [assumption|]. split; [exists cu; assumption|]. split; [assumption|]. split; [|exists s0, s'; auto].
    intros k Hk. apply W4; intros Hx; apply Hk; [cbn in Hx |- *; tauto|subst; cbn; tauto].
Qed.
Print Assumptions C194_make_parse_display.
(** *** Claim by claim *)
Lemma reveal_get sel mems n l t : NoDup (names mems) -> In (n, l, t) mems ->
  mget (flat_map (fun x : string * option string * tree => reveal_member sel (snd (fst x)) (fst (fst x)) (reveal sel (snd x))) mems) n
  = mget (reveal_member sel l n (reveal sel t)) n.
Proof.
  intros N Hi. induction mems as [|[[k l'] t'] r IH]; [destruct Hi|]. cbn [flat_map fst snd]. rewrite SdIssueTop.mget_app.
  cbn [names map fst] in N. inversion N as [|? ? N1 N2]; subst.
  assert (Hrm : forall lab nm v, n <> nm -> mget (reveal_member sel lab nm v) n = None).
  { intros lab nm v Hne. destruct lab as [s|]; cbn [reveal_member]; [destruct (sel s)|destruct v]; cbn [mget]; auto; destruct (String.eqb_spec n nm); congruence. }
  destruct Hi as [[= -> -> ->]|Hi].
  - destruct (mget (reveal_member sel l n (reveal sel t)) n) eqn:Eg; [reflexivity|]. apply mget_None. intros Hk. apply in_map_iff in Hk as ([a b] & Ha & Hk).
    cbn [fst] in Ha. subst a. apply in_flat_map in Hk as ([[k2 l2] t2] & Hr & Hk). cbn [fst snd] in Hk.
    assert (k2 = n) by (destruct l2 as [s2|]; cbn [reveal_member] in Hk; [destruct (sel s2)|destruct (reveal sel t2)]; cbn in Hk; intuition congruence).
    subst k2. apply N1. unfold names. apply in_map_iff. exists (n, l2, t2). auto.
  - rewrite Hrm; [auto|]. intros ->. apply N1. unfold names. apply in_map_iff. exists (k, l, t). auto.
Qed.
Lemma Pruned_get m m' k : Pruned m m' -> match mget m k with Some (JObj _) => True | x => mget m' k = x end.
Proof.
  induction 1 as [|n v m m' Hv HP IH|n o m m' HP0 IH0 HP IH|n o o' m m' HP0 IH0 Hne HP IH]; [reflexivity| | |]; cbn [mget]; destruct (String.eqb k n); auto.
  destruct v as [| | | | |o]; auto; now elim (Hv o).
Qed.
Lemma jeq_leaf_shape a b : jeq a b -> is_object a = is_object b.
Proof. now destruct 1. Qed.
(** what is shown of a claim [n] of the subject that is not an object: it is there if listed as clear, otherwise it has a disclosure
    and is there iff that was presented *)
Theorem C194_each_claim : forall (v : credential) (T : tree) (sel : list string) shown cs clear,
  shows v T sel shown -> erase T = JObj cs -> ordinary (JObj cs) -> v2_marked true clear "" T ->
  exists s, mget shown "credentialSubject" = Some (JObj s)
    /\ forall n x, mget cs n = Some x -> is_object x = false ->
         (In n clear -> exists y, mget s n = Some y /\ jeq y x)
         /\ (~ In n clear -> exists d, In d (all_discs T) /\ (In d sel -> exists y, mget s n = Some y /\ jeq y x) /\ (~ In d sel -> mget s n = None)).
Proof.
  intros v T sel sh cs clear (_ & s0 & s & Hj & Hp & Hs) He Ho Hm. exists s. split; [assumption|]. intros n x Hx Hnx.
  inversion Hm as [? mems H1 H2]; subst. cbn [erase] in He. injection He as <-. apply ordinary_obj in Ho as [Nn Ho].
  assert (Nn' : NoDup (names mems)) by (rewrite map_map in Nn; exact Nn).
  pose proof (mget_In _ _ _ Hx) as Hi. pose proof (proj2 (Ho _ _ Hi)) as Hox.
  apply in_map_iff in Hi as ([[n' l] t] & Hq & Hin). cbn [fst snd] in Hq. injection Hq as -> <-.
  destruct (H2 _ _ _ Hin Hnx) as (Ht & Hl). cbn [sub_path] in Hl. change (sub_path "" n) with n in Hl.
  assert (Hrev : reveal (fun x => str_in x sel) t = erase t) by (rewrite Ht; reflexivity).
  cbn [reveal] in Hj. set (fm := flat_map _ mems) in Hj.
  assert (Hg : mget fm n = mget (reveal_member (fun x => str_in x sel) l n (erase t)) n) by (unfold fm; rewrite (reveal_get _ mems n l t Nn' Hin), Hrev; reflexivity).
  assert (Nf : NoDup (map fst fm)).
  { unfold fm. clear - Nn'. induction mems as [|[[k l] t] r IH]; [constructor|]. cbn [names map fst] in Nn'. inversion Nn' as [|? ? N1 N2]; subst.
    cbn [flat_map fst snd]. rewrite map_app.
    assert (Hsub : forall k' y, In (k', y) (flat_map (fun x : string * option string * tree => reveal_member (fun x => str_in x sel) (snd (fst x)) (fst (fst x)) (reveal (fun x => str_in x sel) (snd x))) r) -> In k' (names r)).
    { intros k' y Hy. apply in_flat_map in Hy as ([[k2 l2] t2] & Hr & Hy). cbn [fst snd] in Hy.
      assert (k2 = k') by (destruct l2 as [s2|]; cbn [reveal_member] in Hy; [destruct (str_in s2 sel)|destruct (reveal _ t2)]; cbn in Hy; intuition congruence).
      subst k2. unfold names. apply in_map_iff. exists (k', l2, t2). auto. }
    assert (Hhd : map fst (reveal_member (fun x => str_in x sel) l k (reveal (fun x => str_in x sel) t)) = [] \/ map fst (reveal_member (fun x => str_in x sel) l k (reveal (fun x => str_in x sel) t)) = [k])
      by (destruct l as [s2|]; cbn [reveal_member]; [destruct (str_in s2 sel)|destruct (reveal _ t)]; cbn; auto).
    destruct Hhd as [-> | ->]; cbn [app]; [auto|]. constructor; [|auto]. intros Hk. apply N1. apply in_map_iff in Hk as ([a b] & Hab & Hk). cbn in Hab. subst a. eauto. }
  pose proof (jeq_get fm s0 n Nf (jeq_sym _ _ Hj)) as G0. pose proof (Pruned_get _ _ n Hp) as GP.
  assert (Hvis : forall a, mget fm n = Some a -> is_object a = false -> exists y, mget s n = Some y /\ jeq y a).
  { intros a Ha Hoa. rewrite Ha in G0. destruct (mget s0 n) as [b|] eqn:Eb; [|contradiction]. exists b. split; [|now apply jeq_sym].
    apply jeq_leaf_shape in G0. destruct b; try exact GP. cbn in *. congruence. }
  assert (Hinv : mget fm n = None -> mget s n = None) by (intros Ha; rewrite Ha in G0; destruct (mget s0 n); [contradiction|exact GP]).
  assert (Hnn : erase t <> JNull) by (intros Hx0; rewrite Hx0 in Hox; inversion Hox; contradiction).
  split.
  - intros Hc. apply Hl in Hc. subst l. apply Hvis; [|assumption]. rewrite Hg. cbn [reveal_member]. destruct (erase t); try congruence; cbn [mget]; now rewrite String.eqb_refl.
  - intros Hc. destruct l as [d|]; [|elim Hc; now apply Hl]. exists d. split; [|split].
    + unfold all_discs. cbn [reachable]. apply in_flat_map. exists (n, Some d, t). split; [assumption|]. cbn. now left.
    + intros Hd. apply Hvis; [|assumption]. rewrite Hg. cbn [reveal_member]. apply str_in_In in Hd. rewrite Hd. cbn [mget]. now rewrite String.eqb_refl.
    + intros Hd. apply Hinv. rewrite Hg. cbn [reveal_member]. apply str_in_nIn in Hd. now rewrite Hd.
Qed.
Print Assumptions C194_each_claim.

(** ** Example: subject with a name, a nested city and a language kept clear; the name is disclosed, the city is not *)
Fixpoint ordb (j : json) : bool :=
  match j with
  | JNull => false
  | JArr l => negb (is_empty l) && forallb ordb l
  | JObj m => nodupb (map fst m) && forallb (fun kv => negb (str_in (fst kv) ["_sd"; "_sd_alg"; "..."]) && ordb (snd kv)) m
  | _ => true
  end.
Lemma ordb_ordinary j : ordb j = true -> ordinary j.
Proof.
  induction j as [|b|z|s|l IH|m IH] using json_ind'; cbn [ordb]; intros H; try discriminate; try (constructor; exact Logic.I).
  - apply andb_prop in H as [H1 H2]. rewrite forallb_forall in H2. apply ord_arr; [now destruct l|]. intros v Hv. rewrite Forall_forall in IH. auto.
  - apply andb_prop in H as [H1 H2]. rewrite forallb_forall in H2. apply ord_obj; [now apply nodup_str|]. intros k v Hv. specialize (H2 _ Hv). cbn [fst snd] in H2.
    apply andb_prop in H2 as [H3 H4]. rewrite Forall_forall in IH. split; [|exact (IH _ Hv H4)]. unfold reserved. apply negb_true_iff, str_in_nIn in H3. cbn in H3. intuition congruence.
Qed.
Definition mk_contents : contents := {|
  vc_context := [v1_context]; vc_custom_ctx := []; vc_id := "urn:1"; vc_types := ["VerifiableCredential"; "D"];
  vc_subject := [{| sj_id := "did:s"; sj_custom := [("name", JStr "n"); ("home", JObj [("city", JStr "p")]); ("lang", JStr "en")] |}];
  vc_issuer := Some {| is_id := "did:i"; is_custom := [("name", JStr "I")] |};
  vc_issued := Some {| tw_time := of_unix 7; tw_str := "T7" |}; vc_expired := Some {| tw_time := of_unix 12; tw_str := "T12" |};
  vc_status := []; vc_schemas := []; vc_evidence := None; vc_terms := []; vc_refresh := None; vc_sdalg := None; vc_related := [] |}.
Definition mk_cred : credential := create_credential toyT mk_contents [("extra", JBool false)].
Definition mk_o : mkopts := {| mk_hash := None; mk_v5 := false; mk_rec := []; mk_always := []; mk_nonsd := ["lang"] |}.
Definition mk_tbl : list (string * json) := [("A", JArr [JStr "s0"; JStr "name"; JStr "n"]); ("B", JArr [JStr "s1"; JStr "city"; JStr "p"])].
Definition mk_sign : jose_signer := fun _ _ => Ok (ex_tok "good").
Definition mk_signed : gomap json := Eval vm_compute in
  match make_sdjwt (with_sdenv (toyV0 [] []) (tbl_env mk_tbl)) (tbl_ienv mk_tbl) mk_cred mk_sign "did:i#k" mk_o with Ok r => snd (fst r) | _ => [] end.
Definition mk_env : venv := with_sdenv (toyV0 [(ex_tok "good", ex_jws "sig:m")] [("P", mk_signed); ("{}", [])]) (tbl_env mk_tbl).
Lemma mk_date t tw g : t = Some tw -> is_zero (tw_time tw) = false -> te_parse toyT (te_rfc toyT (unix (tw_time tw))) = Some g -> unix g = unix (tw_time tw) ->
  nonzero t /\ rfc_ok toyT t.
Proof. intros -> H1 H2 H3. split; intros x [= <-]; eauto. Qed.
Example C194_example :
  issuable (ve_time mk_env) (fun _ => True) mk_cred [] /\ coding mk_env (tbl_ienv mk_tbl) (fun _ => True)
  /\ make_sdjwt mk_env (tbl_ienv mk_tbl) mk_cred mk_sign "did:i#k" mk_o = Ok (ex_tok "good", mk_signed, [b64_encode "B"; b64_encode "A"])
  /\ signs mk_env mk_sign "did:i#k" false mk_signed (ex_tok "good") (ex_jws "sig:m")
  /\ NoDup (digests_in false (JObj mk_signed)) /\ Forall (free_of tilde) [b64_encode "B"; b64_encode "A"]
  /\ presents mk_env ex_copts mk_cred (ex_jws "sig:m") (ex_tok "good") [b64_encode "A"] "" (ex_tok "good" ++ "~" ++ b64_encode "A" ++ "~")
  /\ match parse_credential mk_env ex_copts (ex_tok "good" ++ "~" ++ b64_encode "A" ++ "~") with
     | Ok w => rmap (fun m => mget m "credentialSubject") (display_map mk_env w {| dp_all := true; dp_given := [] |}) | _ => Err "" end
     = Ok (Some (JObj [("name", JStr "n"); ("lang", JStr "en"); ("id", JStr "did:s")])).
Proof.
  split; [|split; [|split; [|split; [|split; [|split; [|split]]]]]].
  - split.
    + apply ordb_ordinary. vm_compute. reflexivity.
    + apply texts_True.
    + vm_compute. reflexivity.
    + vm_compute. reflexivity.
    + vm_compute. reflexivity.
    + intros cs. vm_compute. intros [= <-]. reflexivity.
    + apply (mk_date _ {| tw_time := of_unix 7; tw_str := "T7" |} (of_unix 7)); vm_compute; reflexivity.
    + apply (mk_date _ {| tw_time := of_unix 12; tw_str := "T12" |} (of_unix 12)); vm_compute; reflexivity.
  - split.
    + apply tbl_wf. repeat constructor.
    + intros m k Hk. exact Hk.
    + apply tbl_reads_back. apply nodup_str. vm_compute. reflexivity.
    + intros; exact Logic.I.
    + apply tbl_shuffle.
  - vm_compute. reflexivity.
  - intros _. exists mk_signed. split; [|apply Permutation_refl]. repeat split; vm_compute; reflexivity.
  - apply nodup_str. vm_compute. reflexivity.
  - repeat constructor; vm_compute; intuition discriminate.
  - split.
    + vm_compute. reflexivity.
    + discriminate.
    + repeat constructor. intros [].
    + now left.
    + vm_compute. reflexivity.
    + right. eexists _, _. split; [reflexivity|]. split; [reflexivity|]. vm_compute. reflexivity.
    + now left.
  - vm_compute. reflexivity.
Qed.
