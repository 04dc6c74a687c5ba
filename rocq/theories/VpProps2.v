(** Property theorems for presentations: panics, uncovered members, time (C146-C149). *)
From Coq Require Import Permutation.
From Verif Require Import GoBase Base64 StatusModel PexModel StrLemmas JwtSpec DiSpec VcSpec JwtModel SdSpec SdModel SdParse DiModel
  VcModel VcJwt VcParse VcProofs VcView VcText VcMod VcSecure VcJwtProofs VcPanic VcSign VcSignProofs DiProofs DiProps JwtProofs JwtProps VcProps VcProps2 VcProps3 VcProps4 VcProps5
  VpModel VpProofs VpPanic VpProps.

(** ** C146  ParsePresentation does not panic: on any input, when the JWTs it decodes have usable payloads (presentation: a
    registered claim and a "vp" object; credential: a registered claim and another claim), and libraries and checkers do
    not panic. *)
(** objects a text may be read as *)
Definition may_read (E : venv) (data : string) (m : gomap json) : Prop :=
  (exists d jwt, vp_text E "application/vp-ld+jwt" data d /\ vp_source E d m jwt)
  \/ (exists d b c q, vp_text E "application/vp-ld+cose" data d /\ (b = d \/ ve_hex E (un_quote d) = Some b) /\ ve_cose E b = Some c
        /\ ve_cbor E (co_payload c) = Some q /\ m = match mget q "vp" with Some (JObj x) => x | _ => [] end).
Theorem C146_no_panic : forall (P : vpenv) (o : vopts) (data : string), let E := pe_v P in
  vp_calm P o ->
  (forall d j ms, vp_text E "application/vp-ld+jwt" data d -> de_jws (ve_jwt E) (un_quote d) None = Ok j ->
     ve_members E (jws_payload j) = Some ms \/ de_members (ve_jwt E) (jws_payload j) = Some ms -> usable_vp ms) ->
  (forall m raws c d tok j ms, may_read E data m -> enclosed m raws -> In c raws -> cred_text E c d -> tokens_of E d tok ->
     de_jws (ve_jwt E) tok None = Ok j -> ve_members E (jws_payload j) = Some ms -> usable_payload ms) ->
  parse_presentation_vp P o data <> Panic.
Proof.
  intros P o data E HC H1 H2. apply np_parse_vp; [assumption| |].
  - intros d Hd j ms. now apply H1.
  - intros r raws j Hr He Hj d tok jw ms Hd Ht Hjw Hm. eapply (H2 (vr_raw r)); eauto. apply read_ok in Hr as (d' & [[Hx Hr]|[Hx Hr]]).
    + apply vp_json_secured in Hr as (Hs & _). left. eauto.
    + apply cwt_object in Hr as (w & _ & _ & Hb & Hc & Hq & Hm'). right. exists d', (vw_raw w), (vw_msg w), (vw_map w). auto.
Qed.
Definition accept_all : combined :=
  {| cc_jwt := fun _ _ _ _ => Ok tt; cc_ld := fun _ _ _ _ => Ok tt; cc_cwt := fun _ _ _ _ => Ok tt |}.
Definition two_toks : venv := toyV0 [(ex_tok "good", ex_jws "sig:m"); (ex_tok "vp", vp_jws "sig:m")]
    [("P", ex_jwt_members); ("V", ex_vp_members [JStr (ex_tok "good")]); ("{}", [])].
Lemma two_jws t j : de_jws (ve_jwt two_toks) t None = Ok j -> (t = ex_tok "good" /\ j = ex_jws "sig:m") \/ (t = ex_tok "vp" /\ j = vp_jws "sig:m").
Proof.
  cbn [two_toks toyV0 ve_jwt toyD de_jws mget]. destruct (String.eqb_spec t (ex_tok "good")) as [->|]; [intros [= <-]; auto|].
  destruct (String.eqb_spec t (ex_tok "vp")) as [->|]; [intros [= <-]; auto|discriminate].
Qed.
Lemma two_calm co : (co_jwt_check co = Some (cc_jwt accept_all) \/ co_jwt_check co = None) ->
  (co_cwt_check co = Some (cc_cwt accept_all) \/ co_cwt_check co = None) -> (co_ld_check co = Some (cc_ld accept_all) \/ co_ld_check co = None) ->
  co_di co = None -> calm two_toks co.
Proof.
  intros H1 H2 H3 H4. unfold calm, np. split; [intros t; cbn [two_toks toyV0 ve_jwt toyD de_jws]; destruct (mget _ t); discriminate|].
  cbn [ve_schema ve_valid ve_jsonld ve_ldproofs ve_ldmsg ve_related ve_cose two_toks toyV0].
  repeat split; try (intros; discriminate).
  - intros m ps p [= <-] [].
  - intros pc Hp. destruct H1 as [H|H]; rewrite H in Hp; [injection Hp as <-|discriminate]. intros; discriminate.
  - intros pc Hp. destruct H2 as [H|H]; rewrite H in Hp; [injection Hp as <-|discriminate]. intros; discriminate.
  - intros pc Hp. destruct H3 as [H|H]; rewrite H in Hp; [injection Hp as <-|discriminate]. intros; discriminate.
  - intros V HV. rewrite H4 in HV. discriminate.
Qed.
Example C146_example : let P := toyP two_toks in let o := with_check ex_vopts accept_all in let E := pe_v P in let data := ex_tok "vp" in
  vp_calm P o
  /\ (forall d j ms, vp_text E "application/vp-ld+jwt" data d -> de_jws (ve_jwt E) (un_quote d) None = Ok j ->
     ve_members E (jws_payload j) = Some ms \/ de_members (ve_jwt E) (jws_payload j) = Some ms -> usable_vp ms)
  /\ (forall m raws c d tok j ms, may_read E data m -> enclosed m raws -> In c raws -> cred_text E c d -> tokens_of E d tok ->
     de_jws (ve_jwt E) tok None = Ok j -> ve_members E (jws_payload j) = Some ms -> usable_payload ms)
  /\ is_ok (parse_presentation_vp P o data) = true.
Proof.
  cbv zeta. split; [|split; [|split; [|vm_compute; reflexivity]]].
  - unfold vp_calm. split; [apply two_calm; auto|]. split; [apply two_calm; auto|]. split; [intros; discriminate|]. split; [intros; discriminate|].
    split; [intros m ps p [= <-] []|intros V HV; discriminate].
  - intros d j ms Hd Hj Hm. apply two_jws in Hj. assert (d = ex_tok "vp").
    { inversion Hd as [|? ms0 ? ? ? ? H]; subst; [reflexivity|]. vm_compute in H. discriminate. }
    subst d. destruct Hj as [[Hj _]|[_ ->]]; [vm_compute in Hj; discriminate|]. destruct Hm as [Hm|Hm]; [|discriminate]. cbn in Hm. injection Hm as <-.
    split; [exists "iss", "iss"; cbn; tauto|]. split; [eexists "vp", _; split; [cbn; tauto|reflexivity]|].
    intros k Hk. cbn in Hk. repeat destruct Hk as [Hk|Hk]; try discriminate. destruct Hk.
  - intros m raws c d tok j ms Hr He Hc Hd Ht Hj Hm. apply two_jws in Hj as [[_ ->]|[Htok ->]].
    + cbn in Hm. injection Hm as <-. split; [exists "iss", "iss"; cbn; tauto|]. exists "vc". cbn. split; [tauto|]. intuition discriminate.
    + exfalso. (* the only enclosed credential is another token *)
      assert (Hraw : raws = [JStr (ex_tok "good")]).
      { assert (Hself : forall md d0, vp_text two_toks md (ex_tok "vp") d0 -> d0 = ex_tok "vp").
        { intros md d0 H. inversion H as [|? ms0 ? ? ? ? H0]; subst; [reflexivity|]. vm_compute in H0. discriminate. }
        destruct Hr as [(d0 & jwt & Hd0 & Hs)|(d0 & b & q & w & Hd0 & _ & Hx & _)]; [|discriminate]. apply Hself in Hd0. subst d0.
        assert (Hvc : mget m "verifiableCredential" = Some (JArr [JStr (ex_tok "good")])).
        { destruct Hs as [j0 Hq _ Hj0 (cl & Hcl & Hv)|_ H0|_ H0].
          - assert (jwt = ex_tok "vp") by (rewrite Hq; vm_compute; reflexivity). subst jwt. vm_compute in Hj0. injection Hj0 as <-.
            vm_compute in Hcl. injection Hcl as <-. rewrite (Hv "verifiableCredential"). reflexivity.
          - vm_compute in H0. discriminate.
          - vm_compute in H0. discriminate. }
        destruct He as [[A|A]|l A|jj A B _]; rewrite Hvc in A; try discriminate; injection A as <-; [reflexivity|]. now destruct (B [JStr (ex_tok "good")]). }
      subst raws. destruct Hc as [<-|[]]. inversion Hd as [s d1 Hrc|]; subst.
      assert (d = ex_tok "good") by (inversion Hrc as [|? mm ? ? ? ? ? H0]; subst; [reflexivity|vm_compute in H0; discriminate]). subst d.
      destruct Ht as [Ht|Ht]; vm_compute in Ht; discriminate.
Qed.
Print Assumptions C146_no_panic.

(** ** C147  (refuted) ParsePresentation returns on every input.  An unsecured JWT (anyone can write one) without registered
    claims, or with an issuer but no "vp" claim, panics whatever the options. *)
Theorem C147_unsecured_panics_refuted : forall (P : vpenv) (o : vopts) tok j ms c,
  let E := pe_v P in
  ve_members E tok = None -> is_jws (ve_obj E) tok = false -> is_jwt_unsecured (ve_obj E) tok = true -> un_quote tok = tok ->
  de_compact (ve_jwt E) tok = true -> de_jws (ve_jwt E) tok None = Ok j -> check_headers (jws_headers j) = Ok tt ->
  de_members (ve_jwt E) (jws_payload j) = Some ms -> NoDup (map fst ms) -> pres_claims (sorted_members ms) = Ok c ->
  pc_alloc c = false \/ (pc_vp c = None /\ (pc_iss c <> "" \/ pc_jti c <> "")) ->
  parse_presentation_vp P o tok = Panic.
Proof.
  intros P o tok j ms c E Hm Hj Hu Hq Hc Hd Hh Hp Hn Hcl Hb. unfold parse_presentation_vp, read_presentation, vp_enveloped_parser. fold E. rewrite Hm. cbn [or_else].
  unfold vp_json_parser. fold E. rewrite Hq, Hj, Hu. unfold decode_vp_unsecured, jwt_parse, parse_jwt, map_jws. rewrite Hc. cbn [guard bind]. rewrite Hd. cbn [bind].
  rewrite Hh. cbn [bind]. unfold payload_to_map. rewrite Hp.
  assert (Hnd : nodup_str (map fst ms) = true).
  { clear -Hn. induction (map fst ms) as [|x l IH]; [reflexivity|]. inversion Hn as [|? ? H1 H2]; subst. cbn [nodup_str]. rewrite IH by assumption.
    apply str_in_nIn in H1. now rewrite H1. }
  rewrite Hnd. cbn [rmap bind guard fst tk_payload]. rewrite Hcl. cbn [bind].
  assert (Hr : pres_refine c = Panic).
  { unfold pres_refine. destruct Hb as [->|[Hv Hb]]; [reflexivity|]. destruct (pc_alloc c); [|reflexivity]. cbn [negb]. rewrite Hv.
    destruct (String.eqb_spec (pc_iss c) "") as [E1|]; [|reflexivity]. cbn [bind]. destruct (String.eqb_spec (pc_jti c) "") as [E2|]; [|reflexivity].
    destruct Hb; contradiction. }
  rewrite Hr. reflexivity.
Qed.
(** two payloads: {} and {"iss":"x"} *)
Definition un_jws : jws := {| jws_headers := [("alg", JStr "none")]; jws_payload := "U"; jws_input := ""; jws_sig := "" |}.
Definition un_P (ms : list (string * json)) : vpenv := toyP {|
  ve_time := toyT; ve_jwt := {| de_compact := fun s => String.eqb s us_tok; de_jws := fun s _ => if String.eqb s us_tok then Ok un_jws else Err "x";
     de_members := fun _ => Some ms; de_gstr := fun _ => "" |};
  ve_members := fun s => if String.eqb s "{}" then Some [] else None; ve_obj := fun s => String.eqb s "{}"; ve_sd := toySd;
  ve_order := fun m => map fst m; ve_cose := fun _ => None; ve_hex := fun _ => None; ve_cbor := fun _ => None;
  ve_schema := fun _ => Err "x"; ve_valid := fun _ _ => Ok tt; ve_jsonld := fun _ _ _ => Ok tt;
  ve_ext := fun _ l => JArr (map JStr l); ve_ldproofs := fun _ => Ok []; ve_ldmsg := fun _ _ => Ok "";
  ve_di := toyE; ve_now := toy_now; ve_related := fun _ => Ok tt |}.
Example C147_example : (forall o, parse_presentation_vp (un_P []) o us_tok = Panic) /\ (forall o, parse_presentation_vp (un_P [("iss", JStr "x")]) o us_tok = Panic)
  /\ parse_presentation_vp (un_P [("iss", JStr "x"); ("vp", JObj [])]) ex_vopts us_tok <> Panic.
Proof.
  assert (Hu : forall ms, un_quote us_tok = us_tok /\ is_jws (ve_obj (pe_v (un_P ms))) us_tok = false /\ is_jwt_unsecured (ve_obj (pe_v (un_P ms))) us_tok = true).
  { intros ms. split; [vm_compute; reflexivity|]. split; vm_compute; reflexivity. }
  split; [|split]; [intros o..|].
  - destruct (Hu []) as (H1 & H2 & H3). eapply C147_unsecured_panics_refuted with (ms := []); eauto; try reflexivity; [constructor|now left].
  - destruct (Hu [("iss", JStr "x")]) as (H1 & H2 & H3). eapply C147_unsecured_panics_refuted with (ms := [("iss", JStr "x")]); eauto; try reflexivity; [nodup_keys|].
    right. split; [reflexivity|]. left. discriminate.
  - vm_compute. discriminate.
Qed.
Print Assumptions C147_unsecured_panics_refuted.

(** ** C148  (refuted) The proof of a JSON presentation covers every member returned: a member called "jwt" is taken out
    before the check, so it can be added to, changed in or removed from a signed presentation. *)
Definition di_vp : gomap json :=
  match signed "did:a#k" "ecdsa-2019" "" 7 99 (JObj ex_vp_bare) with JObj m => m | _ => [] end.
Definition di_vp_jwt : gomap json := Eval vm_compute in (di_vp ++ [("jwt", JStr "added")])%list.
Definition di_P : vpenv := toyP (toyV0 [] [("{}", di_vp_jwt)]).
Definition di_vopts : vopts :=
  {| vo_check := None; vo_no_proof := false; vo_strict := false; vo_require_vc := false; vo_require_proof := true;
     vo_no_jsonld := false; vo_di := Some toyV; vo_purpose := ""; vo_domain := ""; vo_challenge := ""; vo_holder := true; vo_related := true |}.
Definition di_parsed : res presentation := Eval vm_compute in parse_presentation_vp di_P di_vopts "{}".
Lemma di_parsed_eq : parse_presentation_vp di_P di_vopts "{}" = di_parsed.
Proof. vm_cast_no_check (eq_refl di_parsed). Qed.
Theorem C148_every_member_covered_refuted : ~ forall (P : vpenv) (o : vopts) V (data : string) (p : presentation) m,
  parse_presentation_vp P o data = Ok p -> vo_no_proof o = false -> vo_check o = None -> vo_di o = Some V ->
  parse_json (pe_v P) data = Some m ->
  snd (verify_proof (ve_di (pe_v P)) V (ve_now (pe_v P)) (JObj m) (di_opts (embedded_opts o))) = Ok tt.
Proof.
  intros H. pose proof di_parsed_eq as E. unfold di_parsed in E.
  match type of E with _ = Ok ?q => pose (p := q); change (parse_presentation_vp di_P di_vopts "{}" = Ok p) in E end.
  specialize (H di_P di_vopts toyV "{}" p di_vp_jwt E eq_refl eq_refl eq_refl eq_refl). vm_compute in H. discriminate H.
Qed.
Example C148_example : exists p, parse_presentation_vp di_P di_vopts "{}" = Ok p /\ mget (pr_custom p) "jwt" = Some (JStr "added").
Proof. rewrite di_parsed_eq. eexists; split; [reflexivity|reflexivity]. Qed.
(** in general: the check does not look at the member *)
Theorem C148_jwt_member_ignored_refuted : forall (E : venv) (o : vopts) (m m' : gomap json),
  mdel m "jwt" = mdel m' "jwt" -> check_pres_embedded E o m = check_pres_embedded E o m'.
Proof. intros E o m m' H. unfold check_pres_embedded. now rewrite H. Qed.
Print Assumptions C148_every_member_covered_refuted.
Print Assumptions C148_jwt_member_ignored_refuted.

(** ** C149  (refuted) An expired JWT presentation is refused: the exp claim is not looked at. *)
Definition late_P : vpenv := toyP (with_now (pe_v ex_P) (of_unix 4000000000)).
Definition late_parsed : res presentation := Eval vm_compute in parse_presentation_vp late_P ex_vopts (ex_tok "vp").
Lemma late_parsed_eq : parse_presentation_vp late_P ex_vopts (ex_tok "vp") = late_parsed.
Proof. vm_cast_no_check (eq_refl late_parsed). Qed.
Theorem C149_expired_refused_refuted : ~ forall (P : vpenv) (o : vopts) (data : string) (p : presentation) j ms e,
  parse_presentation_vp P o data = Ok p -> vo_no_proof o = false ->
  de_jws (ve_jwt (pe_v P)) (pr_jwt p) None = Ok j -> ve_members (pe_v P) (jws_payload j) = Some ms ->
  mget ms "exp" = Some (jnum e) -> unix (ve_now (pe_v P)) <= e.
Proof.
  intros H. pose proof late_parsed_eq as E. unfold late_parsed in E.
  match type of E with _ = Ok ?q => pose (p := q); change (parse_presentation_vp late_P ex_vopts (ex_tok "vp") = Ok p) in E end.
  specialize (H late_P ex_vopts (ex_tok "vp") p (vp_jws "sig:m") (ex_vp_members [JStr (ex_tok "good")]) 1 E eq_refl eq_refl eq_refl eq_refl).
  vm_compute in H. now apply H.
Qed.
Print Assumptions C149_expired_refused_refuted.
