(** Presentations: absence of panics. *)
From Coq Require Import Permutation.
From Verif Require Import GoBase Base64 StrLemmas JwtSpec DiSpec VcSpec JwtModel JwtProofs SdSpec SdModel SdParse DiModel PexModel PexMerge VcModel
  VcJwt VcParse VcProofs VcView VcText VcMod VcSecure VcJwtProofs VcPanic VcSign VcSignProofs VpModel VpProofs.

(** a payload with a registered claim (in any case) and a "vp" claim that is an object *)
Definition usable_vp (ms : gomap json) : Prop :=
  (exists r k, In r registered /\ In k (map fst ms) /\ equal_fold r k = true)
  /\ (exists k o, In (k, JObj o) ms /\ equal_fold "vp" k = true)
  /\ (forall k, In (k, JNull) ms -> equal_fold "vp" k = false).
Lemma np_pres_claims ms : np (pres_claims ms).
Proof. unfold pres_claims. np; try apply np_fold; intros; unfold str_step, aud_step, date_step, map_step; np. Qed.
Lemma occ_in k v ms : In v (occurrences k ms) <-> exists k', In (k', v) ms /\ equal_fold k k' = true.
Proof.
  unfold occurrences. rewrite in_map_iff. split.
  - intros ((k' & v') & Hv & H). cbn in Hv. subst v'. apply filter_In in H as [H1 H2]. eauto.
  - intros (k' & H1 & H2). exists (k', v). split; [reflexivity|]. apply filter_In. auto.
Qed.
Lemma map_fold_some l : forall a m, fold_res map_step l a = Ok m -> ~ In JNull l -> (a <> None \/ exists o, In (JObj o) l) -> m <> None.
Proof.
  assert (F : forall l r, (forall a, r <> Ok a) -> forall m, fold_left (fun acc j => let* x := acc in map_step x j) l r <> Ok m).
  { clear l. intros l. induction l as [|j l' IH]; cbn [fold_left]; intros r Hr m; [intros G; now apply (Hr m)|]. apply IH. intros a0. destruct r; try discriminate. now destruct (Hr a). }
  unfold fold_res. induction l as [|j l IH]; cbn [fold_left]; intros a m H Hn Ha.
  - injection H as <-. destruct Ha as [Ha|(o & [])]; assumption.
  - cbn [bind] in H. destruct (map_step a j) as [x| |] eqn:Ex; [|exfalso; eapply F; [|exact H]; discriminate..].
    apply (IH x m H); [intros G; apply Hn; now right|]. destruct j; try discriminate; cbn in Ex.
    + exfalso. apply Hn. now left.
    + injection Ex as <-. left. discriminate.
Qed.
Lemma usable_vp_claims ms c : usable_vp ms -> pres_claims ms = Ok c -> pc_alloc c = true /\ pc_vp c <> None.
Proof.
  intros ((r & k & Hr & Hk & He) & (k' & ob & Hin & He') & Hnn) H. unfold pres_claims in H. do 7 (apply bind_ok in H as (? & _ & H)).
  apply bind_ok in H as (vp & Hvp & H). injection H as <-. cbn [pc_alloc pc_vp]. split.
  - apply (proj2 (existsb_exists (fun k => match occurrences k ms with [] => false | _ => true end) registered)). exists r. split; [assumption|].
    apply in_map_iff in Hk as ((k0 & v) & Hkk & Hi). cbn in Hkk. subst k0.
    assert (Ho : In v (occurrences r ms)) by (apply occ_in; eauto). now destruct (occurrences r ms).
  - eapply map_fold_some; [exact Hvp| |].
    + intros G. apply occ_in in G as (k0 & G1 & G2). apply Hnn in G1. congruence.
    + right. exists ob. apply occ_in. eauto.
Qed.
Lemma np_pres_refine c : pc_alloc c = true -> pc_vp c <> None -> np (pres_refine c).
Proof.
  intros Ha Hv. unfold pres_refine. rewrite Ha. cbn [negb]. destruct (pc_vp c); [|contradiction].
  destruct (String.eqb (pc_iss c) ""), (String.eqb (pc_jti c) ""); cbn; np.
Qed.
Lemma sorted_in m k v : NoDup (map fst m) -> (In (k, v) (sorted_members m) <-> In (k, v) m).
Proof.
  intros Hn. unfold sorted_members. rewrite in_flat_map. split.
  - intros (x & Hx & H). destruct (mget m x) as [y|] eqn:Ey; [|destruct H]. destruct H as [[= <- <-]|[]]. now apply mget_In.
  - intros H. exists k. split; [apply sort_strings_In; change k with (fst (k, v)); now apply in_map|].
    assert (E : mget m k = Some v).
    { clear -Hn H. induction m as [|[k0 v0] m IH]; [destruct H|]. cbn [map fst] in Hn. inversion Hn as [|? ? Hk Hn']; subst. cbn [mget].
      destruct H as [[= -> ->]|H]; [now rewrite String.eqb_refl|]. destruct (String.eqb_spec k k0) as [->|]; [|auto].
      exfalso. apply Hk. change k0 with (fst (k0, v)). now apply in_map. }
    rewrite E. now left.
Qed.
Lemma usable_sorted m : NoDup (map fst m) -> usable_vp m -> usable_vp (sorted_members m).
Proof.
  intros Hn ((r & k & Hr & Hk & He) & (k' & ob & Hin & He') & Hnn). repeat split.
  - exists r, k. repeat split; try assumption. apply in_map_iff in Hk as ((k0 & v) & <- & Hi). cbn [fst] in *. change k0 with (fst (k0, v)).
    apply in_map. now apply sorted_in.
  - exists k', ob. split; [|assumption]. now apply sorted_in.
  - intros k0 Hi. apply Hnn. now apply (sorted_in m k0 JNull Hn).
Qed.
Lemma nodup_str_NoDup l : nodup_str l = true -> NoDup l.
Proof.
  induction l as [|x l IH]; cbn [nodup_str]; intros H; [constructor|]. apply andb_true_iff in H as [H1 H2]. constructor; [|auto].
  apply negb_true_iff, str_in_nIn in H1. exact H1.
Qed.

(** the libraries and checkers do not panic *)
Definition vp_calm (P : vpenv) (o : vopts) : Prop :=
  calm (pe_v P) (cred_opts o false) /\ calm (pe_v P) (cred_opts o true)
  /\ (forall b m, np (pe_valid P b m)) /\ (forall b m, np (pe_jsonld P b m))
  /\ (forall m ps p, ve_ldproofs (pe_v P) m = Ok ps -> In p ps -> np (lp_pkid p))
  /\ (forall V, vo_di o = Some V -> forall j, np (snd (verify_proof (ve_di (pe_v P)) V (ve_now (pe_v P)) j (di_opts (embedded_opts o))))).
(** texts of enclosed credentials: of a string, or of the data URL in an enveloping object *)
Inductive cred_text (E : venv) : json -> string -> Prop :=
| ct_str s d : reaches E s d -> cred_text E (JStr s) d
| ct_env m id media enc d : mget m "id" = Some (JStr id) -> parse_data_url id = Ok (media, enc, d) -> cred_text E (JObj m) d.
Section Calm.
  Context (P : vpenv) (o : vopts) (HC : vp_calm P o).
  Let E := pe_v P.
  Lemma np_decode_vp_jws tok chk : (chk = None \/ chk = option_map cc_jwt (vo_check o)) ->
    (forall j ms, de_jws (ve_jwt E) tok None = Ok j -> ve_members E (jws_payload j) = Some ms -> usable_vp ms) -> np (decode_vp_jws E tok chk).
  Proof.
    intros Hk Hu. destruct HC as (HA & _). pose proof HA as (H0 & _ & _ & _ & _ & _ & _ & _ & _ & Hpc & _). unfold decode_vp_jws. apply np_bind.
    - unfold jwt_parse, parse_jwt, map_jws. np; try apply H0. apply np_check_headers.
    - intros [t p] Hp. apply jwt_parse_jws in Hp as (j & Hj & -> & _). cbn [snd]. unfold pres_claims_of.
      destruct (ve_members E (jws_payload j)) as [ms|] eqn:Em; cbn [bind]; [|apply np_err]. apply np_bind; [apply np_pres_claims|]. intros c Hc.
      destruct (usable_vp_claims ms c (Hu j ms Hj Em) Hc). apply np_bind; [|intros; apply np_rmap; now apply np_pres_refine].
      destruct chk as [pc|]; [|apply np_ok]. unfold check_proof, jose_verify. np; try apply H0. apply Hpc. destruct Hk as [|Hk]; [discriminate|]. symmetry. exact Hk.
  Qed.
  Lemma np_decode_vp_unsecured tok :
    (forall j ms, de_jws (ve_jwt E) tok None = Ok j -> de_members (ve_jwt E) (jws_payload j) = Some ms -> usable_vp ms) -> np (decode_vp_unsecured E tok).
  Proof.
    intros Hu. destruct HC as (HA & _). pose proof HA as (H0 & _). unfold decode_vp_unsecured. apply np_bind.
    - unfold jwt_parse, parse_jwt, map_jws. np; try apply H0; try apply np_check_headers. unfold payload_to_map. np.
    - intros [t p] Hp. apply jwt_parse_jws in Hp as (j & Hj & -> & _ & Hm). cbn [fst]. destruct (Hm eq_refl) as (m & -> & Hpm).
      unfold payload_to_map in Hpm. destruct (de_members (ve_jwt E) (jws_payload j)) as [ms|] eqn:Em; [|discriminate].
      destruct (nodup_str (map fst ms)) eqn:En; [|discriminate]. injection Hpm as <-. apply nodup_str_NoDup in En.
      apply np_bind; [apply np_pres_claims|]. intros c Hc. apply np_rmap. destruct (usable_vp_claims _ c (usable_sorted ms En (Hu j ms Hj Em)) Hc). now apply np_pres_refine.
  Qed.
  Lemma np_check_pres m : np (check_pres_embedded E o m).
  Proof.
    destruct HC as (HA & _ & _ & _ & Hpk & Hdi). pose proof HA as (_ & _ & _ & _ & H4 & H5 & _ & H6 & _ & _ & _ & H10 & _). unfold check_pres_embedded.
    destruct (vo_no_proof o); [apply np_ok|]. apply np_bind; [|intros; apply np_ok]. unfold check_embedded. destruct (fld _ _) as [pj|]; [|apply np_err].
    apply np_bind; [apply np_getproofs|]. intros ps _. destruct (is_di ps).
    - unfold check_di. cbn [embedded_opts co_di co_external]. destruct (vo_di o) as [V|] eqn:EV; np; now apply Hdi.
    - cbn [embedded_opts co_ld_check co_external]. destruct (vo_check o) as [cc|] eqn:Ep; [|apply np_err]. cbn [option_map]. apply np_bind; [apply H4|]. intros l Hl.
      apply np_bind; [|intros; apply np_ok].
      assert (Hsig : forall p, In p l -> np (lp_sig p)) by (intros; eapply H6; eassumption).
      assert (Hid : forall p, In p l -> np (lp_pkid p)) by (intros; eapply Hpk; eassumption). clear Hl.
      induction l as [|p l IH]; cbn [verify_ld]; [apply np_ok|]. apply np_bind; [apply H5|]. intros ? _.
      apply np_bind; [apply Hsig; now left|]. intros ? _. apply np_bind.
      + specialize (Hid p (or_introl eq_refl)). destruct (lp_pkid p); [apply np_ok|apply np_err|now destruct Hid].
      + intros ? _. apply np_bind; [apply H10; cbn; now rewrite Ep|]. intros ? _. apply IH; intros; [apply Hsig|apply Hid]; now right.
  Qed.
  Definition vp_tokens_usable (d : string) : Prop :=
    forall j ms, de_jws (ve_jwt E) (un_quote d) None = Ok j ->
      ve_members E (jws_payload j) = Some ms \/ de_members (ve_jwt E) (jws_payload j) = Some ms -> usable_vp ms.
  Lemma np_vp_json d : vp_tokens_usable d -> np (vp_json_parser P o d).
  Proof.
    intros Hu. unfold vp_json_parser. destruct (is_jws _ _).
    - apply np_bind; [apply np_guard|]. intros _ _. apply np_bind; [|intros; apply np_ok]. apply np_decode_vp_jws; [destruct (vo_no_proof o); auto|]. intros j ms Hj Hm. eapply Hu; eauto.
    - destruct (is_jwt_unsecured _ _).
      + apply np_bind; [apply np_decode_vp_unsecured; intros j ms Hj Hm; eapply Hu; eauto|]. intros m _. apply np_bind; [apply np_check_pres|]. intros; apply np_ok.
      + destruct (parse_json _ _); [|apply np_err]. apply np_bind; [apply np_check_pres|]. intros _ _. np.
  Qed.
  Lemma np_vp_cwt d : np (vp_cwt_parser P d).
  Proof. unfold vp_cwt_parser. np. Qed.
  Lemma np_strs a j : np (strs_step a j).
  Proof. unfold strs_step. destruct j; np. apply np_map_res. intros x. np. Qed.
  Lemma np_read d : (forall d', vp_text E vp_media_jwt d d' -> vp_tokens_usable d') -> np (read_presentation P o d).
  Proof.
    intros Hu. assert (He : np (vp_enveloped_parser P o d)).
    { unfold vp_enveloped_parser. fold E. destruct (ve_members E d) as [ms|] eqn:Em; [|apply np_err].
      apply np_bind; [apply np_fold; intros; unfold str_step; np|]. intros id Hid. apply np_bind; [apply np_fold, np_strs|]. intros ts Hts.
      apply np_bind; [apply np_fold, np_strs|]. intros _ _. apply np_bind; [apply np_guard|]. intros u Hg.
      apply np_bind; [unfold parse_data_url; np|]. intros [[media enc] d'] Hd'. destruct (String.eqb_spec media vp_media_jwt) as [->|]; [|np; apply np_vp_cwt].
      apply np_vp_json, Hu. eapply vt_env; eauto. apply str_in_In. unfold vp_enveloped_type in Hg. now destruct (str_in _ ts). }
    unfold read_presentation, or_else. destruct (vp_enveloped_parser P o d); [apply np_ok| |now destruct He].
    assert (Hj : np (vp_json_parser P o d)) by (apply np_vp_json, Hu; constructor).
    destruct (vp_json_parser P o d); [apply np_ok|apply np_vp_cwt|now destruct Hj].
  Qed.
  Definition cred_tokens_usable (j : json) : Prop :=
    forall d tok jw ms, cred_text E j d -> tokens_of E d tok -> de_jws (ve_jwt E) tok None = Ok jw -> ve_members E (jws_payload jw) = Some ms -> usable_payload ms.
  Lemma np_decode_one j : cred_tokens_usable j -> np (decode_one E o j).
  Proof.
    destruct HC as (HA & HB & _). intros Hu. destruct j as [| | |s| |m]; cbn [decode_one]; try apply np_err.
    - apply np_parse_credential; [exact HA|discriminate|]. intros d Hr tok jw ms Ht Hj Hm. eapply Hu; eauto. now constructor.
    - unfold parse_credential_json. apply np_bind; [apply np_dtype|]. intros ts _. destruct (str_in _ ts).
      + destruct (mget m "id") as [[| | |u| |]|] eqn:Eu; try apply np_err. apply np_bind; [|intros r _; destruct r; np].
        pose proof (np_parse_url u) as Hpu. destruct (parse_data_url u) as [[[me en] d']| |] eqn:Ep.
        * apply (np_data_url E (cred_opts o true) HB ltac:(discriminate) u d'); [now rewrite Ep|congruence|]. intros tok jw ms Ht Hj Hm. eapply Hu; eauto. econstructor; eauto.
        * unfold parse_data_url_cred. rewrite Ep. apply np_err.
        * now destruct Hpu.
      + apply np_bind; [apply np_ldproof|]. intros ps _. apply np_bind; [apply np_contents|]. intros c _. apply np_bind; [apply np_ok|]. intros; apply np_ok.
  Qed.
  Lemma np_map_res_in {A B} (f : A -> res B) l : (forall x, In x l -> np (f x)) -> np (map_res f l).
  Proof. induction l; cbn [map_res]; intros H; np; [apply H; now left|apply IHl; intros; apply H; now right]. Qed.
  Lemma np_new m : (forall raws j, enclosed m raws -> In j raws -> cred_tokens_usable j) -> np (new_presentation E o m).
  Proof.
    intros Hu. unfold new_presentation. apply np_bind; [apply np_dtype|]. intros ts _. apply np_bind; [apply np_ctx|]. intros cx _. apply np_bind.
    - unfold decode_credentials. destruct (fld m "verifiableCredential") as [j|] eqn:Ef; [|apply np_ok]. pose proof (fld_some _ _ _ Ef) as Hm.
      destruct j; try (apply np_rmap, np_decode_one; apply (Hu _ _ (enc_one m _ Hm ltac:(discriminate) ltac:(discriminate))); now left).
      + now (unfold fld in Ef; rewrite Hm in Ef).
      + apply np_map_res_in. intros x Hx. apply np_decode_one. eapply Hu; [|exact Hx]. now apply enc_many.
    - intros cs _. apply np_bind; [apply np_ldproof|]. intros ps _. apply np_bind; [apply np_str|]. intros id _. apply np_bind; [unfold decode_holder; np; apply np_str|].
      intros h _. apply np_bind; [|intros; apply np_ok]. unfold execute_checks, validate_holder. destruct HC as ((_ & _ & _ & _ & _ & _ & Hr & _) & _). np.
  Qed.
  Lemma np_parse_vp d : (forall d', vp_text E vp_media_jwt d d' -> vp_tokens_usable d') ->
    (forall r raws j, read_presentation P o d = Ok r -> enclosed (vr_raw r) raws -> In j raws -> cred_tokens_usable j) ->
    np (parse_presentation_vp P o d).
  Proof.
    intros Hu Hc. unfold parse_presentation_vp. apply np_bind; [now apply np_read|]. intros r Hr. apply np_bind.
    - destruct HC as (_ & _ & H1 & H2 & _). unfold validate_vp. apply np_bind; [|intros; np; auto]. unfold get_base_context_raw, get_base_context. np.
    - intros _ _. apply np_bind; [apply np_new; intros; eapply Hc; eauto|]. intros q _. np.
  Qed.
End Calm.
