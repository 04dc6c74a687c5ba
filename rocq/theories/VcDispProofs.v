(** Lemmas about displaying SD-JWT credentials. *)
From Verif Require Import GoBase Base64 StrLemmas JwtSpec DiSpec VcSpec JwtModel SdSpec SdModel SdProofs SdRun SdOrder SdSubset SdParse SdParseProofs
  SdIssueModel DiModel VcModel VcJwt VcParse VcProofs VcView VcText VcSign VcSignProofs VcSd VcSdProofs DispSpec.

(** ** The map of digests *)
Lemma digest_map_list E h ds : NoDup (map (fun d => get_hash E h (dc_str d)) ds) ->
  digest_map E h ds = map (fun d => (get_hash E h (dc_str d), d)) ds.
Proof.
  unfold digest_map. intros N.
  assert (G : forall acc, NoDup (map fst acc ++ map (fun d => get_hash E h (dc_str d)) ds)%list ->
    fold_left (fun m d => mset m (get_hash E h (dc_str d)) d) ds acc = (acc ++ map (fun d => (get_hash E h (dc_str d), d)) ds)%list).
  { clear N. induction ds as [|d ds IH]; intros acc N; cbn [fold_left map]; [now rewrite app_nil_r|].
    cbn [map] in N. rewrite VcProofs.mset_new.
    - rewrite IH; [now rewrite <- app_assoc|]. rewrite map_app. cbn [map fst]. now rewrite <- app_assoc.
    - intros Hi. apply NoDup_remove_2 in N. apply N. apply in_app_iff. now left. }
  now rewrite (G []).
Qed.
Lemma mget_hash_list E h ds d c : NoDup (map (fun d => get_hash E h (dc_str d)) ds) ->
  (mget (map (fun d => (get_hash E h (dc_str d), d)) ds) d = Some c <-> In c ds /\ get_hash E h (dc_str c) = d).
Proof.
  intros N. split.
  - intros H. apply mget_In in H. apply in_map_iff in H as (x & [= <- <-] & Hi). auto.
  - intros [Hi <-]. apply mget_In_nodup; [rewrite map_map; cbn [fst]; assumption|].
    apply in_map_iff. exists c. auto.
Qed.

(** ** The disclosures kept with a parsed credential *)
Lemma claims_full E h ds payload order m : wf_env E -> wf_json (JObj payload) -> visits_all order ->
  verify_disclosures E ds payload = Ok tt -> get_crypto_hash payload = Ok h -> get_disclosure_claims E h ds order = Ok m ->
  (forall k, Dof E h ds k = None <-> ~ In k (map fst m)) /\
  forall k c, In (k, c) m -> dc_parsed c = true /\ exists c0, Dof E h ds k = Some c0 /\ content_name c0 = dc_name c /\ resolved_content (Dof E h ds) c0 (content c).
Proof.
  intros HE Hp Hord Hv Hh Hg.
  destruct (claims_sources E h ds payload order m HE Hp Hord Hv Hh Hg) as (N & _).
  apply verify_disclosures_iff in Hv as (h' & Hh' & Hall & out0 & dl & R & Nd & Hin); [|assumption|assumption].
  assert (h' = h) by congruence. subst h'.
  destruct (disclosure_map_total E h ds Hall) as (m0 & Hm).
  pose proof (get_disclosure_map_spec E h ds []) as S. rewrite Hm in S.
  destruct S as (S1 & S2 & S3 & S4 & S5 & _ & S7).
  assert (Hr : raws m0) by (apply S4; intros x c' Hk; discriminate).
  assert (Hcof : forall d, cof m0 d = Dof E h ds d).
  { intros d. rewrite S2. unfold cof. simpl. now destruct (Dof E h ds d). }
  assert (Hwf : wf_raws m0).
  { intros x c' Hk. specialize (Hcof x). unfold cof in Hcof. rewrite Hk in Hcof. simpl in Hcof. symmetry in Hcof.
    apply Dof_In in Hcof as (s & _ & _ & Hs). apply dsp_wf in Hs; [|assumption].
    rewrite content_value in Hs; eauto. }
  assert (R' : Res false (cof m0) (JObj payload) out0 dl) by (eapply Res_D_ext; [|exact R]; auto).
  assert (Hkeys : forall x, In x (map fst m0) -> In x dl).
  { intros x Hk. apply S7 in Hk as [[]|(s & Hs & ->)]. auto. }
  destruct (claims_after_verify m0 (JObj payload) out0 dl Hr Hwf R' Nd Hkeys (order m0) (Hord m0)) as (st' & Hset & Hk & Hval & _).
  unfold get_disclosure_claims in Hg. rewrite Hm in Hg. simpl in Hg. unfold fuel0, st0 in Hset. rewrite Hset in Hg. simpl in Hg. injection Hg as <-.
  split.
  - intros k. rewrite Hk, <- Hcof. unfold cof. destruct (mget m0 k) as [c|] eqn:Gk; cbn [option_map].
    + split; [discriminate|]. intros H. exfalso. apply H. apply mget_In in Gk. exact (in_map fst _ _ Gk).
    + apply mget_None in Gk. tauto.
  - intros k c Hi. pose proof (mget_In_nodup _ _ _ N Hi) as Gc. destruct (mget m0 k) as [c0|] eqn:Gk.
    2:{ exfalso. apply mget_None in Gk. apply Gk. rewrite <- Hk. exact (in_map fst _ _ Hi). }
    destruct (Hval _ _ Gk) as (c2 & Hc2 & Hres). rewrite Gc in Hc2. injection Hc2 as <-.
    destruct Hres as (E1 & E2 & E3 & E4 & ds' & Rv). split; [assumption|].
    destruct (get_disclosure_map_str E h ds m0 Hm k c0 Gk) as (_ & _ & _ & Kn).
    exists (content c0). split; [rewrite <- Hcof; unfold cof; now rewrite Gk|]. split.
    + rewrite E3. destruct (content c0); cbn [content_name]; congruence.
    + assert (Rv' : Res true (Dof E h ds) (dc_value c0) (dc_value c) ds') by (eapply Res_D_ext; [|exact Rv]; exact Hcof).
      unfold content. rewrite E2, E3. destruct (Nat.eqb (dc_elems c0) 2); [cbn; eauto|].
      destruct (Nat.eqb (dc_elems c0) 3); cbn; eauto.
Qed.

(** ** Showing fewer disclosures *)
Section Show.
Variables (D V : string -> option dcontent).
Hypothesis HV : forall d c, V d = Some c -> exists c0, D d = Some c0 /\ content_name c0 = content_name c /\ resolved_content D c0 c.
Definition Lof (d : string) : option (bool * dcontent) := option_map (pair true) (V d).
Lemma Res_show :
  (forall j out ds, Res true D j out ds -> exists out' ds', W true Lof j out' ds' /\ subcount ds' ds) /\
  (forall l out ds, Elems true D l out ds -> exists out' ds', WE true Lof l out' ds' /\ subcount ds' ds) /\
  (forall l out hid ds, Named true D l out hid ds -> exists out' hid' ds', WN true Lof l out' hid' ds' /\ subcount ds' ds
     /\ incl (map fst out') (map fst out) /\ (NoDup (map fst out) -> NoDup (map fst out'))) /\
  (forall m out ds, Members true D m out ds -> exists out' ds', WM true Lof m out' ds' /\ subcount ds' ds).
Proof.
  assert (Hz : forall a, subcount [] a) by (intros a x; simpl; lia).
  assert (Hc : forall d a b, subcount a b -> subcount (d :: a) (d :: b)) by (intros; now apply subcount_cons).
  assert (Hr : forall a b c, subcount a c -> subcount a (b ++ c)%list).
  { intros a b c H. change a with ([] ++ a)%list. apply subcount_app; auto. }
  apply Res_mutind; intros.
  - exists j, []. split; [now constructor|auto].
  - destruct H as (o & d & H & S). exists (arr_or_null o), d. split; [now constructor|assumption].
  - destruct H as (o1 & h1 & d1 & H & S1 & I1 & N1), H0 as (o2 & d2 & H0 & S2).
    eexists _, (d1 ++ d2)%list. split; [|now apply subcount_app].
    eapply W_obj; eauto. intros k Hk Hp Hi. apply I1 in Hi. eapply n1; eauto.
  - exists [], []. split; [constructor|auto].
  - destruct H as (o & d & H & S). exists (v :: o), d. split; [now constructor|assumption].
  - destruct H as (o & d' & H & S). exists o, (d :: d'). split; [|auto].
    apply (WE_hidden true Lof v d l o d'); auto. unfold Lof. destruct (V d) as [c|] eqn:Ev; [|reflexivity].
    apply HV in Ev as (c0 & Hc0 & _). congruence.
  - destruct H0 as (o & d' & H0 & S). destruct (V d) as [c|] eqn:Ev.
    + pose proof Ev as Ev'. apply HV in Ev' as (c0 & Hc0 & _ & Hrc). rewrite e0 in Hc0. injection Hc0 as <-. destruct c as [y| |]; try contradiction.
      exists (y :: o), (d :: [] ++ d')%list. split; [|cbn [app]; apply Hc; now apply Hr].
      eapply WE_disc; eauto; [unfold Lof; rewrite Ev; reflexivity|constructor].
    + exists o, (d :: d'). split; [|apply Hc; now apply Hr]. apply (WE_hidden true Lof v d l o d'); auto. unfold Lof. now rewrite Ev.
  - exists [], [], []. split; [constructor|]. split; [auto|]. split; [apply incl_refl|auto].
  - destruct H as (o & h & d' & H & S & I & N). exists o, (d :: h), (d :: d'). split; [|auto].
    apply WN_hidden; auto. unfold Lof. destruct (V d) as [c|] eqn:Ev; [|reflexivity]. apply HV in Ev as (c0 & Hc0 & _). congruence.
  - destruct H0 as (o & h & d' & H0 & S & I & N). destruct (V d) as [c|] eqn:Ev.
    + pose proof Ev as Ev'. apply HV in Ev' as (c0 & Hc0 & _ & Hrc). rewrite e in Hc0. injection Hc0 as <-. destruct c as [|n' y|]; try contradiction.
      destruct Hrc as [<- _].
      exists ((n, y) :: o), h, (d :: [] ++ d')%list. split; [|split; [cbn [app]; apply Hc; now apply Hr|]].
      * eapply WN_disc; eauto; [unfold Lof; rewrite Ev; reflexivity|constructor].
      * cbn [map fst]. split; [intros x0 [<-|Hx]; [now left|right; auto]|]. intros Nn. inversion Nn; subst. constructor; [|auto]. intros Hx. apply I in Hx. contradiction.
    + exists o, (d :: h), (d :: d'). split; [|split; [apply Hc; now apply Hr|]].
      * apply WN_hidden; auto. unfold Lof. now rewrite Ev.
      * cbn [map fst]. split; [intros x0 Hx; right; auto|]. intros Nn. inversion Nn; subst. auto.
  - exists [], []. split; [constructor|auto].
  - destruct H as (o & d & H & S). exists o, d. split; [now apply WM_skip|assumption].
  - destruct H as (v1 & d1 & H & S1), H0 as (o & d2 & H0 & S2). eexists _, (d1 ++ d2)%list. split; [|now apply subcount_app].
    apply WM_keep; eauto.
Qed.
Lemma W_Put :
  (forall j out ds, W true Lof j out ds -> Put V j out) /\
  (forall l out ds, WE true Lof l out ds -> PutElems V l out) /\
  (forall l out hid ds, WN true Lof l out hid ds -> PutNamed V l out) /\
  (forall m out ds, WM true Lof m out ds -> PutMembers V m out) /\
  (forall p x x' ds, WV true Lof p x x' ds -> p = true -> x' = x).
Proof.
  apply W_mutind; intros; try (constructor; auto; fail); try discriminate; auto.
  - econstructor; eauto.
  - eapply PE_hidden; eauto. unfold Lof in e0. destruct (V d); [discriminate|reflexivity].
  - unfold Lof in e0. destruct (V d) as [c|] eqn:Ev; [|discriminate]. cbn [option_map] in e0. injection e0 as <- ->.
    rewrite (H eq_refl). eapply PE_shown; eauto.
  - apply PN_hidden; auto. unfold Lof in e. destruct (V d); [discriminate|reflexivity].
  - unfold Lof in e. destruct (V d) as [c|] eqn:Ev; [|discriminate]. cbn [option_map] in e. injection e as <- ->.
    rewrite (H eq_refl). eapply PN_shown; eauto.
Qed.
End Show.

(** ** Pruning *)
Lemma clear_empty_obj m : exists m', clear_empty (JObj m) = JObj m' /\ Pruned m m'.
Proof.
  set (P := fun j => match j with JObj m => exists m', clear_empty (JObj m) = JObj m' /\ Pruned m m' | _ => True end).
  change (P (JObj m)). generalize (JObj m) as j. induction j using json_ind'; try exact I.
  cbn [P]. induction H as [|[k v] m0 Hv _ IH]; [exists []; split; [reflexivity|constructor]|].
  destruct IH as (m' & Em & Pm). cbn [clear_empty] in Em. injection Em as Em. cbn [snd] in Hv.
  destruct v as [| | | | |o]; try (eexists; split; [cbn [clear_empty]; rewrite Em; reflexivity|constructor; [discriminate|assumption]]).
  destruct Hv as (o' & Eo & Po). destruct o' as [|kv o'].
  - exists m'. split; [|now constructor]. cbn [clear_empty] in *. injection Eo as Eo. rewrite Eo. now rewrite Em.
  - exists ((k, JObj (kv :: o')) :: m'). split; [|now constructor]. cbn [clear_empty] in *. injection Eo as Eo. rewrite Eo. now rewrite Em.
Qed.
Lemma clear_subject_spec m : subject_pruned m (clear_subject m).
Proof.
  unfold clear_subject, subject_pruned. destruct (mget m "credentialSubject") as [[| | | | |s]|] eqn:Es;
    try (right; split; [discriminate|reflexivity]).
  left. destruct (clear_empty_obj s) as (s' & Hs & Ps). exists s, s'. rewrite Hs. auto.
Qed.

(** ** Displaying a parsed credential *)
(** the disclosures that are displayed *)
Definition chosen (o : dpopts) (n : string) : Prop := dp_all o = true \/ In n (dp_given o).
Record sd_facts (E : venv) (v : credential) (je : jenvelope) (h : hashalg) (ds : list string) (m : gomap disc) : Prop := {
  sf_dec : decode_cred_jwt (ve_time E) (ve_jwt E) (ve_members E) (je_jwt je) = Ok (je_headers je, cr_json v);
  sf_hash : get_crypto_hash (cr_json v) = Ok h;
  sf_ver : verify_disclosures (ve_sd E) ds (cr_json v) = Ok tt;
  sf_claims : get_disclosure_claims (ve_sd E) h ds (ve_order E) = Ok m;
  sf_discs : je_discs je = map snd m }.
Lemma parse_sd_facts E o text v je h : parse_credential E o text = Ok v -> cr_jwt v = Some je -> vc_sdalg (cr_contents v) = Some h ->
  wf_env (ve_sd E) -> visits_all (ve_order E) -> wf_json (JObj (cr_json v)) -> mget (cr_json v) "vc" = None ->
  mhas (cr_json v) "_sd_alg" = true -> je_discs je <> [] -> exists ds m, sd_facts E v je h ds m.
Proof.
  intros Hp Hje Hal HE Hord Hwf Hvc Hsa Hne.
  destruct (parse_sd_inv E o text v je h Hp Hje Hal) as ((ds & S) & _).
  assert (Hpl : sd_payload (cr_json v) = cr_json v) by (unfold sd_payload; now rewrite Hsa).
  destruct ds as [|x ds0].
  { exfalso. pose proof (sc_discs _ _ _ _ S) as P. cbn [parse_disclosures] in P. injection P as P. congruence. }
  pose proof (sc_valid _ _ _ _ S) as V. apply validate_disclosures_ok in V as [V A]. pose proof V as V'.
  apply verify_disclosures_iff in V' as (h' & Hh' & _); [|assumption|now apply wf_sd_payload].
  assert (h' = h) by (eapply sdalg_payload; eauto; apply S). subst h'. rewrite Hpl in *.
  destruct (disclosed_after_verify (ve_sd E) h (x :: ds0) (cr_json v) (ve_order E) HE Hwf Hord V Hh') as (m & Hg & _).
  exists (x :: ds0), m. constructor; auto; [apply S|].
  pose proof (sc_discs _ _ _ _ S) as P. cbn [parse_disclosures] in P. rewrite Hal, Hg in P. cbn [rmap] in P. now injection P.
Qed.
Lemma filter_chosen o ds d : In d (filter_list ds o) <-> In d ds /\ chosen o (dc_name d).
Proof.
  unfold filter_list, chosen. destruct (dp_all o); [tauto|]. rewrite filter_In, str_in_In. intuition discriminate.
Qed.
Lemma filter_list_nodup {B} (f : disc -> B) ds o : NoDup (map f ds) -> NoDup (map f (filter_list ds o)).
Proof.
  intros N. unfold filter_list. destruct (dp_all o); [assumption|]. induction ds as [|d ds IH]; [constructor|].
  inversion N; subst. cbn [filter]. destruct (str_in (dc_name d) (dp_given o)); [|auto]. cbn [map]. constructor; [|auto].
  intros Hi. apply in_map_iff in Hi as (y & Hy & Hi). apply filter_In in Hi as [Hi _]. apply H1. rewrite <- Hy. now apply in_map.
Qed.
Lemma display_object_spec E v je h ds m o : wf_env (ve_sd E) -> visits_all (ve_order E) -> wf_json (JObj (cr_json v)) -> sd_facts E v je h ds m ->
  exists V out, shown_content (Dof (ve_sd E) h ds) (chosen o) V /\ Put V (JObj (cr_json v)) (JObj out)
    /\ display_object E h je o = Ok (clear_subject out).
Proof.
  intros HE Hord Hwf F. destruct F as [Hdec Hh Hv Hg Hd].
  destruct (claims_sources (ve_sd E) h ds (cr_json v) (ve_order E) m HE Hwf Hord Hv Hh Hg) as (N & K & Sr).
  destruct (claims_full (ve_sd E) h ds (cr_json v) (ve_order E) m HE Hwf Hord Hv Hh Hg) as (Kn & Full).
  assert (HL : map (fun d => get_hash (ve_sd E) h (dc_str d)) (je_discs je) = map fst m).
  { rewrite Hd, map_map. apply map_ext_in. intros [k c] Hi. cbn [snd fst]. now apply Sr in Hi. }
  assert (NL : NoDup (map (fun d => get_hash (ve_sd E) h (dc_str d)) (je_discs je))) by now rewrite HL.
  pose proof (filter_list_nodup _ _ o NL) as NF.
  set (fl := filter_list (je_discs je) o) in *.
  set (mm := map (fun d => (get_hash (ve_sd E) h (dc_str d), d)) fl).
  pose (V := fun d => option_map content (mget mm d)).
  assert (Hmm : forall d c, mget mm d = Some c <-> In (d, c) m /\ chosen o (dc_name c)).
  { intros d c. unfold mm. rewrite mget_hash_list by assumption. unfold fl. rewrite filter_chosen, Hd, in_map_iff. split.
    - intros [[([k c'] & Hc & Hi) Hch] Hk]. cbn [snd] in Hc. subst c'. destruct (Sr _ _ Hi) as (_ & Hkk & _). rewrite Hk in Hkk. subst k. auto.
    - intros [Hi Hch]. destruct (Sr _ _ Hi) as (_ & Hkk & _). split; [|assumption]. split; [|assumption]. exists (d, c). auto. }
  assert (HVs : shown_content (Dof (ve_sd E) h ds) (chosen o) V).
  { intros d c. unfold V. split.
    - intros H. destruct (mget mm d) as [x|] eqn:Ex; [|discriminate]. injection H as <-. apply Hmm in Ex as [Hi Hch].
      destruct (Full _ _ Hi) as (_ & c0 & Hc0 & Hn & Hr). exists c0. rewrite Hn. auto.
    - intros (c0 & Hc0 & Hch & Hr). assert (Hin : In d (map fst m)).
      { destruct (in_dec string_dec d (map fst m)) as [|Hni]; [assumption|]. apply Kn in Hni. congruence. }
      apply in_map_iff in Hin as ([k x] & Hk & Hi). cbn [fst] in Hk. subst k. destruct (Full _ _ Hi) as (_ & c1 & Hc1 & Hn & Hr1).
      rewrite Hc0 in Hc1. injection Hc1 as <-. rewrite Hn in Hch. assert (Hg1 : mget mm d = Some x) by (apply Hmm; auto). rewrite Hg1. cbn [option_map]. f_equal.
      clear - Hr Hr1. destruct c0 as [x0|n0 x0|], c as [y|ny y|], (content x) as [z|nz z|]; cbn [resolved_content] in *; try contradiction; try reflexivity.
      + destruct Hr as (d1 & R1), Hr1 as (d2 & R2). destruct (Res_det _ _ _ _ _ _ _ R1 R2) as [-> _]. reflexivity.
      + destruct Hr as (<- & d1 & R1), Hr1 as (<- & d2 & R2). destruct (Res_det _ _ _ _ _ _ _ R1 R2) as [-> _]. reflexivity. }
  destruct (disclosed_after_verify (ve_sd E) h ds (cr_json v) (ve_order E) HE Hwf Hord Hv Hh) as (_ & _ & _ & _ & _ & _).
  pose proof Hv as Hv'. apply verify_disclosures_iff in Hv' as (h' & Hh' & _ & out0 & dl & R & Nd & _); [|assumption|assumption].
  assert (h' = h) by congruence. subst h'.
  destruct (Res_to_clean (Dof (ve_sd E) h ds)) as (Hcl & _). destruct (Hcl _ _ _ R) as (o1 & ds1 & R1 & S1).
  destruct (Res_show (Dof (ve_sd E) h ds) V) as (Hshow & _).
  { intros d c Hc. apply HVs in Hc as (c0 & Hc0 & _ & Hr). exists c0. split; [assumption|]. split; [|assumption].
    destruct c0, c; cbn [resolved_content] in Hr; try contradiction; try reflexivity. cbn. tauto. }
  destruct (Hshow _ _ _ R1) as (o2 & ds2 & HW & S2).
  assert (Hlk : forall d, Lof V d = lk (st0 mm) d).
  { intros d. unfold Lof, lk, V, st0. cbn [rs_discs]. destruct (mget mm d) as [c|] eqn:Ec; [|reflexivity]. cbn [option_map].
    apply Hmm in Ec as [Hi _]. destruct (Full _ _ Hi) as (-> & _). reflexivity. }
  assert (HW2 : W true (lk (st0 mm)) (JObj (cr_json v)) o2 ds2).
  { destruct (W_ext true (Lof V) (lk (st0 mm))) as (He & _). eapply He; eauto. }
  assert (Hdis : exists st', disclose_top true (JObj (cr_json v)) (st0 mm) = Ok (o2, st')).
  { unfold disclose_top. eapply (disclose_complete true (List.length (rs_discs (st0 mm)))); eauto.
    - intros k c Hk Hpar. exfalso. cbn [st0 rs_discs] in Hk. apply Hmm in Hk as [Hi _]. destruct (Full _ _ Hi) as (Hpp & _). congruence.
    - apply need_le.
    - cbn [st0 rs_nested]. split; [|easy]. eapply subcount_nodup; [exact S2|]. eapply subcount_nodup; [exact S1|assumption]. }
  assert (Ho2 : exists out, o2 = JObj out) by (inversion HW; subst; [tauto|eauto]). destruct Ho2 as (out & ->).
  exists V, out. split; [assumption|]. split; [eapply (W_Put V); exact HW|].
  unfold display_object. rewrite Hdec. cbn [bind snd]. unfold get_disclosed_claims. rewrite Hh. cbn [bind].
  fold fl. rewrite digest_map_list by (exact NF). fold mm. destruct Hdis as (st' & Hdis). unfold st0 in Hdis. rewrite Hdis. reflexivity.
Qed.
(** with everything shown it is the resolved document *)
Lemma display_all_spec E v je h ds m o : wf_env (ve_sd E) -> visits_all (ve_order E) -> wf_json (JObj (cr_json v)) -> sd_facts E v je h ds m ->
  dp_all o = true ->
  exists out ds', Res true (Dof (ve_sd E) h ds) (JObj (cr_json v)) (JObj out) ds' /\ display_object E h je o = Ok (clear_subject out).
Proof.
  intros HE Hord Hwf F Ha. destruct F as [Hdec Hh Hv Hg Hd].
  destruct (claims_sources (ve_sd E) h ds (cr_json v) (ve_order E) m HE Hwf Hord Hv Hh Hg) as (N & K & Sr).
  destruct (disclosed_after_verify (ve_sd E) h ds (cr_json v) (ve_order E) HE Hwf Hord Hv Hh) as (m' & Hg' & _ & _ & _ & out & ds' & Ho & R).
  assert (m' = m) by congruence. subst m'. exists out, ds'. split; [assumption|].
  unfold display_object. rewrite Hdec. cbn [bind snd]. unfold filter_list. rewrite Ha.
  assert (HL : digest_map (ve_sd E) h (je_discs je) = m).
  { rewrite digest_map_list; rewrite Hd.
    - rewrite map_map. rewrite <- (map_id m) at 2. apply map_ext_in. intros [k c] Hi. cbn [snd]. f_equal. now apply Sr in Hi.
    - rewrite map_map. rewrite (map_ext_in _ fst); [assumption|]. intros [k c] Hi. cbn [snd fst]. now apply Sr in Hi. }
  rewrite HL, Ho. reflexivity.
Qed.
Lemma facts_D E v je h ds m : wf_env (ve_sd E) -> visits_all (ve_order E) -> wf_json (JObj (cr_json v)) -> sd_facts E v je h ds m ->
  forall d, Dof (ve_sd E) h (map dc_str (je_discs je)) d = Dof (ve_sd E) h ds d.
Proof.
  intros HE Hord Hwf F. destruct F as [Hdec Hh Hv Hg Hd]. rewrite Hd.
  now destruct (kept_verifies (ve_sd E) h ds (cr_json v) (ve_order E) m HE Hwf Hord Hv Hh Hg) as (_ & _ & _ & H).
Qed.

(** ** Where displayed values come from *)
Lemma Put_scalars V :
  (forall j out, Put V j out -> forall x, scalar_of x out -> x <> JNull -> scalar_of x j \/ exists d c, V d = Some c /\ scalar_of x (disclosed_value c)) /\
  (forall l out, PutElems V l out -> forall x, scalar_of x (JArr out) -> x <> JNull -> scalar_of x (JArr l) \/ exists d c, V d = Some c /\ scalar_of x (disclosed_value c)) /\
  (forall l out, PutNamed V l out -> forall x n v, In (n, v) out -> scalar_of x v -> exists d c, V d = Some c /\ scalar_of x (disclosed_value c)) /\
  (forall m out, PutMembers V m out -> forall x k v, In (k, v) out -> scalar_of x v -> x <> JNull -> (exists v0, In (k, v0) m /\ scalar_of x v0) \/ exists d c, V d = Some c /\ scalar_of x (disclosed_value c)).
Proof.
  apply Put_mutind; intros.
  - auto.
  - destruct out as [|o out]; cbn [arr_or_null] in H0; [|now apply H].
    inversion H0; subst. congruence.
  - inversion H1; subst; [contradiction|]. match goal with Q : In _ (_ ++ _)%list |- _ => apply in_app_iff in Q as [Q|Q] end.
    + right. eapply H; eauto.
    + edestruct H0 as [(v0 & Hi & Hs)|?]; eauto. left. eapply so_obj; eauto.
  - auto.
  - inversion H0; subst; [contradiction|]. match goal with Q : In _ (_ :: _) |- _ => destruct Q as [->|Q] end.
    + left. eapply so_arr; [now left|assumption].
    + destruct (H x) as [Hs|?]; [eapply so_arr; eauto|assumption| |auto].
      left. inversion Hs; subst; [contradiction|]. eapply so_arr; [right; eassumption|assumption].
  - destruct (H x H0 H1) as [Hs|?]; [|auto]. left. inversion Hs; subst; [contradiction|]. eapply so_arr; [right; eassumption|assumption].
  - inversion H0; subst; [contradiction|]. match goal with Q : In _ (_ :: _) |- _ => destruct Q as [->|Q] end.
    + right. exists d, (CElem v0). auto.
    + destruct (H x0) as [Hs|?]; [eapply so_arr; eauto|assumption| |auto].
      left. inversion Hs; subst; [contradiction|]. eapply so_arr; [right; eassumption|assumption].
  - destruct H.
  - eauto.
  - destruct H0 as [[= <- <-]|H0]; [|eauto]. exists d, (CMember n x). auto.
  - destruct H.
  - edestruct H as [(w0 & Hi & Hs)|?]; eauto. left. exists w0. split; [now right|assumption].
  - assert (Hor : (k, v') = (k0, v0) \/ In (k0, v0) out) by (destruct v'; simpl in H1; tauto).
    destruct Hor as [[= <- <-]|Hi].
    + destruct (H x H2 H3) as [?|?]; [|auto]. left. exists v. split; [now left|assumption].
    + edestruct H0 as [(v1 & Hi1 & Hs)|?]; eauto. left. exists v1. split; [now right|assumption].
Qed.
Lemma Put_names V :
  (forall j out, Put V j out -> forall n, name_of n out -> name_of n j \/ exists d c, V d = Some c /\ (content_name c = n \/ name_of n (disclosed_value c))) /\
  (forall l out, PutElems V l out -> forall n, name_of n (JArr out) -> name_of n (JArr l) \/ exists d c, V d = Some c /\ (content_name c = n \/ name_of n (disclosed_value c))) /\
  (forall l out, PutNamed V l out -> forall n k v, In (k, v) out -> k = n \/ name_of n v -> exists d c, V d = Some c /\ (content_name c = n \/ name_of n (disclosed_value c))) /\
  (forall m out, PutMembers V m out -> forall n k v, In (k, v) out -> k = n \/ name_of n v ->
     (exists v0, In (k, v0) m /\ (k = n \/ name_of n v0)) \/ exists d c, V d = Some c /\ (content_name c = n \/ name_of n (disclosed_value c))).
Proof.
  assert (Hobj : forall n m, name_of n (JObj m) <-> exists k v, In (k, v) m /\ (k = n \/ name_of n v)).
  { intros n m. split.
    - intros H. inversion H; subst; eauto.
    - intros (k & v & Hi & [->|Hn]); [eapply no_here; eauto|eapply no_obj; eauto]. }
  assert (Harr : forall n v l, name_of n (JArr (v :: l)) <-> name_of n v \/ name_of n (JArr l)).
  { intros n v l. split.
    - intros H. inversion H; subst. match goal with Q : In _ (_ :: _) |- _ => destruct Q as [->|Q] end; [auto|right; eapply no_arr; eauto].
    - intros [H|H]; [eapply no_arr; [now left|assumption]|]. inversion H; subst. eapply no_arr; [right; eassumption|assumption]. }
  apply Put_mutind; intros.
  - auto.
  - destruct out as [|o out]; cbn [arr_or_null] in H0; [inversion H0|now apply H].
  - apply Hobj in H1 as (k & v & Hi & Hn). apply in_app_iff in Hi as [Hi|Hi].
    + right. eapply H; eauto.
    + edestruct H0 as [(v0 & Hi0 & Hs)|?]; eauto. left. apply Hobj. eauto.
  - auto.
  - rewrite Harr in *. destruct H0 as [H0|H0]; [auto|]. destruct (H _ H0); auto.
  - rewrite Harr. destruct (H _ H0); auto.
  - rewrite Harr in *. destruct H0 as [H0|H0]; [|destruct (H _ H0); auto]. right. exists d, (CElem x). auto.
  - destruct H.
  - eauto.
  - destruct H0 as [[= <- <-]|H0]; [|eauto]. exists d, (CMember n x). auto.
  - destruct H.
  - edestruct H as [(w0 & Hi & Hs)|?]; eauto. left. exists w0. split; [now right|assumption].
  - assert (Hor : (k, v') = (k0, v0) \/ In (k0, v0) out) by (destruct v'; simpl in H1; tauto).
    destruct Hor as [[= <- <-]|Hi].
    + destruct H2 as [H2|H2]; [left; exists v; split; [now left|auto]|]. destruct (H _ H2) as [?|?]; [|auto]. left. exists v. split; [now left|auto].
    + edestruct H0 as [(v1 & Hi1 & Hs)|?]; eauto. left. exists v1. split; [now right|assumption].
Qed.
Lemma Pruned_scalars m m' : Pruned m m' -> (forall x, scalar_of x (JObj m') -> scalar_of x (JObj m)) /\ (forall n, name_of n (JObj m') -> name_of n (JObj m)).
Proof.
  induction 1 as [|k v m m' Hv P [IH1 IH2]|k o m m' Po [Po1 Po2] P [IH1 IH2]|k o o' m m' Po [Po1 Po2] Hne P [IH1 IH2]]; (split; [intros x Hx|intros n Hx]); auto.
  - inversion Hx; subst; [contradiction|]. destruct H0 as [[= <- <-]|H0]; [eapply so_obj; [now left|assumption]|].
    assert (Hs : scalar_of x (JObj m)) by (apply IH1; eapply so_obj; eauto). inversion Hs; subst; [contradiction|]. eapply so_obj; [right; eassumption|assumption].
  - inversion Hx; subst; destruct H0 as [[= <- <-]|H0]; try (eapply no_here; now left); try (eapply no_obj; [now left|assumption]);
      (assert (Hs : name_of n (JObj m)) by (apply IH2; (eapply no_here; eassumption) || (eapply no_obj; eassumption)));
      inversion Hs; subst; [eapply no_here; right; eassumption|eapply no_obj; [right; eassumption|assumption]|eapply no_here; right; eassumption|eapply no_obj; [right; eassumption|assumption]].
  - apply IH1 in Hx. inversion Hx; subst; [contradiction|]. eapply so_obj; [right; eassumption|assumption].
  - apply IH2 in Hx. inversion Hx; subst; [eapply no_here; right; eassumption|eapply no_obj; [right; eassumption|assumption]].
  - inversion Hx; subst; [contradiction|]. destruct H0 as [[= <- <-]|H0]; [eapply so_obj; [now left|auto]|].
    assert (Hs : scalar_of x (JObj m)) by (apply IH1; eapply so_obj; eauto). inversion Hs; subst; [contradiction|]. eapply so_obj; [right; eassumption|assumption].
  - inversion Hx; subst; destruct H0 as [[= <- <-]|H0]; try (eapply no_here; now left); try (eapply no_obj; [now left|auto]; fail);
      (assert (Hs : name_of n (JObj m)) by (apply IH2; (eapply no_here; eassumption) || (eapply no_obj; eassumption)));
      inversion Hs; subst; [eapply no_here; right; eassumption|eapply no_obj; [right; eassumption|assumption]|eapply no_here; right; eassumption|eapply no_obj; [right; eassumption|assumption]].
Qed.
Lemma subject_pruned_sub m m' : subject_pruned m m' ->
  (forall x, scalar_of x (JObj m') -> scalar_of x (JObj m)) /\ (forall n, name_of n (JObj m') -> name_of n (JObj m)).
Proof.
  intros [(s & s' & Hs & P & ->)|(_ & ->)]; [|auto]. apply Pruned_scalars in P as [P1 P2]. apply mget_In in Hs.
  assert (Hi : forall k v, In (k, v) (mset m "credentialSubject" (JObj s')) -> In (k, v) m \/ (k = "credentialSubject" /\ v = JObj s')).
  { clear. induction m as [|[k0 v0] m IH]; cbn [mset]; intros k v.
    - intros [[= <- <-]|[]]. auto.
    - destruct (String.eqb_spec "credentialSubject" k0).
      + intros [[= <- <-]|H]; [auto|left; now right].
      + intros [[= <- <-]|H]; [left; now left|]. apply IH in H as [?|?]; [left; now right|auto]. }
  split.
  - intros x Hx. inversion Hx as [?|?|? ? ? H]; subst; [contradiction|]. apply Hi in H as [H|[-> ->]]; [eapply so_obj; eauto|]. eapply so_obj; [exact Hs|auto].
  - intros n Hx. inversion Hx as [? ? H|?|? ? ? H]; subst; apply Hi in H as [H|[H1 H2]]; subst.
    + eapply no_here; eauto.
    + eapply no_here; eauto.
    + eapply no_obj; eauto.
    + eapply no_obj; [exact Hs|auto].
Qed.
