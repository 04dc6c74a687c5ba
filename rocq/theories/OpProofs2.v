(** Turning checks off: what was accepted stays accepted, with the same result. *)
From Verif Require Import GoBase Base64 JwtSpec DiSpec VcSpec JwtModel SdSpec SdModel SdParse DiModel VcModel VcJwt VcParse VcProofs VcText VpModel LdModel OpModel OpSpec OpProofs.

Record weaker (o o' : copts) : Prop := {
  wk_same : o' = set_flags o (co_no_proof o') (co_no_validation o') (co_no_related o') (co_no_custom o) (co_strict o) (co_ld_types o);
  wk_p : co_no_proof o = true -> co_no_proof o' = true;
  wk_v : co_no_validation o = true -> co_no_validation o' = true;
  wk_r : co_no_related o = true -> co_no_related o' = true }.
Lemma weaker_refl o : weaker o o.
Proof. constructor; auto. now destruct o. Qed.
Definition rel (o o' : copts) (v w : credential) : Prop := same_but_context v w /\ (co_external o = [] \/ co_no_proof o = co_no_proof o' -> w = v).
Definition orel o o' (r r' : option credential) : Prop := match r, r' with Some v, Some w => rel o o' v w | None, None => True | _, _ => False end.
Lemma sbc_refl v : same_but_context v v.
Proof. repeat split; auto. Qed.
Lemma sbc_sym v w : same_but_context v w -> same_but_context w v.
Proof. intros (A & B & C & D & F). repeat split; auto. intros k Hk. symmetry. auto. Qed.
Lemma sbc_trans u v w : same_but_context u v -> same_but_context v w -> same_but_context u w.
Proof. intros (A & B & C & D & F) (A' & B' & C' & D' & F'). repeat split; try congruence. intros k Hk. rewrite F' by assumption. auto. Qed.
Lemma rel_refl o o' v : rel o o' v v.
Proof. split; [apply sbc_refl|auto]. Qed.
Lemma orel_refl o o' r : orel o o' r r.
Proof. destruct r; [apply rel_refl|exact I]. Qed.
Lemma check_result E o v v' : check_cred_proof E o v = Ok v' -> same_but_context v v' /\ (co_external o = [] -> v' = v).
Proof.
  unfold check_cred_proof. destruct (vc_issuer (cr_contents v)); [|discriminate]. destruct (cr_jwt v) eqn:Ej.
  - destruct (co_jwt_check o); [|discriminate]. intros H. apply bind_ok in H as (? & _ & H). injection H as <-. split; [apply sbc_refl|auto].
  - destruct (cr_cwt v) eqn:Ec.
    + destruct (co_cwt_check o); [|discriminate]. intros H. apply bind_ok in H as (? & _ & H). apply bind_ok in H as (? & _ & H). injection H as <-. split; [apply sbc_refl|auto].
    + intros H. apply bind_ok in H as (m & Hm & H). injection H as <-. apply check_embedded_doc in Hm. unfold upd_doc, same_but_context. cbn [cr_json cr_contents cr_proofs cr_jwt cr_cwt].
      destruct (co_external o) as [|x xs].
      * subst m. split; [repeat split; auto|]. intros _. destruct v; cbn in *. congruence.
      * split; [|discriminate]. repeat split; auto. intros k Hk. rewrite Hm, mget_mset. destruct (String.eqb k "@context") eqn:E1; [|reflexivity]. apply String.eqb_eq in E1. contradiction.
Qed.
Section Mono.
  Variable E : venv.
  Hypothesis HE : jsonld_settings_only E.
  Variables o o' : copts.
  Hypothesis W : weaker o o'.
  Lemma wk_check v : check_cred_proof E o' v = check_cred_proof E o v.
  Proof. rewrite (wk_same _ _ W). reflexivity. Qed.
  Lemma wk_validate c m : validate_credential E c m o' = validate_credential E c m o.
  Proof.
    rewrite (wk_same _ _ W). unfold validate_credential. cbn [set_flags co_mode].
    assert (J : forall c m a b d, validate_jsonld E m c (set_flags o a b d (co_no_custom o) (co_strict o) (co_ld_types o)) = validate_jsonld E m c o).
    { intros. unfold validate_jsonld. destruct (get_base_context (vc_context c0)); try reflexivity. cbn [bind]. now apply HE. }
    destruct (co_mode o); [|apply J| |]; [|reflexivity|reflexivity].
    change (validate_schema E m c (set_flags o (co_no_proof o') (co_no_validation o') (co_no_related o') (co_no_custom o) (co_strict o) (co_ld_types o))) with (validate_schema E m c o).
    now rewrite J.
  Qed.
  Lemma wk_json d r : json_parser E o d = Ok r -> json_parser E o' d = Ok r.
  Proof.
    unfold json_parser. intros H. apply bind_ok in H as (hm & Hm & H). rewrite Hm. cbn [bind]. destruct hm as [[h m]|]; [|assumption].
    apply bind_ok in H as (c & -> & H). cbn [bind]. apply bind_ok in H as (ps & -> & H). cbn [bind]. apply bind_ok in H as (u & Hv & H).
    assert (Hv' : (if jv_jws (try_parse_jws E (unwrap_string E d)) || co_no_validation o' then Ok tt else validate_credential E c m o') = Ok tt).
    { destruct (jv_jws _); [reflexivity|]. cbn [orb] in *. destruct (co_no_validation o) eqn:Eo; [now rewrite (wk_v _ _ W Eo)|]. rewrite wk_validate.
      destruct u. rewrite Hv. now destruct (co_no_validation o'). }
    rewrite Hv'. exact H.
  Qed.
  Lemma wk_cbor d r : cbor_parser E o d = Ok r -> cbor_parser E o' d = Ok r.
  Proof.
    unfold cbor_parser. intros H. apply bind_ok in H as (dm & Hm & H). rewrite Hm. cbn [bind]. destruct dm as [[raw msg]|]; [|assumption].
    apply bind_ok in H as (m & -> & H). cbn [bind]. apply bind_ok in H as (c & -> & H). cbn [bind]. apply bind_ok in H as (u & Hv & H).
    assert (Hv' : (if co_no_validation o' then Ok tt else validate_credential E c m o') = Ok tt).
    { destruct (co_no_validation o) eqn:Eo; [now rewrite (wk_v _ _ W Eo)|]. rewrite wk_validate. destruct u. rewrite Hv. now destruct (co_no_validation o'). }
    rewrite Hv'. exact H.
  Qed.
  Lemma wk_with p p' d r : (forall r, p d = Ok r -> exists r', p' d = Ok r' /\ orel o o' r r') -> parse_with E o p d = Ok r ->
    exists r', parse_with E o' p' d = Ok r' /\ orel o o' r r'.
  Proof.
    intros Hp H. unfold parse_with in *. apply bind_ok in H as (r0 & H0 & H). destruct (Hp _ H0) as (r1 & H1 & R). rewrite H1. cbn [bind].
    destruct r0 as [v|], r1 as [w|]; try contradiction; [|injection H as <-; exists None; split; [reflexivity|exact I]].
    apply bind_ok in H as (v1 & Hc & H). apply bind_ok in H as (u & Hr & H). injection H as <-. destruct R as [S Q].
    assert (G : exists w1, (if co_no_proof o' then Ok w else check_cred_proof E o' w) = Ok w1 /\ rel o o' v1 w1).
    { destruct (co_no_proof o) eqn:Eo.
      - injection Hc as <-. rewrite (wk_p _ _ W Eo). exists w. split; [reflexivity|]. split; [assumption|]. rewrite Eo. exact Q.
      - destruct (check_result _ _ _ _ Hc) as [S1 Q1]. destruct (co_no_proof o') eqn:Eo'.
        + exists w. split; [reflexivity|]. split; [eapply sbc_trans; [apply sbc_sym; exact S1|exact S]|]. intros [Hx|Hx]; [|congruence]. rewrite Q1 by assumption. auto.
        + assert (Ew : w = v) by auto. subst w. rewrite wk_check. exists v1. split; [assumption|apply rel_refl]. }
    destruct G as (w1 & -> & [S1 Q1]). cbn [bind].
    assert (Hr' : (if co_no_related o' then Ok tt else ve_related E (vc_related (cr_contents w1))) = Ok tt).
    { destruct (co_no_related o) eqn:Er; [now rewrite (wk_r _ _ W Er)|]. destruct S1 as (-> & _). destruct u. rewrite Hr. now destruct (co_no_related o'). }
    rewrite Hr'. exists (Some w1). split; [reflexivity|]. split; assumption.
  Qed.
  Lemma eq_orel (p p' : string -> res (option credential)) : (forall d r, p d = Ok r -> p' d = Ok r) -> forall d r, p d = Ok r -> exists r', p' d = Ok r' /\ orel o o' r r'.
  Proof. intros H d r Hr. exists r. split; [auto|apply orel_refl]. Qed.
  Lemma wk_data_url u r : parse_data_url_cred E o u = Ok r -> exists r', parse_data_url_cred E o' u = Ok r' /\ orel o o' r r'.
  Proof.
    unfold parse_data_url_cred. intros H. apply bind_ok in H as ([[media x] data] & -> & H). cbn [bind].
    destruct (String.eqb media vc_media_jwt || String.eqb media vc_media_sdjwt)%bool.
    - revert H. apply wk_with. apply eq_orel. exact wk_json.
    - destruct (String.eqb media vc_media_cose); [|discriminate]. revert H. apply wk_with. apply eq_orel. exact wk_cbor.
  Qed.
  Lemma wk_env d r : enveloped_parser E o d = Ok r -> exists r', enveloped_parser E o' d = Ok r' /\ orel o o' r r'.
  Proof.
    unfold enveloped_parser. destruct (parse_json E d) as [m|]; [|intros H; injection H as <-; exists None; split; [reflexivity|exact I]].
    destruct (decode_type (fld m "type")) as [ts|e|]; [|intros H; injection H as <-; exists None; split; [reflexivity|exact I]..].
    destruct (negb (str_in enveloped_type ts)); [intros H; injection H as <-; exists None; split; [reflexivity|exact I]|].
    destruct (mget m "id") as [[]|]; try discriminate. apply wk_data_url.
  Qed.
  Lemma wk_parse d v : parse_credential E o d = Ok v -> exists w, parse_credential E o' d = Ok w /\ rel o o' v w.
  Proof.
    unfold parse_credential. cbn [try_parsers]. intros H. apply bind_ok in H as (r & H1 & H). destruct (wk_with _ _ _ _ (wk_env d) H1) as (r' & -> & R). cbn [bind].
    destruct r as [x|], r' as [x'|]; try contradiction; [injection H as <-; eauto|]. apply bind_ok in H as (r & H2 & H).
    destruct (wk_with _ _ _ _ (eq_orel _ _ wk_json d) H2) as (r' & -> & R2). cbn [bind]. destruct r as [x|], r' as [x'|]; try contradiction; [injection H as <-; eauto|].
    apply bind_ok in H as (r & H3 & H). destruct (wk_with _ _ _ _ (eq_orel _ _ wk_cbor d) H3) as (r' & -> & R3). cbn [bind].
    destruct r as [x|], r' as [x'|]; try contradiction; [injection H as <-; eauto|discriminate].
  Qed.
  Lemma wk_parse_json m v : parse_credential_json E o m = Ok v -> exists w, parse_credential_json E o' m = Ok w /\ rel o o' v w.
  Proof.
    unfold parse_credential_json. intros H. apply bind_ok in H as (ts & -> & H). cbn [bind]. destruct (str_in enveloped_type ts).
    - destruct (mget m "id") as [[]|]; try discriminate. apply bind_ok in H as (r & H1 & H). destruct (wk_data_url _ _ H1) as (r' & -> & R). cbn [bind].
      destruct r as [x|], r' as [x'|]; try contradiction; [injection H as <-; eauto|discriminate].
    - apply bind_ok in H as (ps & -> & H). cbn [bind]. apply bind_ok in H as (c & -> & H). cbn [bind]. apply bind_ok in H as (u & Hv & H).
      assert (Hv' : (if co_no_validation o' then Ok tt else validate_credential E c m o') = Ok tt).
      { destruct (co_no_validation o) eqn:Eo; [now rewrite (wk_v _ _ W Eo)|]. rewrite wk_validate. destruct u. rewrite Hv. now destruct (co_no_validation o'). }
      rewrite Hv'. cbn [bind]. exists v. split; [exact H|apply rel_refl].
  Qed.
End Mono.

(** adding an option that turns a check off *)
Section Insert.
  Context {D : Type}.
  Definition cweaker (s s' : cstate D) : Prop := weaker (cs_o s) (cs_o s') /\ cs_loader s = cs_loader s' /\ cs_doc s = cs_doc s' /\ cs_rdf s = cs_rdf s' /\ cs_diff s = cs_diff s'.
  Lemma apply_weaker s s' x : cweaker s s' -> cweaker (apply_copt s x) (apply_copt s' x).
  Proof.
    destruct s as [o lo dc rd df], s' as [o' lo' dc' rd' df']. intros ([W P V R] & A & B & C & F). cbn in *. subst.
    destruct o, o'. cbn in *. injection W as -> -> -> -> -> -> -> -> -> -> -> -> -> -> -> ->.
    destruct x; (split; [constructor; cbn; auto|cbn; auto]).
  Qed.
  Lemma off_weaker s x : turns_off x = true -> cweaker s (apply_copt s x).
  Proof. destruct s as [o lo dc rd df], o. destruct x; cbn; try discriminate; intros _; (split; [constructor; cbn; auto|cbn; auto]). Qed.
  Lemma fold_weaker l : forall s s', cweaker s s' -> cweaker (fold_left apply_copt l s) (fold_left apply_copt l s').
  Proof. induction l as [|x l IH]; intros s s' H; [assumption|]. cbn [fold_left]. apply IH. now apply apply_weaker. Qed.
  Lemma insert_weaker (l1 l2 : list (copt D)) x : turns_off x = true -> cweaker (options (l1 ++ l2)) (options (l1 ++ x :: l2)).
  Proof. intros H. unfold options. rewrite !fold_left_app. cbn [fold_left]. apply fold_weaker. now apply off_weaker. Qed.
  Lemma env_weaker (Wd : world D) s s' : cweaker s s' -> env_of Wd s' = env_of Wd s.
  Proof. intros (_ & A & B & C & F). unfold env_of. now rewrite A, B, C, F. Qed.
  Lemma jsonld_env (Wd : world D) s : (forall d r f, jsonld_settings_only (wo_env Wd d r f)) -> jsonld_settings_only (env_of Wd s).
  Proof. intros H. exact (H (cs_doc s) (cs_rdf s) (cs_diff s)). Qed.
  Lemma off_accepted (Wd : world D) l1 l2 x d v : (forall d r f, jsonld_settings_only (wo_env Wd d r f)) -> turns_off x = true ->
    parse_credential_with Wd (l1 ++ l2) d = Ok v -> exists w, parse_credential_with Wd (l1 ++ x :: l2) d = Ok w /\ rel (cs_o (options (l1 ++ l2))) (cs_o (options (l1 ++ x :: l2))) v w.
  Proof.
    intros HJ Hx. unfold parse_credential_with. pose proof (insert_weaker l1 l2 x Hx) as H. rewrite (env_weaker Wd _ _ H). apply wk_parse; [now apply jsonld_env|apply H].
  Qed.
  Lemma off_accepted_json (Wd : world D) l1 l2 x m v : (forall d r f, jsonld_settings_only (wo_env Wd d r f)) -> turns_off x = true ->
    parse_credential_json_with Wd (l1 ++ l2) m = Ok v -> exists w, parse_credential_json_with Wd (l1 ++ x :: l2) m = Ok w /\ rel (cs_o (options (l1 ++ l2))) (cs_o (options (l1 ++ x :: l2))) v w.
  Proof.
    intros HJ Hx. unfold parse_credential_json_with. pose proof (insert_weaker l1 l2 x Hx) as H. rewrite (env_weaker Wd _ _ H). apply wk_parse_json; [now apply jsonld_env|apply H].
  Qed.
  (** external contexts are those of the last option *)
  Lemma no_external (l : list (copt D)) : Forall (fun x => about ExternalContexts x = false) l -> co_external (cs_o (options l)) = [].
  Proof. intros H. apply (field_none apply_copt (about ExternalContexts) (fun s : cstate D => co_external (cs_o s))); [intros s x; destruct x; (discriminate || reflexivity)|assumption]. Qed.
End Insert.
