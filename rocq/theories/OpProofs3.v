(** Turning checks off for presentations. *)
From Verif Require Import GoBase Base64 JwtSpec DiSpec VcSpec JwtModel SdSpec SdModel SdParse DiModel VcModel VcJwt VcParse VcProofs VcText VpModel LdModel OpModel OpSpec OpProofs OpProofs2.

Record pweaker (o o' : vopts) : Prop := {
  pw_same : o' = {| vo_check := vo_check o; vo_no_proof := vo_no_proof o'; vo_strict := vo_strict o; vo_require_vc := vo_require_vc o; vo_require_proof := vo_require_proof o;
                    vo_no_jsonld := vo_no_jsonld o'; vo_di := vo_di o; vo_purpose := vo_purpose o; vo_domain := vo_domain o; vo_challenge := vo_challenge o;
                    vo_holder := vo_holder o'; vo_related := vo_related o' |};
  pw_p : vo_no_proof o = true -> vo_no_proof o' = true;
  pw_j : vo_no_jsonld o = true -> vo_no_jsonld o' = true;
  pw_h : vo_holder o' = true -> vo_holder o = true;
  pw_r : vo_related o' = true -> vo_related o = true }.
Section PMono.
  Variable P : vpenv.
  Let E := pe_v P.
  Hypothesis HE : jsonld_settings_only E.
  Variables o o' : vopts.
  Hypothesis W : pweaker o o'.
  Lemma pw_fields : vo_check o' = vo_check o /\ vo_strict o' = vo_strict o /\ vo_require_vc o' = vo_require_vc o /\ vo_require_proof o' = vo_require_proof o /\
    vo_di o' = vo_di o /\ vo_purpose o' = vo_purpose o /\ vo_domain o' = vo_domain o /\ vo_challenge o' = vo_challenge o.
  Proof. rewrite (pw_same _ _ W). cbn. auto 10. Qed.
  Lemma pw_embedded m : check_pres_embedded E o m = Ok tt -> check_pres_embedded E o' m = Ok tt.
  Proof.
    unfold check_pres_embedded. destruct pw_fields as (A & _ & _ & _ & B & C & F & G). destruct (vo_no_proof o) eqn:Eo; [now rewrite (pw_p _ _ W Eo)|].
    destruct (vo_no_proof o'); [reflexivity|].
    assert (Q : check_embedded E (embedded_opts o') (mdel m "jwt") None = check_embedded E (embedded_opts o) (mdel m "jwt") None).
    { unfold check_embedded, check_di, di_opts, embedded_opts. cbn [co_external co_di co_di_purpose co_di_domain co_di_challenge co_ld_check]. now rewrite A, B, C, F, G. }
    now rewrite Q.
  Qed.
  Lemma pw_json d r : vp_json_parser P o d = Ok r -> vp_json_parser P o' d = Ok r.
  Proof.
    unfold vp_json_parser. fold E. destruct pw_fields as (A & _ & _ & R & _). rewrite A, R. destruct (is_jws (ve_obj E) (un_quote d)).
    - destruct (vo_no_proof o) eqn:Eo; [now rewrite (pw_p _ _ W Eo)|]. destruct (vo_no_proof o'); [|auto]. cbn [orb]. intros H.
      apply bind_ok in H as (u & Hg & H). apply bind_ok in H as (m & Hm & H). cbn [guard bind].
      assert (Hm' : decode_vp_jws E (un_quote d) None = Ok m).
      { unfold decode_vp_jws in *. apply bind_ok in Hm as (tp & -> & Hm). cbn [bind]. apply bind_ok in Hm as (c & -> & Hm). cbn [bind].
        apply bind_ok in Hm as (t & _ & Hm). exact Hm. }
      now rewrite Hm'.
    - destruct (is_jwt_unsecured (ve_obj E) (un_quote d)).
      + intros H. apply bind_ok in H as (m & -> & H). cbn [bind]. apply bind_ok in H as ([] & He & H). rewrite (pw_embedded _ He). exact H.
      + destruct (parse_json E d) as [m|]; [|auto]. intros H. apply bind_ok in H as ([] & He & H). rewrite (pw_embedded _ He). exact H.
  Qed.
  (** with the same setting for proofs the parser is the same *)
  Lemma pw_json_eq d : vo_no_proof o = vo_no_proof o' -> vp_json_parser P o' d = vp_json_parser P o d.
  Proof.
    intros Q. unfold vp_json_parser, check_pres_embedded. destruct pw_fields as (A & _ & _ & R & B & C & F & G). rewrite A, R, <- Q.
    assert (X : forall m, check_embedded (pe_v P) (embedded_opts o') (mdel m "jwt") None = check_embedded (pe_v P) (embedded_opts o) (mdel m "jwt") None).
    { intros m. unfold check_embedded, check_di, di_opts, embedded_opts. cbn [co_external co_di co_di_purpose co_di_domain co_di_challenge co_ld_check]. now rewrite A, B, C, F, G. }
    destruct (is_jws _ _); [reflexivity|]. destruct (is_jwt_unsecured _ _).
    - destruct (decode_vp_unsecured _ _); try reflexivity. cbn [bind]. now rewrite X.
    - destruct (parse_json (pe_v P) d); try reflexivity. now rewrite X.
  Qed.
  Lemma pw_env_eq d : vo_no_proof o = vo_no_proof o' -> vp_enveloped_parser P o' d = vp_enveloped_parser P o d.
  Proof.
    intros Q. unfold vp_enveloped_parser. destruct (ve_members (pe_v P) d); [|reflexivity].
    destruct (fold_res str_step _ _); try reflexivity. cbn [bind]. destruct (fold_res strs_step (occurrences "type" l) []); try reflexivity. cbn [bind].
    destruct (fold_res strs_step _ _); try reflexivity. cbn [bind]. destruct (guard _ _); try reflexivity. cbn [bind].
    destruct (parse_data_url a) as [[[media x] t]| |]; try reflexivity. cbn [bind]. now rewrite pw_json_eq.
  Qed.
  Lemma pw_env d r : vp_enveloped_parser P o d = Ok r -> vp_enveloped_parser P o' d = Ok r.
  Proof.
    unfold vp_enveloped_parser. destruct (ve_members (pe_v P) d) as [ms|]; [|auto]. intros H. apply bind_ok in H as (id & -> & H). cbn [bind]. apply bind_ok in H as (ts & -> & H). cbn [bind].
    apply bind_ok in H as (cx & -> & H). cbn [bind]. apply bind_ok in H as (u & -> & H). cbn [bind]. apply bind_ok in H as ([[media x] t] & -> & H). cbn [bind].
    destruct (String.eqb media vp_media_jwt); [now apply pw_json|assumption].
  Qed.
  Lemma cwt_texts d r : one_kind E d -> vp_cwt_parser P d = Ok r ->
    ve_members E d = None /\ is_jws (ve_obj E) (un_quote d) = false /\ is_jwt_unsecured (ve_obj E) (un_quote d) = false.
  Proof.
    intros K H.
    assert (N : ~ (ve_cose E d = None /\ ve_hex E (un_quote d) = None)).
    { intros [A B]. unfold vp_cwt_parser in H. fold E in H. rewrite A, B in H. discriminate. }
    split; [|split].
    - destruct (ve_members E d) eqn:Em; [|reflexivity]. exfalso. apply N. destruct (ok_json _ _ K) as (A & B & _); [congruence|auto].
    - destruct (is_jws _ _) eqn:Ej; [|reflexivity]. exfalso. apply N. apply (ok_jwt _ _ K). auto.
    - destruct (is_jwt_unsecured _ _) eqn:Ej; [|reflexivity]. exfalso. apply N. apply (ok_jwt _ _ K). auto.
  Qed.
  Lemma pw_env_stays d r e : one_kind E d -> vo_no_proof o = false -> vp_json_parser P o d = Ok r -> vp_enveloped_parser P o d = Err e ->
    exists e', vp_enveloped_parser P o' d = Err e'.
  Proof.
    intros K Qo Hj. unfold vp_enveloped_parser. fold E. destruct (ve_members E d) as [ms|] eqn:Em; [|eauto].
    destruct (fold_res str_step (occurrences "id" ms) "") as [id|e1|]; [|eauto|discriminate]. cbn [bind].
    destruct (fold_res strs_step (occurrences "type" ms) []) as [ts|e1|] eqn:Et; [|eauto|discriminate]. cbn [bind].
    destruct (fold_res strs_step (occurrences "@context" ms) []) as [cx|e1|]; [|eauto|discriminate]. cbn [bind].
    destruct (str_in vp_enveloped_type ts) eqn:Es; [|cbn [guard bind]; eauto].
    exfalso. pose proof (ok_envelope _ _ K _ _ Em Et Es) as Hp. destruct (ok_json _ _ K) as (_ & _ & A & B); [congruence|].
    unfold vp_json_parser in Hj. fold E in Hj. rewrite A, B in Hj. unfold parse_json in Hj. rewrite Em in Hj. cbn [option_map] in Hj.
    unfold check_pres_embedded in Hj. rewrite Qo in Hj. unfold check_embedded in Hj.
    assert (F : fld (mdel (to_map ms) "jwt") "proof" = None) by (unfold fld in *; rewrite mget_mdel; exact Hp).
    rewrite F in Hj. discriminate.
  Qed.
  Lemma pw_read d r : one_kind E d -> read_presentation P o d = Ok r -> read_presentation P o' d = Ok r.
  Proof.
    intros K H. destruct (Bool.bool_dec (vo_no_proof o) (vo_no_proof o')) as [Q|Q].
    - unfold read_presentation in *. now rewrite pw_env_eq, pw_json_eq.
    - assert (Qo : vo_no_proof o = false) by (destruct (vo_no_proof o) eqn:Eo; [|reflexivity]; exfalso; apply Q; symmetry; exact (pw_p _ _ W Eo)).
      unfold read_presentation, or_else in *. destruct (vp_enveloped_parser P o d) as [r0|e|] eqn:Ev; [injection H as ->; now rewrite (pw_env _ _ Ev)| |discriminate].
      destruct (vp_json_parser P o d) as [r0|e'|] eqn:Ej; [|clear Ev|discriminate].
      + injection H as ->. destruct (pw_env_stays d r e K Qo Ej Ev) as (e1 & ->). now rewrite (pw_json _ _ Ej).
      + destruct (cwt_texts _ _ K H) as (A & B & C). unfold vp_enveloped_parser, vp_json_parser, parse_json. fold E. rewrite A, B, C. exact H.
  Qed.
  Lemma pw_creds v r : decode_credentials E o v = Ok r -> decode_credentials E o' v = Ok r.
  Proof.
    destruct pw_fields as (A & _).
    assert (Wc : forall b, weaker (cred_opts o b) (cred_opts o' b)).
    { intros b. constructor; cbn; auto; [|exact (pw_p _ _ W)]. unfold cred_opts, set_flags. cbn. now rewrite A. }
    assert (One : forall j c, decode_one E o j = Ok c -> decode_one E o' j = Ok c).
    { intros j c. destruct j; try discriminate; cbn [decode_one]; intros H.
      - destruct (wk_parse E HE _ _ (Wc false) _ _ H) as (w & Hw & _ & Q). now rewrite Hw, Q by (now left).
      - destruct (wk_parse_json E HE _ _ (Wc true) _ _ H) as (w & Hw & _ & Q). now rewrite Hw, Q by (now left). }
    assert (Map : forall l cs, map_res (decode_one E o) l = Ok cs -> map_res (decode_one E o') l = Ok cs).
    { induction l as [|j l IH]; intros cs H; cbn [map_res] in *; [assumption|]. apply bind_ok in H as (c & Hc & H). apply bind_ok in H as (cs' & Hcs & H).
      rewrite (One _ _ Hc). cbn [bind]. rewrite (IH _ Hcs). exact H. }
    assert (Sing : forall j cs, rmap (fun c => [c]) (decode_one E o j) = Ok cs -> rmap (fun c => [c]) (decode_one E o' j) = Ok cs).
    { intros j cs H. destruct (decode_one E o j) as [c| |] eqn:Ej; try discriminate. now rewrite (One _ _ Ej). }
    unfold decode_credentials. destruct v as [[]|]; auto.
  Qed.
  Lemma pw_new m p : new_presentation E o m = Ok p -> new_presentation E o' m = Ok p.
  Proof.
    unfold new_presentation. intros H. apply bind_ok in H as (ts & -> & H). cbn [bind]. apply bind_ok in H as (cx & -> & H). cbn [bind]. apply bind_ok in H as (cs & Hc & H).
    rewrite (pw_creds _ _ Hc). cbn [bind]. apply bind_ok in H as (ps & -> & H). cbn [bind]. apply bind_ok in H as (id & -> & H). cbn [bind]. apply bind_ok in H as (h & -> & H). cbn [bind].
    apply bind_ok in H as (u & He & H).
    assert (He' : execute_checks E o' ps cs h = Ok tt).
    { unfold execute_checks in *. apply bind_ok in He as (u1 & H1 & H2). destruct u1.
      assert (H1' : (if vo_holder o' then validate_holder (ve_time E) ps cs h else Ok tt) = Ok tt) by (destruct (vo_holder o') eqn:Eh; [now rewrite (pw_h _ _ W Eh) in H1|reflexivity]).
      rewrite H1'. cbn [bind]. destruct u. destruct (vo_related o') eqn:Er; [now rewrite (pw_r _ _ W Er) in H2|reflexivity]. }
    rewrite He'. exact H.
  Qed.
  Lemma pw_parse d p : one_kind E d -> parse_presentation_vp P o d = Ok p -> parse_presentation_vp P o' d = Ok p.
  Proof.
    intros K. unfold parse_presentation_vp. destruct pw_fields as (_ & S & R & _). rewrite R. intros H. apply bind_ok in H as (r & Hr & H). rewrite (pw_read _ _ K Hr). cbn [bind].
    apply bind_ok in H as ([] & Hv & H).
    assert (Hv' : validate_vp P o' (vr_raw r) = Ok tt).
    { unfold validate_vp in *. apply bind_ok in Hv as (b & -> & Hv). cbn [bind]. apply bind_ok in Hv as (u & -> & Hv). cbn [bind]. rewrite S.
      destruct (vo_no_jsonld o) eqn:Ej; [now rewrite (pw_j _ _ W Ej)|]. now destruct (vo_no_jsonld o'). }
    rewrite Hv'. cbn [bind]. apply bind_ok in H as (q & Hq & H). fold E in Hq. fold E. rewrite (pw_new _ _ Hq). exact H.
  Qed.
End PMono.
Section PInsert.
  Context {D : Type}.
  Definition pcweaker (s s' : pstate D) : Prop := pweaker (ps_o s) (ps_o s') /\ ps_doc s = ps_doc s'.
  Lemma papply_weaker s s' x : pcweaker s s' -> pcweaker (apply_popt s x) (apply_popt s' x).
  Proof.
    destruct s as [o d], s' as [o' d']. intros ([W P J H R] & A). cbn in *. subst. destruct o, o'. cbn in *. injection W as -> -> -> -> -> -> -> ->.
    destruct x; (split; [constructor; cbn; auto|cbn; auto]).
  Qed.
  Lemma poff_weaker s x : pturns_off x = true -> pcweaker s (apply_popt s x).
  Proof.
    destruct s as [o d], o. destruct x as [| | | | |[]|[]| | | | |]; cbn; try discriminate; intros _; (split; [constructor; cbn; auto; discriminate|cbn; auto]).
  Qed.
  Lemma pfold_weaker l : forall s s', pcweaker s s' -> pcweaker (fold_left apply_popt l s) (fold_left apply_popt l s').
  Proof. induction l as [|x l IH]; intros s s' H; [assumption|]. cbn [fold_left]. apply IH. now apply papply_weaker. Qed.
  Lemma poff_accepted (Wd : option D -> vpenv) l1 l2 x d p : (forall dl, jsonld_settings_only (pe_v (Wd dl)) /\ one_kind (pe_v (Wd dl)) d) -> pturns_off x = true ->
    parse_presentation_with Wd (l1 ++ l2) d = Ok p -> parse_presentation_with Wd (l1 ++ x :: l2) d = Ok p.
  Proof.
    intros HJ Hx. unfold parse_presentation_with, poptions. rewrite !fold_left_app. cbn [fold_left].
    pose proof (pfold_weaker l2 _ _ (poff_weaker (fold_left apply_popt l1 default_pstate) x Hx)) as [Hw Hd]. rewrite <- Hd. apply pw_parse; [apply HJ|assumption|apply HJ].
  Qed.
End PInsert.
