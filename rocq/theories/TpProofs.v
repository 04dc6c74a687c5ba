(** Two-phase parsing: parsing without a check and making the check afterwards. *)
From Verif Require Import GoBase Base64 JwtSpec DiSpec VcSpec JwtModel SdSpec SdModel SdParse DiModel VcModel VcJwt VcParse VcProofs VcText VpModel LdModel OpModel OpSpec OpProofs OpProofs2.

Section TwoPhase.
  Variable E : venv.
  Hypothesis HE : jsonld_settings_only E.
  Variables o o' : copts.
  Hypothesis W : weaker o o'.
  Hypothesis Hrel : co_no_related o' = co_no_related o.
  Definition related_ok (v : credential) : Prop := (if co_no_related o then Ok tt else ve_related E (vc_related (cr_contents v))) = Ok tt.
  Lemma pw_some op p d v : co_no_related op = co_no_related o -> (parse_with E op p d = Ok (Some v) <->
    exists u, p d = Ok (Some u) /\ (if co_no_proof op then Ok u else check_cred_proof E op u) = Ok v /\ related_ok v).
  Proof.
    intros Hr. unfold parse_with, related_ok. rewrite Hr. split.
    - intros H. apply bind_ok in H as (r & Hp & H). destruct r as [u|]; [|discriminate]. apply bind_ok in H as (w & Hc & H). apply bind_ok in H as ([] & Hx & H).
      injection H as <-. exists u. auto.
    - intros (u & -> & H & Hx). cbn [bind]. rewrite H. cbn [bind]. now rewrite Hx.
  Qed.
  Lemma pw_none op p d : parse_with E op p d = Ok None <-> p d = Ok None.
  Proof.
    unfold parse_with. split.
    - intros H. apply bind_ok in H as (r & Hp & H). destruct r as [u|]; [|assumption]. apply bind_ok in H as (w & _ & H). apply bind_ok in H as (x & _ & H). discriminate H.
    - now intros ->.
  Qed.
  Lemma parse_iff op d v : parse_credential E op d = Ok v <->
    parse_with E op (enveloped_parser E op) d = Ok (Some v) \/
    (enveloped_parser E op d = Ok None /\ (parse_with E op (json_parser E op) d = Ok (Some v) \/
      (json_parser E op d = Ok None /\ parse_with E op (cbor_parser E op) d = Ok (Some v)))).
  Proof.
    unfold parse_credential. cbn [try_parsers]. split.
    - intros H. apply bind_ok in H as (r & H1 & H). destruct r as [u|]; [injection H as ->; auto|]. right. split; [now apply pw_none in H1|].
      apply bind_ok in H as (r & H2 & H). destruct r as [u|]; [injection H as ->; auto|]. right. split; [now apply pw_none in H2|].
      apply bind_ok in H as (r & H3 & H). destruct r as [u|]; [injection H as ->; auto|discriminate].
    - intros [->|[H1 H]]; [reflexivity|]. rewrite (proj2 (pw_none _ _ _) H1). cbn [bind]. destruct H as [->|[H2 H3]]; [reflexivity|].
      rewrite (proj2 (pw_none _ _ _) H2). cbn [bind]. now rewrite H3.
  Qed.
  Lemma no_ext_same u v : co_external o = [] -> check_cred_proof E o u = Ok v -> v = u.
  Proof. intros He H. now apply (proj2 (check_result _ _ _ _ H)). Qed.

  Section Check.
    Hypothesis Hv : co_no_validation o' = co_no_validation o.
    Hypothesis Hon : co_no_proof o = false.
    Hypothesis Hoff : co_no_proof o' = true.
    Lemma json_same d : json_parser E o' d = json_parser E o d.
    Proof.
      unfold json_parser. match goal with |- bind ?x _ = _ => destruct x as [[[h m]|]| |] end; cbn [bind]; try reflexivity.
      destruct (parse_contents (ve_time E) m _) as [c| |]; cbn [bind]; try reflexivity. now rewrite Hv, (wk_validate E HE o o' W).
    Qed.
    Lemma cbor_same d : cbor_parser E o' d = cbor_parser E o d.
    Proof.
      unfold cbor_parser. match goal with |- bind ?x _ = _ => destruct x as [[[raw msg]|]| |] end; cbn [bind]; try reflexivity.
      match goal with |- bind ?x _ = _ => destruct x as [m| |] end; cbn [bind]; try reflexivity.
      destruct (parse_contents (ve_time E) m _) as [c| |]; cbn [bind]; try reflexivity. now rewrite Hv, (wk_validate E HE o o' W).
    Qed.
    Lemma pw_later p p' d v : p' d = p d -> (parse_with E o p d = Ok (Some v) <-> exists u, parse_with E o' p' d = Ok (Some u) /\ check_cred_proof E o u = Ok v).
    Proof.
      intros Hp. rewrite (pw_some o p d v eq_refl). setoid_rewrite (fun u => pw_some o' p' d u Hrel). rewrite Hon, Hoff, Hp. split.
      - intros (u & H1 & H2 & H3). exists u. split; [|assumption]. exists u. repeat split; auto.
        unfold related_ok in *. destruct (check_result _ _ _ _ H2) as [(A & _) _]. now rewrite <- A.
      - intros (u & (u' & H1 & H2 & H3) & H4). injection H2 as ->. exists u. repeat split; auto.
        unfold related_ok in *. destruct (check_result _ _ _ _ H4) as [(A & _) _]. now rewrite A.
    Qed.
    Lemma data_url_later u v : parse_data_url_cred E o u = Ok (Some v) <-> exists w, parse_data_url_cred E o' u = Ok (Some w) /\ check_cred_proof E o w = Ok v.
    Proof.
      unfold parse_data_url_cred. destruct (parse_data_url u) as [[[media x] data]| |]; cbn [bind]; [|split; [discriminate|intros (w & H & _); discriminate]..].
      destruct (String.eqb media vc_media_jwt || String.eqb media vc_media_sdjwt)%bool; [apply pw_later, json_same|].
      destruct (String.eqb media vc_media_cose); [apply pw_later, cbor_same|]. split; [discriminate|intros (w & H & _); discriminate].
    Qed.
    Lemma data_url_none u : (parse_data_url_cred E o u = Ok None <-> parse_data_url_cred E o' u = Ok None).
    Proof.
      unfold parse_data_url_cred. destruct (parse_data_url u) as [[[media x] data]| |]; cbn [bind]; [|tauto..].
      destruct (String.eqb media vc_media_jwt || String.eqb media vc_media_sdjwt)%bool; [now rewrite !pw_none, json_same|].
      destruct (String.eqb media vc_media_cose); [now rewrite !pw_none, cbor_same|]. tauto.
    Qed.
    Lemma env_none d : enveloped_parser E o d = Ok None <-> enveloped_parser E o' d = Ok None.
    Proof.
      unfold enveloped_parser. destruct (parse_json E d) as [m|]; [|tauto]. destruct (decode_type (fld m "type")) as [ts| |]; [|tauto..].
      destruct (negb (str_in enveloped_type ts)); [tauto|]. destruct (mget m "id") as [[]|]; try tauto. apply data_url_none.
    Qed.
    Lemma env_later d v : enveloped_parser E o d = Ok (Some v) <-> exists w, enveloped_parser E o' d = Ok (Some w) /\ check_cred_proof E o w = Ok v.
    Proof.
      assert (F : forall r, (r = Ok None \/ (exists e, r = @Err (option credential) e)) -> (r = Ok (Some v) <-> exists w, r = Ok (Some w) /\ check_cred_proof E o w = Ok v)).
      { intros r [->|[e ->]]; (split; [discriminate|intros (w & H & _); discriminate]). }
      unfold enveloped_parser. destruct (parse_json E d) as [m|]; [|apply F; auto]. destruct (decode_type (fld m "type")) as [ts| |]; [|apply F; auto..].
      destruct (negb (str_in enveloped_type ts)); [apply F; auto|]. destruct (mget m "id") as [[]|]; try (apply F; eauto; fail). apply data_url_later.
    Qed.
    (** a text that is not an envelope, or no contexts are added *)
    Lemma check_later d v : co_external o = [] \/ enveloped_parser E o d = Ok None ->
      (parse_credential E o d = Ok v <-> exists u, parse_credential E o' d = Ok u /\ check_cred_proof E o u = Ok v).
    Proof.
      intros Hc. setoid_rewrite parse_iff. pose proof (env_none d) as N0. pose proof (json_same d) as J0.
      assert (A : parse_with E o (enveloped_parser E o) d = Ok (Some v) <-> exists u, parse_with E o' (enveloped_parser E o') d = Ok (Some u) /\ check_cred_proof E o u = Ok v).
      { rewrite (pw_some o _ d v eq_refl). setoid_rewrite (fun u => pw_some o' (enveloped_parser E o') d u Hrel). rewrite Hon, Hoff. split.
        - intros (u & H1 & H2 & H3). destruct Hc as [Hc|Hc]; [|congruence]. apply env_later in H1 as (w & Hw & Hk). pose proof (no_ext_same _ _ Hc Hk) as ->.
          pose proof (no_ext_same _ _ Hc H2) as ->. exists w. split; [|assumption]. exists w. auto.
        - intros (u & (w & H1 & H2 & H3) & H4). injection H2 as ->. destruct Hc as [Hc|Hc].
          + pose proof (no_ext_same _ _ Hc H4) as ->. exists u. repeat split; auto. apply env_later. eauto.
          + apply env_none in Hc. congruence. }
      assert (B : parse_with E o (json_parser E o) d = Ok (Some v) <-> exists u, parse_with E o' (json_parser E o') d = Ok (Some u) /\ check_cred_proof E o u = Ok v) by (apply pw_later, json_same).
      assert (C : parse_with E o (cbor_parser E o) d = Ok (Some v) <-> exists u, parse_with E o' (cbor_parser E o') d = Ok (Some u) /\ check_cred_proof E o u = Ok v) by (apply pw_later, cbor_same).
      rewrite A, B, C. clear A B C Hc. split.
      - intros [(u & H & K)|[N [(u & H & K)|[N' (u & H & K)]]]]; exists u; rewrite J0; tauto.
      - intros (u & [H|[N [H|[N' H]]]] & K); try apply N0 in N; try rewrite J0 in N'; [left|right; split; [assumption|left]|right; split; [assumption|right; split; [assumption|]]]; eauto.
    Qed.
  End Check.

  Section Validate.
    Hypothesis Hp : co_no_proof o' = co_no_proof o.
    Hypothesis Hon : co_no_validation o = false.
    Hypothesis Hoff : co_no_validation o' = true.
    Hypothesis Hext : co_external o = [].
    Definition later (v : credential) : Prop := cr_jwt v = None -> validate_credential E (cr_contents v) (cr_json v) o = Ok tt.
    Lemma json_later d v : json_parser E o d = Ok (Some v) <-> json_parser E o' d = Ok (Some v) /\ later v.
    Proof.
      unfold json_parser, later. match goal with |- bind ?x _ = _ <-> _ => destruct x as [[[h m]|]| |] end; cbn [bind]; try (split; [discriminate|now intros [H _]]).
      destruct (parse_contents (ve_time E) m _) as [c| |]; cbn [bind]; try (split; [discriminate|now intros [H _]]).
      destruct (parse_ld_proof (fld m "proof")) as [ps| |]; cbn [bind]; try (split; [discriminate|now intros [H _]]).
      rewrite Hon, Hoff, Bool.orb_true_r, Bool.orb_false_r. cbn [bind].
      destruct (jv_jws (try_parse_jws E (unwrap_string E d))) eqn:Ej.
      - split; [|tauto]. intros H. split; [assumption|]. intros Hj. exfalso. cbn [bind] in H. apply bind_ok in H as (ds & _ & H). injection H as <-. discriminate Hj.
      - split.
        + intros H. apply bind_ok in H as ([] & Hv & H). split; [assumption|]. intros _. apply bind_ok in H as (ds & _ & H). injection H as <-. exact Hv.
        + intros [H L]. assert (Hv : validate_credential E c m o = Ok tt).
          { apply bind_ok in H as (ds & _ & H). injection H as <-. now apply L. }
          now rewrite Hv.
    Qed.
    Lemma cbor_later d v : cbor_parser E o d = Ok (Some v) <-> cbor_parser E o' d = Ok (Some v) /\ later v.
    Proof.
      unfold cbor_parser, later. match goal with |- bind ?x _ = _ <-> _ => destruct x as [[[raw msg]|]| |] end; cbn [bind]; try (split; [discriminate|now intros [H _]]).
      match goal with |- bind ?x _ = _ <-> _ => destruct x as [m| |] end; cbn [bind]; try (split; [discriminate|now intros [H _]]).
      destruct (parse_contents (ve_time E) m _) as [c| |]; cbn [bind]; try (split; [discriminate|now intros [H _]]).
      rewrite Hon, Hoff. cbn [bind]. split.
      - intros H. apply bind_ok in H as ([] & Hv & H). split; [assumption|]. intros _. injection H as <-. exact Hv.
      - intros [H L]. assert (Hv : validate_credential E c m o = Ok tt) by (injection H as <-; now apply L). now rewrite Hv.
    Qed.
    Lemma json_none d : json_parser E o d = Ok None <-> json_parser E o' d = Ok None.
    Proof.
      unfold json_parser. match goal with |- bind ?x _ = _ <-> _ => destruct x as [[[h m]|]| |] end; cbn [bind]; try tauto.
      split; intros H; repeat (let x := fresh in let Hx := fresh in apply bind_ok in H as (x & Hx & H)); discriminate H.
    Qed.
    Lemma cbor_none d : cbor_parser E o d = Ok None <-> cbor_parser E o' d = Ok None.
    Proof.
      unfold cbor_parser. match goal with |- bind ?x _ = _ <-> _ => destruct x as [[[h m]|]| |] end; cbn [bind]; try tauto.
      split; intros H; repeat (let x := fresh in let Hx := fresh in apply bind_ok in H as (x & Hx & H)); discriminate H.
    Qed.
    Lemma check_same v : check_cred_proof E o' v = check_cred_proof E o v.
    Proof. now rewrite (wk_check E o o' W). Qed.
    Lemma pw_valid p p' d v : (forall v, p d = Ok (Some v) <-> p' d = Ok (Some v) /\ later v) ->
      (parse_with E o p d = Ok (Some v) <-> parse_with E o' p' d = Ok (Some v) /\ later v).
    Proof.
      intros Hd. rewrite (pw_some o p d v eq_refl), (pw_some o' p' d v Hrel), Hp. split.
      - intros (u & H1 & H2 & H3). apply Hd in H1 as [H1 L]. assert (v = u) as -> by (destruct (co_no_proof o); [congruence|now apply no_ext_same]).
        split; [|assumption]. exists u. repeat split; auto. destruct (co_no_proof o); [assumption|]. now rewrite check_same.
      - intros [(u & H1 & H2 & H3) L]. assert (Hk : (if co_no_proof o then Ok u else check_cred_proof E o u) = Ok v) by (destruct (co_no_proof o); [assumption|now rewrite <- check_same]).
        assert (v = u) as -> by (destruct (co_no_proof o); [congruence|now apply no_ext_same]). exists u. repeat split; auto. apply Hd. auto.
    Qed.
    Lemma data_url_valid u v : parse_data_url_cred E o u = Ok (Some v) <-> parse_data_url_cred E o' u = Ok (Some v) /\ later v.
    Proof.
      unfold parse_data_url_cred. destruct (parse_data_url u) as [[[media x] data]| |]; cbn [bind]; [|split; [discriminate|now intros [H _]]..].
      destruct (String.eqb media vc_media_jwt || String.eqb media vc_media_sdjwt)%bool; [apply pw_valid; intros; apply json_later|].
      destruct (String.eqb media vc_media_cose); [apply pw_valid; intros; apply cbor_later|]. split; [discriminate|now intros [H _]].
    Qed.
    Lemma data_url_vnone u : parse_data_url_cred E o u = Ok None <-> parse_data_url_cred E o' u = Ok None.
    Proof.
      unfold parse_data_url_cred. destruct (parse_data_url u) as [[[media x] data]| |]; cbn [bind]; [|tauto..].
      destruct (String.eqb media vc_media_jwt || String.eqb media vc_media_sdjwt)%bool; [rewrite !pw_none; apply json_none|].
      destruct (String.eqb media vc_media_cose); [rewrite !pw_none; apply cbor_none|]. tauto.
    Qed.
    Lemma env_vnone d : enveloped_parser E o d = Ok None <-> enveloped_parser E o' d = Ok None.
    Proof.
      unfold enveloped_parser. destruct (parse_json E d) as [m|]; [|tauto]. destruct (decode_type (fld m "type")) as [ts| |]; [|tauto..].
      destruct (negb (str_in enveloped_type ts)); [tauto|]. destruct (mget m "id") as [[]|]; try tauto. apply data_url_vnone.
    Qed.
    Lemma env_valid d v : enveloped_parser E o d = Ok (Some v) <-> enveloped_parser E o' d = Ok (Some v) /\ later v.
    Proof.
      unfold enveloped_parser. destruct (parse_json E d) as [m|]; [|split; [discriminate|now intros [H _]]].
      destruct (decode_type (fld m "type")) as [ts| |]; [|split; [discriminate|now intros [H _]]..].
      destruct (negb (str_in enveloped_type ts)); [split; [discriminate|now intros [H _]]|]. destruct (mget m "id") as [[]|]; try (split; [discriminate|now intros [H _]]). apply data_url_valid.
    Qed.
    Lemma validate_later d v : parse_credential E o d = Ok v <-> parse_credential E o' d = Ok v /\ later v.
    Proof.
      rewrite !parse_iff, <- env_vnone, <- json_none.
      rewrite (pw_valid (enveloped_parser E o) (enveloped_parser E o') d v (env_valid d)), (pw_valid (json_parser E o) (json_parser E o') d v (json_later d)),
        (pw_valid (cbor_parser E o) (cbor_parser E o') d v (cbor_later d)). tauto.
    Qed.
    Lemma validate_json_later m v : parse_credential_json E o m = Ok v <-> parse_credential_json E o' m = Ok v /\ later v.
    Proof.
      unfold parse_credential_json. destruct (decode_type (fld m "type")) as [ts| |]; cbn [bind]; [|split; [discriminate|now intros [H _]]..].
      destruct (str_in enveloped_type ts).
      - destruct (mget m "id") as [[| | |id| |]|]; try (split; [discriminate|now intros [H _]]). split.
        + intros H. apply bind_ok in H as (r & H & Hr). destruct r as [u|]; [injection Hr as ->|discriminate]. apply data_url_valid in H as [H L]. rewrite H. auto.
        + intros [H L]. apply bind_ok in H as (r & H & Hr). destruct r as [u|]; [injection Hr as ->|discriminate]. rewrite (proj2 (data_url_valid id v)); auto.
      - destruct (parse_ld_proof (fld m "proof")) as [ps| |]; cbn [bind]; try (split; [discriminate|now intros [H _]]).
        destruct (parse_contents (ve_time E) m _) as [c| |]; cbn [bind]; try (split; [discriminate|now intros [H _]]).
        rewrite Hon, Hoff. cbn [bind]. unfold later. split.
        + intros H. apply bind_ok in H as ([] & Hv & H). split; [assumption|]. intros _. injection H as <-. exact Hv.
        + intros [H L]. assert (Hv : validate_credential E c m o = Ok tt) by (injection H as <-; now apply L). now rewrite Hv.
    Qed.
  End Validate.
End TwoPhase.
