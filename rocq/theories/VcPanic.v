(** ParseCredential and run-time panics: lemmas. *)
From Coq Require Import Permutation.
From Verif Require Import GoBase Base64 StrLemmas JwtSpec DiSpec VcSpec JwtModel JwtProofs SdSpec SdModel SdParse DiModel VcModel
  VcJwt VcParse VcProofs VcView VcText VcSecure.

Definition np {A} (r : res A) : Prop := r <> Panic.
Lemma np_ok {A} (a : A) : np (Ok a). Proof. discriminate. Qed.
Lemma np_err {A} e : np (@Err A e). Proof. discriminate. Qed.
Lemma np_bind {A B} (r : res A) (f : A -> res B) : np r -> (forall a, r = Ok a -> np (f a)) -> np (bind r f).
Proof. unfold np. destruct r; cbn; auto; discriminate. Qed.
Lemma np_rmap {A B} (f : A -> B) r : np r -> np (rmap f r).
Proof. unfold np. destruct r; cbn; auto; discriminate. Qed.
Lemma np_guard b e : np (guard b e). Proof. destruct b; discriminate. Qed.
#[export] Hint Resolve np_ok np_err np_rmap np_guard : np.
Ltac np1 :=
  match goal with
  | |- np (bind _ _) => apply np_bind; [|intros]
  | |- np (Ok _) => apply np_ok
  | |- np (Err _) => apply np_err
  | |- np (guard _ _) => apply np_guard
  | |- np (rmap _ _) => apply np_rmap
  | |- np (if ?b then _ else _) => destruct b
  | |- np (match ?x with _ => _ end) => destruct x
  | |- np (let '(_, _) := ?x in _) => destruct x
  end.
Ltac np := repeat (np1 || solve [auto with np]).
Lemma np_map_res {A B} (f : A -> res B) l : (forall x, np (f x)) -> np (map_res f l).
Proof. intros H. induction l; cbn [map_res]; np. Qed.
#[export] Hint Resolve np_map_res : np.

Lemma np_str m k : np (parse_string_fld m k). Proof. unfold parse_string_fld. np. Qed.
#[export] Hint Resolve np_str : np.
Lemma np_typed m : np (parse_typed_obj m). Proof. unfold parse_typed_obj. np. Qed.
#[export] Hint Resolve np_typed : np.
Lemma np_objof e j : np (obj_of e j). Proof. unfold obj_of. np. Qed.
#[export] Hint Resolve np_objof : np.
Lemma np_time E m k : np (parse_time_fld E m k). Proof. unfold parse_time_fld, parse_wrapper. np. Qed.
#[export] Hint Resolve np_time : np.
Lemma np_typed_id v : np (parse_typed_id v).
Proof. unfold parse_typed_id. np. apply np_map_res. intros; np. Qed.
#[export] Hint Resolve np_typed_id : np.
Lemma np_dtype v : np (decode_type v).
Proof. unfold decode_type. np. apply np_map_res. intros; np. Qed.
Lemma np_ctx v : np (decode_context v). Proof. unfold decode_context. np. Qed.
Lemma np_issuer v : np (parse_issuer v). Proof. unfold parse_issuer, issuer_from. np. Qed.
Lemma np_subject v : np (parse_subject v).
Proof. unfold parse_subject, subject_from. np. apply np_map_res. intros; np. Qed.
Lemma np_typed_arr v : np (new_typed_array v). Proof. unfold new_typed_array. np. Qed.
Lemma np_related E v : np (parse_related E v).
Proof. unfold parse_related. np. apply np_map_res. intros; np. Qed.
Lemma np_hash s : np (parse_hash_alg s). Proof. unfold parse_hash_alg. np. Qed.
#[export] Hint Resolve np_dtype np_ctx np_issuer np_subject np_typed_arr np_related np_hash : np.
Lemma np_ghash m : np (get_crypto_hash m). Proof. unfold get_crypto_hash. np. Qed.
#[export] Hint Resolve np_ghash : np.
Lemma np_sdalg m s b : np (parse_sd_alg m s b). Proof. unfold parse_sd_alg, parse_sd_alg_value. np. Qed.
#[export] Hint Resolve np_sdalg : np.
Lemma np_contents E m sd : np (parse_contents E m sd).
Proof. unfold parse_contents, parse_refresh. np. Qed.
#[export] Hint Resolve np_contents : np.
Lemma np_ldproof v : np (parse_ld_proof v). Proof. unfold parse_ld_proof. np. Qed.
Lemma np_getproofs v : np (get_proofs v). Proof. unfold get_proofs. np. Qed.
#[export] Hint Resolve np_ldproof np_getproofs : np.

(** *** SD-JWT disclosures *)
Lemma np_gdc E h s : np (get_disclosure_claim E h s).
Proof. unfold get_disclosure_claim. np. Qed.
Lemma np_gdm E h l : forall acc, np (get_disclosure_map E h l acc).
Proof. induction l; cbn [get_disclosure_map]; intros; np. apply np_gdc. Qed.
Lemma np_elems clean setv l : (forall d c st, np (setv d c st)) -> forall st, np (elems_loop clean setv l st).
Proof. intros H. induction l; cbn [elems_loop]; intros; np. unfold elem_step. np. Qed.
Lemma np_sds setv l : (forall d c st, np (setv d c st)) -> forall acc mi st, np (sds_loop setv l acc mi st).
Proof. intros H. induction l; cbn [sds_loop]; intros; np. Qed.
Lemma np_strarr j : np (string_array j). Proof. unfold string_array. np. Qed.
Lemma np_dcv clean setv : (forall d c st, np (setv d c st)) -> forall j st, np (dcv clean setv j st).
Proof.
  intros H. induction j using json_ind'; cbn [dcv]; intros; np.
  - now apply np_elems.
  - unfold sd_part. np; auto using np_strarr, np_sds.
  - clear H1. generalize (fst a), (snd a). induction H0 as [|[k v] m Hv Hm IH]; cbn [members_loop]; intros; np; solve [auto | apply Hv].
Qed.
Lemma np_setv rec d c st : (forall j st, np (rec j st)) -> np (set_value rec d c st).
Proof. intros H. unfold set_value. np. Qed.
Lemma np_disclose clean f : forall j st, np (disclose clean f j st).
Proof. induction f; cbn [disclose]; intros; np. apply np_dcv. intros. now apply np_setv. Qed.
Lemma np_verifyd E ds m : np (verify_disclosures E ds m).
Proof. unfold verify_disclosures, disclose_top. np; auto using np_gdm, np_disclose. Qed.
Lemma np_setall f l : forall st, np (set_all f l st).
Proof. induction l; cbn [set_all]; intros; np. apply np_setv. intros. apply np_disclose. Qed.
Lemma np_gdclaims E h ds o : np (get_disclosure_claims E h ds o).
Proof. unfold get_disclosure_claims. np; auto using np_gdm, np_setall. Qed.
#[export] Hint Resolve np_verifyd np_gdclaims : np.

(** *** JWT payloads *)
(** a payload with a registered claim (in any case) and another claim *)
Definition usable_payload (ms : gomap json) : Prop :=
  (exists r k, In r registered /\ In k (map fst ms) /\ equal_fold r k = true)
  /\ (exists k, In k (map fst ms) /\ ~ In k registered).
Lemma np_fold {A} (step : A -> json -> res A) l a : (forall x j, np (step x j)) -> np (fold_res step l a).
Proof.
  intros H. unfold fold_res. assert (G : np (Ok a)) by apply np_ok. revert G. generalize (Ok a).
  induction l; cbn [fold_left]; intros r G; [assumption|]. apply IHl. np.
Qed.
Lemma np_unmarshal ms : np (unmarshal_claims ms).
Proof.
  unfold unmarshal_claims, decode_claims. np; try apply np_fold; intros; unfold str_step, aud_step, date_step, map_step; np.
Qed.
Lemma field_names_sub c k : vc_len0 c = true -> In k (field_names c) -> In k registered.
Proof.
  intros Hl. unfold field_names. rewrite Hl. unfold omit_empty. cbn [app]. rewrite !in_app_iff.
  intros H. repeat destruct H as [H|H]; try (destruct (_ : bool) in H; cbn in H; [contradiction|]); cbn; cbn in H; tauto.
Qed.
Lemma usable_claims ms c : usable_payload ms -> unmarshal_claims ms = Ok c -> jc_alloc c = true /\ jc_vc c <> None.
Proof.
  intros [(r & k & Hr & Hk & He) (k2 & Hk2 & Hn2)] H. unfold unmarshal_claims in H. apply bind_ok in H as (d & Hd & H).
  injection H as Hc.
  assert (Ha : jc_alloc d = true).
  { unfold decode_claims in Hd. repeat (apply bind_ok in Hd as (? & _ & Hd)). injection Hd as <-.
    apply (proj2 (existsb_exists (fun k => match occurrences k ms with [] => false | _ => true end) registered)). exists r. split; [assumption|]. unfold occurrences.
    apply in_map_iff in Hk as ((k' & v) & Hkk & Hin). cbn in Hkk. subst k'.
    destruct (filter _ ms) eqn:Ef; [|reflexivity]. exfalso.
    assert (In (k, v) []) as []. rewrite <- Ef. apply filter_In. auto. }
  destruct (vc_len0 d) eqn:El.
  - assert (Hcu : is_empty (filter (fun kv => negb (str_in (fst kv) (field_names d))) (to_map ms)) = false).
    { destruct (filter _ (to_map ms)) as [|x l] eqn:Ef; [|reflexivity]. exfalso.
      assert (Hin : exists v, In (k2, v) (to_map ms)).
      { assert (Hg : mget (to_map ms) k2 <> None).
        { unfold to_map. clear -Hk2. revert Hk2.
          assert (G : forall acc, mget acc k2 <> None \/ In k2 (map fst ms) ->
             mget (fold_left (fun acc (kv : string * json) => mset acc (fst kv) (snd kv)) ms acc) k2 <> None).
          { induction ms as [|[k v] ms IH]; cbn [fold_left map fst snd]; intros acc [H|H]; try assumption; [contradiction| |].
            - apply IH. left. rewrite mget_mset. destruct (String.eqb k2 k); [discriminate|assumption].
            - apply IH. destruct H as [<-|H]; [|now right]. left. rewrite mget_mset, String.eqb_refl. discriminate. }
          intros H. apply G. now right. }
        destruct (mget (to_map ms) k2) as [v|] eqn:Eg; [|contradiction]. exists v. now apply mget_In. }
      destruct Hin as (v & Hin). assert (In (k2, v) []) as []. rewrite <- Ef. apply filter_In. split; [assumption|].
      cbn [fst]. apply negb_true_iff, str_in_nIn. intros Hf. apply Hn2. eapply field_names_sub; eassumption. }
    rewrite Hcu in Hc. cbn [negb andb] in Hc. subst c. cbn. split; [assumption|discriminate].
  - rewrite andb_false_r in Hc. subst c. split; [assumption|]. unfold vc_len0 in El. destruct (jc_vc d); [discriminate|discriminate].
Qed.
Lemma oset_some (x : gomap json) k v : exists y, oset (Some x) k v = Ok (Some y). Proof. cbn. eauto. Qed.
Lemma np_refine T c : jc_alloc c = true -> jc_vc c <> None -> np (refine T c).
Proof.
  intros Ha Hv. unfold refine. rewrite Ha. cbn [negb]. destruct (jc_vc c) as [m|]; [clear Hv|contradiction].
  set (P := fun r : res (option (gomap json)) => np r /\ forall x, r = Ok x -> x <> None).
  assert (PB : forall r f, P r -> (forall y, P (f (Some y))) -> P (bind r f)).
  { intros r f [H1 H2] Hf. destruct r as [x| |]; cbn [bind].
    - specialize (H2 x eq_refl). destruct x; [apply Hf|contradiction].
    - split; [apply np_err|discriminate].
    - now destruct H1. }
  assert (PO : forall x, P (Ok (Some x))) by (intros; split; [apply np_ok|intros ? [= <-]; discriminate]).
  assert (PD : forall d y a b, P (refine_date T d (Some y) a b)) by (intros [d|] y a b; cbn; apply PO).
  assert (PE : forall e, P (Err e)) by (intros; split; [apply np_err|discriminate]).
  enough (G : P (let* m0 := if String.eqb (jc_iss c) "" then Ok (Some m) else refine_issuer (Some m) (jc_iss c) in
    let* m1 := refine_date T (jc_nbf c) m0 "validFrom" "issuanceDate" in
    let* m2 := if String.eqb (jc_jti c) "" then Ok m1 else oset m1 "id" (JStr (jc_jti c)) in
    let* m3 := refine_date T (jc_iat c) m2 "validFrom" "issuanceDate" in
    refine_date T (jc_exp c) m3 "validUntil" "expirationDate")) by apply G.
  apply PB.
  - destruct (String.eqb (jc_iss c) ""); [apply PO|]. unfold refine_issuer. cbn [oget].
    destruct (mget m "issuer") as [j|]; [|apply PO].
    assert (Hs : np (match j with JStr s => Ok s | JObj o => parse_string_fld o "id" | _ => Ok "" end)) by np.
    destruct (match j with JStr s => Ok s | JObj o => parse_string_fld o "id" | _ => Ok "" end); cbn [bind]; [|apply PE|now destruct Hs].
    destruct (_ && _); [apply PE|]. destruct j; cbn [oset]; apply PO.
  - intros y. apply PB; [apply PD|]. intros y1. apply PB; [destruct (String.eqb (jc_jti c) ""); cbn [oset]; apply PO|].
    intros y2. apply PB; [apply PD|]. intros y3. apply PD.
Qed.
Lemma np_check_headers h : np (check_headers h).
Proof. unfold check_headers, check_typ_header. np. Qed.
Lemma np_decode_jwt E tok : (forall t, np (de_jws (ve_jwt E) t None)) ->
  (forall j ms, de_jws (ve_jwt E) tok None = Ok j -> ve_members E (jws_payload j) = Some ms -> usable_payload ms) ->
  np (decode_cred_jwt (ve_time E) (ve_jwt E) (ve_members E) tok).
Proof.
  intros Hj Hu. unfold decode_cred_jwt. apply np_bind.
  - unfold jwt_parse, parse_jwt, map_jws. np. apply np_check_headers.
  - intros [t p] Hp. cbn [fst snd].
    assert (Hjp : exists j, de_jws (ve_jwt E) tok None = Ok j /\ jws_payload j = p).
    { unfold jwt_parse, parse_jwt, map_jws in Hp. apply bind_ok in Hp as (? & _ & Hp). apply bind_ok in Hp as (j & Hd & Hp).
      apply bind_ok in Hp as (? & _ & Hp). apply bind_ok in Hp as (? & _ & Hp). apply bind_ok in Hp as (? & _ & Hp). injection Hp as _ <-. eauto. }
    destruct Hjp as (j & Hd & <-). unfold claims_of. destruct (ve_members E (jws_payload j)) as [ms|] eqn:Em; cbn [bind]; [|apply np_err].
    apply np_bind; [apply np_unmarshal|]. intros c Hc. destruct (usable_claims _ _ (Hu _ _ Hd Em) Hc). apply np_bind; [now apply np_refine|].
    intros; apply np_ok.
Qed.

(** *** The parsers *)
(** the libraries and checkers do not panic *)
Definition calm (E : venv) (o : copts) : Prop :=
  (forall t, np (de_jws (ve_jwt E) t None)) /\ (forall u, np (ve_schema E u)) /\ (forall s m, np (ve_valid E s m))
  /\ (forall b m, np (ve_jsonld E o b m)) /\ (forall m, np (ve_ldproofs E m)) /\ (forall p m, np (ve_ldmsg E p m))
  /\ (forall l, np (ve_related E l))
  /\ (forall m ps p, ve_ldproofs E m = Ok ps -> In p ps -> np (lp_sig p))
  /\ (forall d c, ve_cose E d = Some c -> np (co_alg c) /\ np (co_tbs c))
  /\ (forall pc, co_jwt_check o = Some pc -> forall h i m s, np (pc h i m s))
  /\ (forall pc, co_cwt_check o = Some pc -> forall h i m s, np (pc h i m s))
  /\ (forall pc, co_ld_check o = Some pc -> forall p i m s, np (pc p i m s))
  /\ (forall V, co_di o = Some V -> forall j, np (snd (verify_proof (ve_di E) V (ve_now E) j (di_opts o)))).
Section Calm.
  Context (E : venv) (o : copts) (HC : calm E o) (Hmode : co_mode o <> MBase).
  Lemma np_validate c m : np (validate_credential E c m o).
  Proof.
    destruct HC as (_ & H1 & H2 & H3 & _). unfold validate_credential.
    assert (Hs : forall m, np (validate_schema E m c o)).
    { intros. unfold validate_schema, get_schema. np. generalize (vc_schemas c). induction l as [|t l IH]; cbn [custom_schema]; np. }
    assert (Hl : forall m, np (validate_jsonld E m c o)) by (intros; unfold validate_jsonld, get_base_context; np).
    destruct (co_mode o); [np|np|contradiction|]. unfold validate_extended. np.
  Qed.
  Lemma np_check a : sourced E a -> np (check_cred_proof E o a).
  Proof.
    destruct HC as (H0 & _ & _ & _ & H4 & H5 & _ & H6 & H7 & H8 & H9 & H10 & H11). intros Hs. unfold check_cred_proof.
    destruct (vc_issuer _) as [i|]; [|apply np_err].
    destruct (cr_jwt a) as [je|].
    - destruct (co_jwt_check o) as [pc|] eqn:Ep; [|apply np_err]. unfold check_proof, jose_verify. np; try now apply H8.
    - destruct (cr_cwt a) as [ce|] eqn:Ec.
      + destruct (co_cwt_check o) as [pc|] eqn:Ep; [|apply np_err].
        destruct (proj2 Hs ce Ec) as (Hm & _). destruct (H7 _ _ Hm) as [Ha Ht]. unfold cwt_check_proof. np; try assumption; try now apply H9.
      + apply np_bind; [|intros; apply np_ok]. unfold check_embedded. destruct (fld _ _) as [pj|]; [|apply np_err].
        apply np_bind; [apply np_getproofs|]. intros ps _. destruct (is_di ps).
        * unfold check_di. destruct (co_di o) as [V|]; np; try now apply H11.
        * destruct (co_ld_check o) as [chk|] eqn:Ep; [|apply np_err]. apply np_bind; [apply H4|]. intros l Hl.
          apply np_bind; [|intros; apply np_ok]. assert (Hsig : forall p, In p l -> np (lp_sig p)) by (intros; eapply H6; eassumption). clear Hl.
          induction l as [|p l IH]; cbn [verify_ld]; [apply np_ok|]. apply np_bind; [apply H5|]. intros ? _.
          apply np_bind; [apply Hsig; now left|]. intros ? _. cbn [bind]. apply np_bind; [now apply H10|]. intros ? _. apply IH. intros; apply Hsig; now right.
  Qed.
  Definition tokens_of (d tok : string) : Prop :=
    tok = jv_jwt (try_parse_jws E (unwrap_string E d)) \/ tok = unwrap_string E d.
  Definition usable_tokens (d : string) : Prop :=
    forall tok j ms, tokens_of d tok -> de_jws (ve_jwt E) tok None = Ok j -> ve_members E (jws_payload j) = Some ms -> usable_payload ms.
  Lemma np_json_parser d : usable_tokens d -> np (json_parser E o d).
  Proof.
    intros Hu. pose proof HC as (H0 & _). unfold json_parser.
    assert (G : forall tok, tokens_of d tok -> np (decode_cred_jwt (ve_time E) (ve_jwt E) (ve_members E) tok)).
    { intros tok Ht. apply np_decode_jwt; [assumption|]. intros j ms H1 H2. eapply Hu; eassumption. }
    apply np_bind.
    - destruct (jv_jws _) eqn:Ej.
      + apply np_bind; [apply G; now left|]. intros. unfold validate_disclosures. np.
      + destruct (is_jwt_unsecured _ _); [apply np_rmap, G; now right|np].
    - intros hm _. unfold parse_disclosures. np. apply np_validate.
  Qed.
  Lemma np_cbor_parser d : np (cbor_parser E o d).
  Proof. unfold cbor_parser. np. apply np_validate. Qed.
  Lemma np_parse_with p d : np (p d) -> (forall v, p d = Ok (Some v) -> sourced E v) -> np (parse_with E o p d).
  Proof.
    intros H1 H2. pose proof HC as (_ & _ & _ & _ & _ & _ & Hr & _). unfold parse_with. apply np_bind; [assumption|].
    intros [v|] Hv; [|apply np_ok]. apply np_bind; [|intros; np]. destruct (co_no_proof o); [apply np_ok|]. apply np_check. auto.
  Qed.
  Lemma np_data_url u d : np (parse_data_url u) -> (forall m e d', parse_data_url u = Ok (m, e, d') -> d' = d) -> usable_tokens d ->
    np (parse_data_url_cred E o u) .
  Proof.
    intros Hu Hd Ht. unfold parse_data_url_cred. apply np_bind; [assumption|]. intros [[m e] d'] Hp.
    assert (d' = d) by eauto. subst d'. np; apply np_parse_with; eauto using np_json_parser, np_cbor_parser, json_parser_sourced, cbor_parser_sourced.
  Qed.
  Lemma np_parse_url u : np (parse_data_url u). Proof. unfold parse_data_url. np. Qed.
  Lemma data_url_sourced u v : parse_data_url_cred E o u = Ok (Some v) -> sourced E v.
  Proof.
    unfold parse_data_url_cred. intros H. apply bind_ok in H as ([[m e] d] & _ & H).
    assert (G : forall p, parse_with E o p d = Ok (Some v) -> (forall w, p d = Ok (Some w) -> sourced E w) -> sourced E v).
    { intros p Hp Hs. apply parse_with_ok in Hp as (v0 & H0 & Hc & _). eapply sourced_upd; [apply Hs, H0|]. eapply checked_same; eassumption. }
    destruct (_ || _); [eapply G; [exact H|apply json_parser_sourced]|]. destruct (String.eqb m vc_media_cose); [|discriminate].
    eapply G; [exact H|apply cbor_parser_sourced].
  Qed.
  Lemma np_parse_credential d : (forall d', reaches E d d' -> usable_tokens d') -> np (parse_credential E o d).
  Proof.
    intros Hu. unfold parse_credential. cbn [try_parsers].
    assert (He : np (enveloped_parser E o d)).
    { unfold enveloped_parser. destruct (parse_json E d) as [m|] eqn:Em; [|apply np_ok].
      destruct (decode_type (fld m "type")) as [ts| |] eqn:Ed; [|apply np_ok..]. destruct (negb (str_in enveloped_type ts)) eqn:Ei; [apply np_ok|].
      destruct (mget m "id") as [[| | |u| |]|] eqn:Eu; try apply np_err.
      pose proof (np_parse_url u) as Hpu. destruct (parse_data_url u) as [[[me en] d']| |] eqn:Ep.
      - apply (np_data_url u d'); [now rewrite Ep|congruence|]. apply Hu. apply negb_false_iff, str_in_In in Ei. eapply rc_env; eassumption.
      - unfold parse_data_url_cred. rewrite Ep. apply np_err.
      - now destruct Hpu. }
    assert (Hes : forall v, enveloped_parser E o d = Ok (Some v) -> sourced E v).
    { intros v. unfold enveloped_parser. destruct (parse_json E d) as [m|]; [|discriminate]. destruct (decode_type _); [|discriminate..].
      destruct (negb _); [discriminate|]. destruct (mget m "id") as [[]|]; try discriminate. apply data_url_sourced. }
    assert (Hs : usable_tokens d) by (apply Hu; constructor).
    repeat (apply np_bind; [apply np_parse_with; eauto using np_json_parser, np_cbor_parser, json_parser_sourced, cbor_parser_sourced|intros [?|] _; [apply np_ok|]]).
    apply np_err.
  Qed.
End Calm.
