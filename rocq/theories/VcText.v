(** Lemmas: ParseCredential on the text of a JSON object, and what an accepted credential went through. *)
From Coq Require Import Permutation.
From Verif Require Import GoBase Base64 StrLemmas JwtSpec DiSpec VcSpec JwtModel SdSpec SdModel SdParse DiModel VcModel
  VcJwt VcParse VcProofs VcView.

(** *** to_map *)
Lemma to_map_snoc ms : forall acc, NoDup (map fst (acc ++ ms)%list) ->
  fold_left (fun a (kv : string * json) => mset a (fst kv) (snd kv)) ms acc = (acc ++ ms)%list.
Proof.
  induction ms as [|[k v] ms IH]; intros acc H; cbn [fold_left fst snd]; [now rewrite app_nil_r|].
  assert (Hk : no_key k acc).
  { unfold no_key. rewrite map_app in H. cbn [map fst] in H. apply NoDup_remove_2 in H. rewrite in_app_iff in H. tauto. }
  rewrite mset_new by assumption. rewrite IH.
  - now rewrite <- app_assoc.
  - now rewrite <- app_assoc.
Qed.
Lemma to_map_nodup ms : NoDup (map fst ms) -> to_map ms = ms.
Proof. intros H. unfold to_map. now rewrite to_map_snoc. Qed.
Lemma mget_to_map_nodup_keys ms : NoDup (map fst (to_map ms)).
Proof.
  unfold to_map. enough (H : forall acc, NoDup (map fst acc) ->
    NoDup (map fst (fold_left (fun a (kv : string * json) => mset a (fst kv) (snd kv)) ms acc))) by (apply H; constructor).
  induction ms as [|[k v] ms IH]; intros acc H; cbn [fold_left]; [assumption|]. apply IH. now apply mset_nodup.
Qed.

(** *** A text that starts with '{' is not a token *)
Definition brace : ascii := ascii_of_nat 123.
Lemma b64_brace s : b64_decode (String brace s) = None.
Proof.
  unfold b64_decode.
  assert (Hs : strip_crlf (String brace s) = String brace (strip_crlf s)) by reflexivity.
  rewrite Hs. generalize (strip_crlf s) as t. intros t.
  assert (Hb : b64_val brace = None) by reflexivity.
  destruct t as [|a [|b [|c t]]]; cbn [b64_quanta]; now rewrite ?Hb.
Qed.
Lemma split_brace sep s : sep <> brace -> exists p ps, split_on sep (String brace s) = String brace p :: ps.
Proof.
  intros H. cbn [split_on]. destruct (Ascii.eqb_spec brace sep) as [Heq|Hne]; [congruence|].
  destruct (split_on sep s) as [|p ps] eqn:E; [now apply split_on_nonempty in E|]. eauto.
Qed.
Lemma is_jws_brace f s : is_jws f (String brace s) = false.
Proof.
  unfold is_jws. destruct (split_brace "." s) as (p & ps & ->); [discriminate|].
  destruct ps as [|b [|c [|]]]; try reflexivity. unfold is_valid_json at 1. now rewrite b64_brace.
Qed.
Lemma unsecured_brace f s : is_jwt_unsecured f (String brace s) = false.
Proof.
  unfold is_jwt_unsecured. destruct (split_brace "." s) as (p & ps & ->); [discriminate|].
  destruct ps as [|b [|c [|]]]; try reflexivity. unfold is_valid_json at 1. now rewrite b64_brace.
Qed.
Definition no_jws : jwsvc := {| jv_jws := false; jv_sd := false; jv_jwt := ""; jv_discs := []; jv_binding := "" |}.
Lemma try_parse_brace E s : try_parse_jws E (String brace s) = no_jws.
Proof.
  unfold try_parse_jws. unfold parse_presentation, parse_issuance.
  destruct (split_brace tilde s) as (p & ps & Hs); [discriminate|]. rewrite Hs. cbn [hd].
  set (b1 := (1 <? List.length (String brace p :: ps))%nat).
  set (b2 := String.eqb _ "" || _). cbn [cp_jwt ci_jwt].
  destruct b1.
  - destruct b2; now rewrite is_jws_brace.
  - now rewrite is_jws_brace.
Qed.
Lemma un_quote_brace s : un_quote (String brace s) = String brace s.
Proof. unfold un_quote. change (Ascii.eqb brace quote_char) with false. now rewrite andb_false_r. Qed.

(** [json_text E data m]: [data] is a JSON text of the object [m]; no member is called "jwt" (in any case). *)
Definition json_text (E : venv) (data : string) (m : gomap json) : Prop :=
  exists rest ms, data = String brace rest /\ ve_members E data = Some ms /\ Permutation ms m
    /\ NoDup (map fst m) /\ (forall k, In k (map fst m) -> equal_fold "jwt" k = false).

Lemma unwrap_json_text E data m : json_text E data m -> unwrap_string E data = data.
Proof.
  intros (rest & ms & -> & Hms & Hp & Hnd & Hj). unfold unwrap_string. rewrite Hms.
  assert (Ho : occurrences "jwt" ms = []).
  { unfold occurrences. rewrite filter_none; [reflexivity|]. intros [k v] Hin. apply Hj.
    apply (Permutation_in (k, v) Hp) in Hin. change k with (fst (k, v)). now apply in_map. }
  rewrite Ho. unfold fold_res. cbn [fold_left]. apply un_quote_brace.
Qed.
Lemma parse_json_text E data m : json_text E data m -> exists ms, parse_json E data = Some ms /\ Permutation ms m.
Proof.
  intros (rest & ms & -> & Hms & Hp & Hnd & Hj). unfold parse_json. rewrite Hms. cbn [option_map].
  exists ms. split; [|assumption]. f_equal. apply to_map_nodup.
  eapply Permutation_NoDup; [apply Permutation_map, Permutation_sym, Hp|assumption].
Qed.
Lemma json_parser_text E o data m : json_text E data m ->
  exists ms, Permutation ms m /\ json_parser E o data =
    let* c := parse_contents (ve_time E) ms false in
    let* ps := parse_ld_proof (fld ms "proof") in
    let* _ := if co_no_validation o then Ok tt else validate_credential E c ms o in
    Ok (Some {| cr_json := ms; cr_contents := c; cr_proofs := ps; cr_jwt := None; cr_cwt := None |}).
Proof.
  intros H. pose proof (unwrap_json_text _ _ _ H) as Hu. pose proof (parse_json_text _ _ _ H) as (ms & Hpj & Hp).
  destruct H as (rest & _ & -> & _).
  exists ms. split; [assumption|]. unfold json_parser. rewrite Hu, try_parse_brace. cbn [jv_jws no_jws].
  rewrite unsecured_brace, Hpj. cbn [option_map bind jv_sd no_jws jv_discs orb parse_disclosures].
  reflexivity.
Qed.
Lemma fld_perm (a b : gomap json) k : Permutation a b -> NoDup (map fst b) -> fld a k = fld b k.
Proof. intros Hp Hn. apply fld_mget. symmetry. apply mget_perm; [assumption|now apply Permutation_sym]. Qed.
Lemma parse_contents_perm E a b sd : Permutation a b -> NoDup (map fst b) -> parse_contents E a sd = parse_contents E b sd.
Proof. intros Hp Hn. apply parse_contents_agree. intros k _. now apply fld_perm. Qed.
Lemma enveloped_other E o data m ts : json_text E data m -> decode_type (fld m "type") = Ok ts ->
  ~ In enveloped_type ts -> enveloped_parser E o data = Ok None.
Proof.
  intros H Ht Hn. pose proof (parse_json_text _ _ _ H) as (ms & Hpj & Hp). unfold enveloped_parser.
  rewrite Hpj. assert (Hnd : NoDup (map fst m)) by (destruct H as (? & ? & _ & _ & _ & ? & _); assumption).
  rewrite (fld_perm ms m) by assumption. rewrite Ht. apply str_in_nIn in Hn. now rewrite Hn.
Qed.

(** *** What an accepted credential went through *)
(** the same credential, except that its JSON object may have got a new "@context" *)
Inductive same_cred : credential -> credential -> Prop :=
| sc_intro a b : cr_contents b = cr_contents a -> cr_proofs b = cr_proofs a -> cr_jwt b = cr_jwt a -> cr_cwt b = cr_cwt a ->
    (cr_json b = cr_json a \/ (cr_jwt a = None /\ cr_cwt a = None /\ exists j, cr_json b = mset (cr_json a) "@context" j)) ->
    same_cred a b.
Definition checked (E : venv) (o : copts) (a b : credential) : Prop :=
  if co_no_proof o then b = a else check_cred_proof E o a = Ok b.
Lemma check_embedded_doc E o m iss m' : check_embedded E o m iss = Ok m' ->
  match co_external o with [] => m' = m | ext => m' = mset m "@context" (ve_ext E (mget m "@context") ext) end.
Proof.
  unfold check_embedded. destruct (fld m "proof"); [|discriminate]. intros H.
  apply bind_ok in H as (ps & _ & H).
  set (m1 := match co_external o with [] => m | _ :: _ => _ end) in H.
  assert (Hm : m' = m1).
  { destruct (is_di ps).
    - apply bind_ok in H as (u & _ & H). congruence.
    - destruct (co_ld_check o); [|discriminate]. apply bind_ok in H as (lx & _ & H).
      apply bind_ok in H as (u & _ & H). congruence. }
  subst m' m1. now destruct (co_external o).
Qed.
Lemma check_cred_same E o a b : check_cred_proof E o a = Ok b ->
  cr_contents b = cr_contents a /\ cr_proofs b = cr_proofs a /\ cr_jwt b = cr_jwt a /\ cr_cwt b = cr_cwt a /\
  (b = a \/ (cr_jwt a = None /\ cr_cwt a = None /\ co_external o <> [] /\
      cr_json b = mset (cr_json a) "@context" (ve_ext E (mget (cr_json a) "@context") (co_external o)))).
Proof.
  unfold check_cred_proof. destruct (vc_issuer (cr_contents a)); [|discriminate].
  destruct (cr_jwt a) as [je|] eqn:Ej.
  - destruct (co_jwt_check o); [|discriminate]. intros H. apply bind_ok in H as (u & _ & H). injection H as <-. auto 10.
  - destruct (cr_cwt a) as [ce|] eqn:Ec.
    + destruct (co_cwt_check o); [|discriminate]. intros H. apply bind_ok in H as (t & _ & H).
      apply bind_ok in H as (u & _ & H). injection H as <-. auto 10.
    + intros H. apply bind_ok in H as (m & Hm & H). injection H as <-. cbn.
      rewrite Ej, Ec. do 4 (split; [reflexivity|]).
      apply check_embedded_doc in Hm. destruct (co_external o) eqn:Ex.
      * left. subst m. unfold upd_doc. destruct a; cbn in *. congruence.
      * right. repeat split; auto. discriminate.
Qed.
(** the parsed text was handed over as is, or sat in the data URL of an enveloping object *)
Inductive reaches (E : venv) : string -> string -> Prop :=
| rc_self d : reaches E d d
| rc_env d m ts id media enc d' : parse_json E d = Some m -> decode_type (fld m "type") = Ok ts -> In enveloped_type ts ->
    mget m "id" = Some (JStr id) -> parse_data_url id = Ok (media, enc, d') -> reaches E d d'.
Lemma parse_with_ok E o p d v : parse_with E o p d = Ok (Some v) ->
  exists v0, p d = Ok (Some v0) /\ checked E o v0 v
    /\ (co_no_related o = false -> ve_related E (vc_related (cr_contents v)) = Ok tt).
Proof.
  unfold parse_with. intros H. apply bind_ok in H as (r & Hr & H). destruct r as [v0|]; [|discriminate].
  apply bind_ok in H as (v1 & Hv & H). apply bind_ok in H as (u & Hu & H). injection H as <-.
  exists v0. split; [assumption|]. unfold checked. split.
  - destruct (co_no_proof o); [congruence|assumption].
  - intros Hn. rewrite Hn in Hu. now destruct u.
Qed.
Lemma parse_credential_ok E o d v : parse_credential E o d = Ok v ->
  exists d' v0 v1, reaches E d d' /\ (json_parser E o d' = Ok (Some v0) \/ cbor_parser E o d' = Ok (Some v0))
    /\ checked E o v0 v1 /\ (v = v1 \/ checked E o v1 v).
Proof.
  unfold parse_credential. cbn [try_parsers]. intros H.
  apply bind_ok in H as (r1 & H1 & H). destruct r1 as [x|].
  - injection H as ->. apply parse_with_ok in H1 as (v0 & H0 & Hc & _).
    unfold enveloped_parser in H0. destruct (parse_json E d) as [m|] eqn:Em; [|discriminate].
    destruct (decode_type (fld m "type")) as [ts| |] eqn:Et; try discriminate.
    destruct (str_in enveloped_type ts) eqn:Ei; [|discriminate]. cbn [negb] in H0.
    destruct (mget m "id") as [[]|] eqn:Eid; try discriminate.
    unfold parse_data_url_cred in H0. apply bind_ok in H0 as ([[media enc] dd] & Hu & H0).
    assert (Hr : reaches E d dd) by (eapply rc_env; eauto; now apply str_in_In).
    destruct (String.eqb media vc_media_jwt || String.eqb media vc_media_sdjwt).
    + apply parse_with_ok in H0 as (w0 & Hw & Hcw & _). exists dd, w0, v0. auto.
    + destruct (String.eqb media vc_media_cose); [|discriminate].
      apply parse_with_ok in H0 as (w0 & Hw & Hcw & _). exists dd, w0, v0. auto.
  - apply bind_ok in H as (r2 & H2 & H). destruct r2 as [x|].
    + injection H as ->. apply parse_with_ok in H2 as (v0 & H0 & Hc & _).
      exists d, v0, v. auto using rc_self.
    + apply bind_ok in H as (r3 & H3 & H). destruct r3 as [x|]; [|discriminate].
      injection H as ->. apply parse_with_ok in H3 as (v0 & H0 & Hc & _).
      exists d, v0, v. auto using rc_self.
Qed.
Lemma checked_no_ext E o a b : co_external o = [] -> checked E o a b -> b = a.
Proof.
  unfold checked. intros He. destruct (co_no_proof o); [auto|]. intros H.
  apply check_cred_same in H as (_ & _ & _ & _ & [?|(_ & _ & Hx & _)]); [assumption|contradiction].
Qed.
Lemma json_parser_contents E o d v : json_parser E o d = Ok (Some v) ->
  exists sd, parse_contents (ve_time E) (cr_json v) sd = Ok (cr_contents v).
Proof.
  unfold json_parser. intros H. apply bind_ok in H as (hm & _ & H). destruct hm as [[h m]|]; [|discriminate].
  apply bind_ok in H as (c & Hc & H). apply bind_ok in H as (ps & _ & H). apply bind_ok in H as (u & _ & H).
  apply bind_ok in H as (ds & _ & H). injection H as <-. cbn. eauto.
Qed.
Lemma cbor_parser_contents E o d v : cbor_parser E o d = Ok (Some v) ->
  parse_contents (ve_time E) (cr_json v) false = Ok (cr_contents v).
Proof.
  unfold cbor_parser. intros H. apply bind_ok in H as (dm & _ & H). destruct dm as [[raw msg]|]; [|discriminate].
  apply bind_ok in H as (m & _ & H). apply bind_ok in H as (c & Hc & H). apply bind_ok in H as (u & _ & H).
  injection H as <-. cbn. assumption.
Qed.
