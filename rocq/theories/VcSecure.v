(** What ParseCredential's proof check establishes: specification and lemmas. *)
From Coq Require Import Permutation.
From Verif Require Import GoBase Base64 StrLemmas JwtSpec DiSpec VcSpec JwtModel JwtProofs SdSpec SdModel SdParse DiModel VcModel
  VcJwt VcParse VcProofs VcView VcText.

(** the credential object carried by a JWT payload *)
Definition jwt_contents (E : venv) (payload : string) (m : gomap json) : Prop :=
  exists c o, claims_of (ve_members E) payload = Ok c /\ refine (ve_time E) c = Ok o
    /\ m = match o with Some x => x | None => [] end.

(** [secured E o v iss]: some checker configured in [o] accepted a proof by [iss] that covers the object of [v]. *)
Inductive secured (E : venv) (o : copts) (v : credential) (iss : string) : Prop :=
| sec_jwt je j pc :
    (* the checker accepted the signature over header.payload for issuer [iss], and the credential is what
       that payload says *)
    cr_jwt v = Some je -> co_jwt_check o = Some pc ->
    de_jws (ve_jwt E) (je_jwt je) None = Ok j -> je_headers je = jws_headers j ->
    pc (jws_headers j) iss (jws_input j) (jws_sig j) = Ok tt ->
    jwt_contents E (jws_payload j) (cr_json v) -> secured E o v iss
| sec_cwt ce pc tbs alg p :
    (* likewise for the Sig_structure of the COSE message, whose payload holds the credential under "vc" *)
    cr_jwt v = None -> cr_cwt v = Some ce -> co_cwt_check o = Some pc ->
    ve_cose E (ce_raw ce) = Some (ce_msg ce) ->
    co_tbs (ce_msg ce) = Ok tbs -> co_alg (ce_msg ce) = Ok alg ->
    pc {| cw_kid := co_kid (ce_msg ce); cw_key := co_key (ce_msg ce); cw_alg := alg |} iss tbs (co_sig (ce_msg ce)) = Ok tt ->
    ve_cbor E (co_payload (ce_msg ce)) = Some p -> mget p "vc" = Some (JObj (cr_json v)) -> secured E o v iss
| sec_ld chk ps :
    (* each linked-data proof of the object was accepted for issuer [iss] over that object *)
    cr_jwt v = None -> cr_cwt v = None -> co_ld_check o = Some chk ->
    ve_ldproofs E (cr_json v) = Ok ps ->
    Forall (fun p => exists msg sig, ve_ldmsg E p (cr_json v) = Ok msg /\ lp_sig p = Ok sig /\ chk p iss msg sig = Ok tt) ps ->
    secured E o v iss
| sec_di V :
    (* the data-integrity verifier accepted the object *)
    cr_jwt v = None -> cr_cwt v = None -> co_di o = Some V ->
    snd (verify_proof (ve_di E) V (ve_now E) (JObj (cr_json v)) (di_opts o)) = Ok tt -> secured E o v iss.

Lemma decode_cred_jwt_ok E tok h m : decode_cred_jwt (ve_time E) (ve_jwt E) (ve_members E) tok = Ok (h, m) ->
  exists j, de_jws (ve_jwt E) tok None = Ok j /\ h = jws_headers j /\ jwt_contents E (jws_payload j) m.
Proof.
  unfold decode_cred_jwt. intros H. apply bind_ok in H as ([t p] & Hp & H).
  apply bind_ok in H as (c & Hc & H). apply bind_ok in H as (x & Hx & H). injection H as <- <-. cbn [fst snd] in *.
  unfold jwt_parse in Hp. apply bind_ok in Hp as (u & _ & Hp). unfold parse_jwt in Hp.
  apply bind_ok in Hp as (j & Hj & Hp). unfold map_jws in Hp. apply bind_ok in Hp as (u1 & _ & Hp).
  apply bind_ok in Hp as (pl & _ & Hp). apply bind_ok in Hp as (u2 & _ & Hp). injection Hp as <- <-.
  exists j. cbn [tk_headers]. repeat split; auto. exists c, x. auto.
Qed.

(** where the object of a parsed credential comes from *)
Definition sourced (E : venv) (v : credential) : Prop :=
  (forall je, cr_jwt v = Some je -> exists j, de_jws (ve_jwt E) (je_jwt je) None = Ok j
      /\ je_headers je = jws_headers j /\ jwt_contents E (jws_payload j) (cr_json v))
  /\ (forall ce, cr_cwt v = Some ce -> ve_cose E (ce_raw ce) = Some (ce_msg ce)
      /\ exists p, ve_cbor E (co_payload (ce_msg ce)) = Some p /\ mget p "vc" = Some (JObj (cr_json v))).
Lemma json_parser_sourced E o d v : json_parser E o d = Ok (Some v) -> sourced E v.
Proof.
  unfold json_parser. set (r := try_parse_jws E (unwrap_string E d)). intros H.
  apply bind_ok in H as (hm & Hm & H). destruct hm as [[h m]|]; [|discriminate].
  apply bind_ok in H as (c & _ & H). apply bind_ok in H as (ps & _ & H). apply bind_ok in H as (u & _ & H).
  apply bind_ok in H as (ds & _ & H). injection H as <-. split; cbn [cr_jwt cr_cwt cr_json]; [|discriminate].
  intros je. destruct (jv_jws r) eqn:Er; [|discriminate]. intros [= <-]. cbn [je_jwt je_headers].
  apply bind_ok in Hm as (hm' & Hd & Hm). apply bind_ok in Hm as (u' & _ & Hm). injection Hm as ->.
  apply decode_cred_jwt_ok in Hd as (j & H1 & H2 & H3). exists j. cbn [fst snd] in *. auto.
Qed.
Lemma cbor_parser_sourced E o d v : cbor_parser E o d = Ok (Some v) -> sourced E v.
Proof.
  unfold cbor_parser. intros H. apply bind_ok in H as (dm & Hdm & H). destruct dm as [[raw msg]|]; [|discriminate].
  apply bind_ok in H as (m & Hm & H). apply bind_ok in H as (c & Hc & H). apply bind_ok in H as (u & _ & H).
  injection H as <-. split; cbn [cr_jwt cr_cwt cr_json]; [discriminate|]. intros ce [= <-]. cbn [ce_raw ce_msg].
  split.
  - destruct (ve_cose E d) as [x|] eqn:Ex; [injection Hdm as <- <-; assumption|].
    destruct (ve_hex E (un_quote d)) as [b|]; [|discriminate].
    destruct (ve_cose E b) eqn:Eb; [injection Hdm as <- <-; assumption|discriminate].
  - destruct (ve_cbor E (co_payload msg)) as [p|]; [|discriminate]. exists p. split; [reflexivity|].
    destruct (mget p "vc") as [[]|]; try discriminate. now injection Hm as ->.
Qed.
Lemma sourced_upd E a b : sourced E a -> same_cred a b -> sourced E b.
Proof.
  intros [H1 H2] Hs. destruct Hs as [a b Hc Hp Hj Hw Hjs]. split.
  - intros je He. rewrite Hj in He. destruct Hjs as [->|(Hn & _)]; [now apply H1|congruence].
  - intros ce He. rewrite Hw in He. destruct Hjs as [->|(_ & Hn & _)]; [now apply H2|congruence].
Qed.
Lemma checked_same E o a b : checked E o a b -> same_cred a b.
Proof.
  unfold checked. destruct (co_no_proof o); [intros ->; constructor; auto|].
  intros H. apply check_cred_same in H as (H1 & H2 & H3 & H4 & H5). constructor; auto.
  destruct H5 as [->|(? & ? & _ & ?)]; eauto 6.
Qed.

Lemma verify_ld_ok E chk m iss ps : verify_ld E chk m (Some iss) ps = Ok tt ->
  Forall (fun p => exists msg sig, ve_ldmsg E p m = Ok msg /\ lp_sig p = Ok sig /\ chk p iss msg sig = Ok tt) ps.
Proof.
  induction ps as [|p ps IH]; cbn [verify_ld]; intros H; [constructor|].
  apply bind_ok in H as (msg & H1 & H). apply bind_ok in H as (sig & H2 & H). cbn [bind] in H.
  apply bind_ok in H as ([] & H3 & H). constructor; eauto.
Qed.
Definition issued_by (m : gomap json) (v : credential) : Prop :=
  forall i, vc_issuer (cr_contents v) = Some i -> is_id i <> "".
Lemma parse_issued_by E m sd v : parse_contents E m sd = Ok (cr_contents v) -> issued_by m v.
Proof.
  intros H i Hi. apply parse_view in H. destruct H as (_ & _ & _ & Hs & _). rewrite Hi in Hs. apply Hs.
Qed.
Lemma checked_secured E o a b : check_cred_proof E o a = Ok b -> sourced E a -> issued_by (cr_json a) a ->
  exists i, vc_issuer (cr_contents b) = Some i /\ secured E o b (is_id i).
Proof.
  intros H Hs Hib. pose proof (check_cred_same _ _ _ _ H) as (Hc & _ & Hj & Hw & _). unfold check_cred_proof in H.
  destruct (vc_issuer (cr_contents a)) as [i|] eqn:Ei; [|discriminate]. exists i. split; [now rewrite Hc|].
  destruct (cr_jwt a) as [je|] eqn:Ej.
  - destruct (co_jwt_check o) as [pc|] eqn:Ep; [|discriminate]. apply bind_ok in H as ([] & Hp & H). injection H as <-.
    unfold check_proof in Hp. apply bind_ok in Hp as (j & Hd & Hp). unfold jose_verify in Hp. cbn [bind] in Hp.
    destruct (proj1 Hs je Ej) as (j' & H1 & H2 & H3). rewrite Hd in H1. injection H1 as <-.
    eapply sec_jwt; eauto.
  - destruct (cr_cwt a) as [ce|] eqn:Ec.
    + destruct (co_cwt_check o) as [pc|] eqn:Ep; [|discriminate]. apply bind_ok in H as (tbs & Ht & H).
      apply bind_ok in H as ([] & Hp & H). injection H as <-. unfold cwt_check_proof in Hp.
      apply bind_ok in Hp as (alg & Ha & Hp). destruct (proj2 Hs ce Ec) as (Hr & p & H1 & H2).
      specialize (Hib i Ei). destruct (String.eqb_spec (is_id i) "") as [He|Hne]; [contradiction|]. cbn [andb] in Hp.
      eapply sec_cwt; eauto.
    + apply bind_ok in H as (m & Hm & H). injection H as <-.
      pose proof (check_embedded_doc _ _ _ _ _ Hm) as Hd. unfold check_embedded in Hm.
      destruct (fld (cr_json a) "proof") as [pj|]; [|discriminate]. apply bind_ok in Hm as (ps & _ & Hm).
      set (m1 := match co_external o with [] => _ | _ :: _ => _ end) in Hm.
      destruct (is_di ps).
      * apply bind_ok in Hm as ([] & Hv & Hm). injection Hm as <-. unfold check_di in Hv.
        destruct (co_di o) as [V|] eqn:EV; [|discriminate]. eapply sec_di; eauto.
      * destruct (co_ld_check o) as [chk|] eqn:EL; [|discriminate]. apply bind_ok in Hm as (l & Hl & Hm).
        apply bind_ok in Hm as ([] & Hv & Hm). injection Hm as <-. apply verify_ld_ok in Hv.
        eapply sec_ld; eauto.
Qed.

(** everything a parser reports *)
Lemma parser_sourced E o d v : json_parser E o d = Ok (Some v) \/ cbor_parser E o d = Ok (Some v) ->
  sourced E v /\ exists sd, parse_contents (ve_time E) (cr_json v) sd = Ok (cr_contents v).
Proof.
  intros [H|H]; split; eauto using json_parser_sourced, cbor_parser_sourced, json_parser_contents.
  exists false. now apply cbor_parser_contents in H.
Qed.
Lemma same_issued_by a b : issued_by (cr_json a) a -> same_cred a b -> issued_by (cr_json b) b.
Proof. intros H Hs i Hi. destruct Hs as [a b Hc _ _ _ _]. rewrite Hc in Hi. now apply H. Qed.
Lemma same_issuer_in a b : issuer_in (cr_json a) (vc_issuer (cr_contents a)) -> same_cred a b ->
  issuer_in (cr_json b) (vc_issuer (cr_contents b)).
Proof.
  intros H Hs. destruct Hs as [a b Hc _ _ _ Hj]. rewrite Hc. destruct Hj as [->|(_ & _ & j & ->)]; [assumption|].
  unfold issuer_in, absent in *. rewrite mget_mset. exact H.
Qed.
Lemma parse_credential_secured E o d v : parse_credential E o d = Ok v -> co_no_proof o = false ->
  exists i, vc_issuer (cr_contents v) = Some i /\ is_id i <> "" /\ issuer_in (cr_json v) (Some i) /\ secured E o v (is_id i).
Proof.
  intros H Hp. apply parse_credential_ok in H as (d' & v0 & v1 & _ & H0 & H1 & H2).
  apply parser_sourced in H0 as (Hs & sd & Hc0).
  pose proof (parse_issued_by _ _ _ _ Hc0) as Hi0.
  assert (Hin0 : issuer_in (cr_json v0) (vc_issuer (cr_contents v0))) by (apply parse_view in Hc0; apply Hc0).
  pose proof (checked_same _ _ _ _ H1) as S1.
  pose proof (sourced_upd _ _ _ Hs S1) as Hs1. pose proof (same_issued_by _ _ Hi0 S1) as Hi1.
  pose proof (same_issuer_in _ _ Hin0 S1) as Hin1.
  unfold checked in *. rewrite Hp in *.
  assert (G : forall a b, check_cred_proof E o a = Ok b -> sourced E a -> issued_by (cr_json a) a ->
    issuer_in (cr_json a) (vc_issuer (cr_contents a)) ->
    exists i, vc_issuer (cr_contents b) = Some i /\ is_id i <> "" /\ issuer_in (cr_json b) (Some i) /\ secured E o b (is_id i)).
  { intros a b Hab Ha Hib Hin. destruct (checked_secured _ _ _ _ Hab Ha Hib) as (i & Hi & Hsec).
    assert (S : same_cred a b) by (apply (checked_same E o); unfold checked; now rewrite Hp).
    pose proof (same_issuer_in _ _ Hin S) as Hin'. rewrite Hi in Hin'.
    exists i. repeat split; auto. eapply same_issued_by; eauto. apply Hin'. apply Hin'. }
  destruct H2 as [->|H2]; [now apply (G v0)|now apply (G v1)].
Qed.
