(** Property theorems for credentials: signing, envelopes, validation (C115-C121). *)
From Coq Require Import Permutation.
From Verif Require Import GoBase Base64 StatusModel PexModel StrLemmas JwtSpec DiSpec VcSpec JwtModel SdSpec SdModel SdParse DiModel
  VcModel VcJwt VcParse VcProofs VcView VcText VcMod VcSecure VcJwtProofs VcPanic VcSign VcSignProofs DiProps JwtProofs VcProps VcProps2 VcProps3.

(** the typed contents and the JSON object of [v] agree (true of created and of parsed credentials: C95, C96) *)
Definition coherent (T : tenv) (v : credential) : Prop :=
  exists c, parse_contents T (cr_json v) false = Ok c /\ same_contents T (cr_contents v) c.
(** the proof creator and libraries make compact JWSs that decode to the claims given *)
Definition makes_jws (E : venv) (S : senv) : Prop :=
  forall claims a k t h, NoDup (map fst claims) -> se_jws S claims a k = Ok (t, h) ->
    exists j ms, jws_text E t j ms /\ Permutation ms claims /\ jws_headers j = h.

Lemma same_signed_trans T a b c : same_contents T a b -> same_signed b c -> same_signed a c.
Proof.
  unfold same_contents, same_signed. intros (A1 & A2 & A3 & A4 & A5 & A6 & A7 & A8 & A9 & A10 & A11 & A12 & A13 & A14 & A15)
    (B1 & B2 & B3 & B4 & B5 & B6 & B7 & B8 & B9 & B10 & B11 & B12 & B13 & B14 & B15).
  assert (G : forall x y z, same_opt (same_time T) x y -> same_opt same_second y z -> same_opt same_second x z).
  { intros [x|] [y|] [z|]; cbn; try tauto. unfold same_time, same_second. intros [-> _]. auto. }
  rewrite A1, A2, A3, A4, A5, A6, A9, A10, A11, A12, A13, A14, A15. repeat (split; [solve [eauto]|]). assumption.
Qed.
Definition with_contents (v : credential) (c : contents) : credential :=
  {| cr_json := cr_json v; cr_contents := c; cr_proofs := cr_proofs v; cr_jwt := cr_jwt v; cr_cwt := cr_cwt v |}.
Lemma o_date_same T a b : same_opt (same_time T) a b -> o_date a = o_date b.
Proof. destruct a, b; cbn; try tauto. now intros [-> _]. Qed.
Lemma nonzero_same T a b : same_opt (same_time T) a b -> nonzero a -> nonzero b.
Proof. destruct a as [a|], b as [b|]; cbn; try tauto. intros [E _] H x [= <-]. rewrite <- E. now apply H. Qed.
Lemma rfc_same T a b : same_opt (same_time T) a b -> rfc_ok T a -> rfc_ok T b.
Proof. destruct a as [a|], b as [b|]; cbn; try tauto. intros [E _] H x [= <-]. rewrite <- E. now apply H. Qed.
Lemma claims_same T v c mi : same_contents T (cr_contents v) c -> new_jwt_claims (with_contents v c) mi = new_jwt_claims v mi.
Proof.
  intros (A1 & A2 & A3 & A4 & A5 & A6 & A7 & A8 & _). unfold new_jwt_claims. cbn [with_contents cr_contents cr_json].
  rewrite <- A3, <- A5, <- A6, <- (o_date_same T _ _ A7), <- (o_date_same T _ _ A8). reflexivity.
Qed.

(** ** C115  Signing a credential as a JWT (minimised or not) and parsing the token gives the credential back: same
    contents (dates to the second), same other members, same token. *)
Theorem C115_sign_then_parse : forall (E : venv) (S : senv) (o : copts) (v v' : credential) mi alg kid je ps,
  create_signed_jwt S v mi alg kid = Ok v' -> cr_jwt v' = Some je ->
  coherent (ve_time E) v -> NoDup (map fst (cr_json v)) -> parse_ld_proof (fld (cr_json v) "proof") = Ok ps ->
  nonzero (vc_issued (cr_contents v)) -> nonzero (vc_expired (cr_contents v)) ->
  rfc_ok (ve_time E) (vc_issued (cr_contents v)) -> rfc_ok (ve_time E) (vc_expired (cr_contents v)) ->
  makes_jws E S ->
  (co_no_proof o = true \/ forall i j, vc_issuer (cr_contents v) = Some i -> de_jws (ve_jwt E) (je_jwt je) None = Ok j ->
     exists pc, co_jwt_check o = Some pc /\ pc (jws_headers j) (is_id i) (jws_input j) (jws_sig j) = Ok tt) ->
  (co_no_related o = true \/ ve_related E (vc_related (cr_contents v)) = Ok tt) ->
  cr_contents v' = cr_contents v
  /\ exists w, parse_credential E o (je_jwt je) = Ok w
       /\ same_signed (cr_contents v) (cr_contents w)
       /\ (forall k, ~ In k ["issuer"; "id"; "issuanceDate"; "validFrom"; "expirationDate"; "validUntil"] ->
             mget (cr_json w) k = mget (cr_json v) k)
       /\ cr_jwt w = Some je /\ cr_proofs w = ps /\ cr_cwt w = None.
Proof.
  intros E S o v v' mi alg kid je ps H Hje (c & Hc & Hs) Hnd Hps Hz1 Hz2 Hr1 Hr2 Hmk Hck Hrel.
  unfold create_signed_jwt in H. apply bind_ok in H as (cl & Hcl & H). apply bind_ok in H as (a & _ & H). apply bind_ok in H as ([t h] & Hj & H).
  injection H as <-. cbn [cr_jwt fst snd] in Hje. injection Hje as <-. cbn [envelope je_jwt] in *. cbn [cr_contents]. split; [reflexivity|].
  rewrite <- (claims_same _ _ _ mi Hs) in Hcl.
  pose proof (parse_contents_fields _ _ _ Hc) as (_ & Fty & Fi & _).
  destruct (new_claims_vc (with_contents v c) mi cl Hcl Fi) as (i & m1 & Hi & Hv & Hal & _ & _ & Hau & Hsub & _ & _ & _ & Hot & _ & Hn1 & _).
  specialize (Hn1 Hnd). cbn [with_contents cr_json cr_contents] in *.
  assert (Hty : mget m1 "type" <> None).
  { rewrite Hot by (cbn; intuition discriminate). unfold fld in Fty. destruct (mget (cr_json v) "type"); [discriminate|]. discriminate. }
  assert (Hne : m1 <> []) by (intros ->; now destruct Hty).
  assert (Hl : vc_len0 cl = false) by (unfold vc_len0; rewrite Hv; now destruct m1).
  destruct (Hmk _ _ _ _ _ (proj1 (claims_keys cl ltac:(congruence) Hl)) Hj) as (j & ms & Ht & Hp & Hh).
  assert (Hz1' : nonzero (vc_issued c)) by (eapply nonzero_same; [apply Hs|assumption]).
  assert (Hz2' : nonzero (vc_expired c)) by (eapply nonzero_same; [apply Hs|assumption]).
  assert (Hr1' : rfc_ok (ve_time E) (vc_issued c)) by (eapply rfc_same; [apply Hs|assumption]).
  assert (Hr2' : rfc_ok (ve_time E) (vc_expired c)) by (eapply rfc_same; [apply Hs|assumption]).
  destruct (sign_round (ve_time E) (with_contents v c) mi cl Hc Hr1' Hr2' Hz1' Hz2' Hcl) as (m' & c' & Hrf & Hpc & Hsg & Ho).
  pose proof (claims_round cl ms m1 Hp Hv Hne Hn1 Hau Hal Hsub) as Hum.
  assert (Hi' : vc_issuer (cr_contents v) = Some i) by (rewrite <- Hi; apply Hs).
  assert (Hic' : vc_issuer c' = Some i) by (rewrite <- Hi; symmetry; apply Hsg).
  assert (Hpr : parse_ld_proof (fld m' "proof") = Ok ps).
  { rewrite <- Hps. f_equal. unfold fld. rewrite Ho by (cbn; intuition discriminate). reflexivity. }
  pose proof Ht as (_ & _ & _ & _ & Hdj & _).
  eexists. split.
  - eapply (parse_credential_jws E o t j ms cl m' c' ps i); try eassumption.
    + destruct Hck as [|Hck]; [now left|right]. now apply Hck.
    + destruct Hrel as [|Hrel]; [now left|right]. rewrite <- Hrel. f_equal. transitivity (vc_related c); [symmetry; apply Hsg|symmetry; apply Hs].
  - cbn [cr_contents cr_json cr_jwt cr_proofs cr_cwt]. rewrite Hh. split; [eapply same_signed_trans; eassumption|]. split; [exact Ho|auto].
Qed.

(** an environment for the examples: one token, whose payload is read as the members given *)
Fixpoint json_eqb (a b : json) {struct a} : bool :=
  match a, b with
  | JNull, JNull => true
  | JBool x, JBool y => Bool.eqb x y
  | JNum p, JNum q => Z.eqb (Qnum p) (Qnum q) && Pos.eqb (Qden p) (Qden q)
  | JStr s, JStr t => String.eqb s t
  | JArr l, JArr k => (fix go l k := match l, k with [], [] => true | x :: l, y :: k => json_eqb x y && go l k | _, _ => false end) l k
  | JObj l, JObj k => (fix go l k := match l, k with
                                     | [], [] => true
                                     | (x, u) :: l, (y, w) :: k => String.eqb x y && json_eqb u w && go l k
                                     | _, _ => false end) l k
  | _, _ => false
  end.
Lemma json_eqb_eq a : forall b, json_eqb a b = true -> a = b.
Proof.
  induction a as [| |q| |l IH|l IH] using json_ind'; intros [| |q0| |l0|l0]; cbn; try discriminate; intros H.
  - reflexivity.
  - now apply Bool.eqb_prop in H as ->.
  - destruct q, q0; cbn in H. apply andb_true_iff in H as [H1 H2]. apply Z.eqb_eq in H1. apply Pos.eqb_eq in H2. now subst.
  - now apply String.eqb_eq in H as ->.
  - f_equal. revert l0 H. induction l as [|x l IHl]; intros [|y k]; try discriminate; [reflexivity|]. intros H. apply andb_true_iff in H as [H1 H2].
    inversion IH as [|? ? I1 I2]; subst. f_equal; auto.
  - f_equal. revert l0 H. induction l as [|[x u] l IHl]; intros [|[y w] k]; try discriminate; [reflexivity|]. intros H.
    apply andb_true_iff in H as [H1 H2]. apply andb_true_iff in H1 as [H0 H1]. apply String.eqb_eq in H0. inversion IH as [|? ? I1 I2]; subst.
    f_equal; [f_equal; now apply I1|auto].
Qed.
Definition sg_contents : contents := {|
  vc_context := [v1_context]; vc_custom_ctx := []; vc_id := "urn:1"; vc_types := ["VerifiableCredential"; "D"];
  vc_subject := [{| sj_id := "did:s"; sj_custom := [("name", JStr "n")] |}];
  vc_issuer := Some {| is_id := "did:i"; is_custom := [("name", JStr "I")] |};
  vc_issued := Some {| tw_time := of_unix 7; tw_str := "" |}; vc_expired := Some {| tw_time := of_unix 12; tw_str := "T012" |};
  vc_status := []; vc_schemas := []; vc_evidence := None; vc_terms := []; vc_refresh := None; vc_sdalg := None; vc_related := [] |}.
Definition sg_cred : credential := create_credential toyT sg_contents [("extra", JBool false)].
Definition sg_claims (mi : bool) : gomap json := match new_jwt_claims sg_cred mi with Ok c => claims_json c | _ => [] end.
Definition sg_hdr : headers := [("alg", JStr "EdDSA"); ("kid", JStr "did:i#k")].
Definition sg_senv (mi : bool) : senv := {|
  se_alg := fun _ => Ok "EdDSA";
  se_jws := fun c a k => if json_eqb (JObj c) (JObj (sg_claims mi)) && String.eqb k "did:i#k" then Ok (ex_tok "good", sg_hdr) else Err "x";
  se_unsec := fun _ => Err "x"; se_cose := fun _ _ _ => Err "x"; se_hex := fun s => s |}.
Definition sg_env (mi : bool) : venv := toyV0 [(ex_tok "good", ex_jws "sig:m")] [("P", rev (sg_claims mi)); ("{}", [])].
Lemma sg_makes mi : makes_jws (sg_env mi) (sg_senv mi).
Proof.
  intros claims a k t h Hnd. cbn [sg_senv se_jws]. destruct (json_eqb _ _) eqn:E; [|discriminate]. apply json_eqb_eq in E. injection E as ->.
  destruct (String.eqb k _); [|discriminate]. cbn [andb]. intros [= <- <-]. exists (ex_jws "sig:m"), (rev (sg_claims mi)).
  split; [|split; [apply Permutation_sym, Permutation_rev|reflexivity]].
  unfold jws_text. destruct mi; repeat split; vm_compute; reflexivity.
Qed.
Example C115_example mi : exists v' je,
  create_signed_jwt (sg_senv mi) sg_cred mi 0 "did:i#k" = Ok v' /\ cr_jwt v' = Some je
  /\ coherent toyT sg_cred /\ NoDup (map fst (cr_json sg_cred)) /\ parse_ld_proof (fld (cr_json sg_cred) "proof") = Ok []
  /\ nonzero (vc_issued sg_contents) /\ nonzero (vc_expired sg_contents)
  /\ rfc_ok toyT (vc_issued sg_contents) /\ rfc_ok toyT (vc_expired sg_contents)
  /\ makes_jws (sg_env mi) (sg_senv mi)
  /\ (exists w, parse_credential (sg_env mi) ex_copts (je_jwt je) = Ok w /\ mget (cr_json w) "expirationDate" = Some (JStr "T12"))
  /\ mhas (sg_claims mi) "jti" = true.
Proof.
  destruct mi; (eexists; eexists; split; [vm_compute; reflexivity|]; split; [reflexivity|];
  split; [eexists; split; [vm_compute; reflexivity|]; vm_compute; intuition (try discriminate; auto)|];
  split; [vm_compute; nodup_keys|];
  split; [reflexivity|];
  split; [intros x [= <-]; reflexivity|]; split; [intros x [= <-]; reflexivity|];
  split; [intros x [= <-]; eexists; split; [vm_compute; reflexivity|vm_compute; reflexivity]|]; split; [intros x [= <-]; eexists; split; [vm_compute; reflexivity|vm_compute; reflexivity]|];
  split; [apply sg_makes|]; split; [|vm_compute; reflexivity];
  eexists; split; [vm_compute; reflexivity|vm_compute; reflexivity]).
Qed.
Print Assumptions C115_sign_then_parse.

(** ** C116  Signing a credential as a CWT and parsing the hex text of the result gives back exactly the same JSON object. *)
(** the proof creator and libraries make COSE messages that decode to the claims given, and hex text (lower case) of it *)
Definition makes_cose (E : venv) (S : senv) (claims : gomap json) (a : Z) (k : string) : Prop :=
  forall raw msg, se_cose S claims a k = Ok (raw, msg) ->
    ve_cose E raw = Some msg
    /\ (exists p, ve_cbor E (co_payload msg) = Some p /\ Permutation p claims)
    /\ is_hex (se_hex S raw) = true /\ ve_hex E (se_hex S raw) = Some raw
    /\ ve_cose E (se_hex S raw) = None /\ ve_members E (se_hex S raw) = None.
Lemma cbor_keys c : NoDup (map fst (cwt_claims_cbor c)).
Proof.
  assert (H : forall l, (forall x, In x l -> fst x = "vc") -> (List.length l <= 1)%nat -> NoDup (map fst
    (opt_field "iss" (jc_iss c) ++ opt_field "sub" (jc_sub c) ++ date_member "exp" (jc_exp c)
     ++ date_member "nbf" (jc_nbf c) ++ date_member "iat" (jc_iat c) ++ l)%list)).
  { intros l Hl Hn. destruct l as [|[k w] [|]]; [| |cbn in Hn; lia].
    - unfold opt_field, date_member. destruct (String.eqb (jc_iss c) ""), (String.eqb (jc_sub c) ""), (jc_exp c), (jc_nbf c), (jc_iat c); cbn; nodup_keys.
    - assert (k = "vc") by (apply (Hl (k, w)); now left). subst k.
      unfold opt_field, date_member. destruct (String.eqb (jc_iss c) ""), (String.eqb (jc_sub c) ""), (jc_exp c), (jc_nbf c), (jc_iat c); cbn; nodup_keys. }
  unfold cwt_claims_cbor. apply H.
  - destruct (jc_vc c) as [[|x m]|]; cbn; intros y; [tauto| |tauto]. intros [<-|[]]; reflexivity.
  - destruct (jc_vc c) as [[|x m]|]; cbn; lia.
Qed.
Lemma cbor_vc c m : jc_vc c = Some m -> m <> [] -> mget (cwt_claims_cbor c) "vc" = Some (JObj m).
Proof.
  intros H Hm. apply mget_In_nodup; [apply cbor_keys|]. unfold cwt_claims_cbor. rewrite H. destruct m; [contradiction|].
  rewrite !in_app_iff. cbn; tauto.
Qed.
Theorem C116_cose_then_parse : forall (E : venv) (S : senv) (o : copts) (v v' : credential) alg kid ce,
  create_signed_cose S v alg kid = Ok v' -> cr_cwt v' = Some ce ->
  coherent (ve_time E) v -> (forall cl, new_cwt_claims v = Ok cl -> makes_cose E S (cwt_claims_cbor cl) alg kid) ->
  (co_no_proof o = true \/ forall i, vc_issuer (cr_contents v) = Some i ->
     exists pc a tbs, co_cwt_check o = Some pc /\ co_alg (ce_msg ce) = Ok a /\ co_tbs (ce_msg ce) = Ok tbs
       /\ pc {| cw_kid := co_kid (ce_msg ce); cw_key := co_key (ce_msg ce); cw_alg := a |} (is_id i) tbs (co_sig (ce_msg ce)) = Ok tt) ->
  (co_no_validation o = true \/ forall c, same_contents (ve_time E) (cr_contents v) c -> validate_credential E c (cr_json v) o = Ok tt) ->
  (co_no_related o = true \/ ve_related E (vc_related (cr_contents v)) = Ok tt) ->
  cr_contents v' = cr_contents v /\ cr_json v' = cr_json v
  /\ exists w, parse_credential E o (se_hex S (ce_raw ce)) = Ok w
       /\ cr_json w = cr_json v /\ same_contents (ve_time E) (cr_contents v) (cr_contents w)
       /\ cr_cwt w = Some ce /\ cr_jwt w = None /\ cr_proofs w = [].
Proof.
  intros E S o v v' alg kid ce H Hce (c & Hc & Hs) Hmk Hck Hval Hrel.
  unfold create_signed_cose in H. apply bind_ok in H as (cl & Hcl & H). apply bind_ok in H as ([raw msg] & Hj & H).
  injection H as <-. cbn [cr_cwt fst snd] in Hce. injection Hce as <-. cbn [ce_raw ce_msg cr_contents cr_json] in *. split; [reflexivity|].
  destruct (Hmk _ Hcl _ _ Hj) as (Hrw & (p & Hp & Hpp) & Hhx & Hhd & Hnc & Hnm).
  unfold new_cwt_claims in Hcl. apply bind_ok in Hcl as (sub & _ & Hcl). destruct (vc_issuer (cr_contents v)) as [i|] eqn:Hi; [|discriminate].
  destruct (vc_issued (cr_contents v)) as [t|]; [|discriminate]. injection Hcl as Hcl.
  assert (Hvc : jc_vc cl = Some (cr_json v)) by (now rewrite <- Hcl). rewrite Hvc. split; [reflexivity|]. clear Hcl.
  assert (Hne : cr_json v <> []) by (intros E0; rewrite E0 in Hc; discriminate).
  assert (Hget : mget p "vc" = Some (JObj (cr_json v))).
  { rewrite <- (cbor_vc cl _ Hvc Hne). apply mget_perm; [|assumption]. eapply Permutation_NoDup; [apply Permutation_map, Permutation_sym, Hpp|apply cbor_keys]. }
  set (w := {| cr_json := cr_json v; cr_contents := c; cr_proofs := []; cr_jwt := None; cr_cwt := Some {| ce_raw := raw; ce_msg := msg |} |}).
  exists w. split; [|cbn; auto].
  unfold parse_credential. cbn [try_parsers]. unfold parse_with at 1. rewrite (enveloped_not_json _ _ _ Hnm). cbn [bind].
  unfold parse_with at 1. rewrite (json_parser_hex E o _ Hhx Hnm). cbn [bind].
  assert (Hcp : cbor_parser E o (se_hex S raw) = Ok (Some w)).
  { unfold cbor_parser. rewrite Hnc, (hex_unquoted _ Hhx), Hhd, Hrw. cbn [bind]. rewrite Hp, Hget. cbn [bind]. rewrite Hc. cbn [bind].
    destruct Hval as [->|Hval]; [reflexivity|]. rewrite (Hval c Hs). now destruct (co_no_validation o). }
  unfold parse_with. rewrite Hcp. cbn [bind].
  assert (Hic : vc_issuer c = Some i) by (destruct Hs as (_ & _ & _ & _ & _ & A & _); congruence).
  assert (Hkk : (if co_no_proof o then Ok w else check_cred_proof E o w) = Ok w).
  { destruct Hck as [->|Hck]; [reflexivity|]. destruct (co_no_proof o); [reflexivity|].
    destruct (Hck i eq_refl) as (pc & a & tbs & Hpc & Ha & Htb & Hok).
    unfold check_cred_proof, w. cbn [cr_contents cr_jwt cr_cwt ce_msg]. rewrite Hic, Hpc, Htb. cbn [bind]. unfold cwt_check_proof. rewrite Ha. cbn [bind].
    pose proof (parse_contents_fields _ _ _ Hc) as (_ & _ & Fi & _). rewrite Hic in Fi.
    assert (Hn : is_id i <> "").
    { destruct (parse_issuer_full _ _ Fi) as [Hf _]. exact Hf. }
    destruct (String.eqb_spec (is_id i) ""); [contradiction|]. cbn [andb]. now rewrite Hok. }
  rewrite Hkk. cbn [bind]. assert (Hrr : (if co_no_related o then Ok tt else ve_related E (vc_related (cr_contents w))) = Ok tt).
  { destruct Hrel as [->|Hr]; [reflexivity|]. cbn [w cr_contents]. replace (vc_related c) with (vc_related (cr_contents v)) by apply Hs. rewrite Hr. now destruct (co_no_related o). }
  now rewrite Hrr.
Qed.
Definition with_cose (E : venv) hexes coses cbors : venv := {|
  ve_time := ve_time E; ve_jwt := ve_jwt E; ve_members := ve_members E; ve_obj := ve_obj E; ve_sd := ve_sd E; ve_order := ve_order E;
  ve_cose := mget coses; ve_hex := mget hexes; ve_cbor := mget cbors; ve_schema := ve_schema E; ve_valid := ve_valid E;
  ve_jsonld := ve_jsonld E; ve_ext := ve_ext E; ve_ldproofs := ve_ldproofs E; ve_ldmsg := ve_ldmsg E; ve_di := ve_di E;
  ve_now := ve_now E; ve_related := ve_related E |}.
Definition cw_msg : coset :=
  {| co_alg := Ok (-8); co_kid := "did:i#k"; co_key := ""; co_payload := "P"; co_tbs := Ok "m"; co_sig := "sig:m" |}.
Definition cw_claims : gomap json := match new_cwt_claims sg_cred with Ok c => cwt_claims_cbor c | _ => [] end.
Definition cw_senv : senv := {|
  se_alg := fun _ => Ok "EdDSA"; se_jws := fun _ _ _ => Err "x"; se_unsec := fun _ => Err "x";
  se_cose := fun c a k => if json_eqb (JObj c) (JObj cw_claims) then Ok ("R", cw_msg) else Err "x";
  se_hex := fun s => if String.eqb s "R" then "d2" else s |}.
Definition cw_env (claims : gomap json) : venv := with_cose (toyV0 [] []) [("d2", "R")] [("R", cw_msg)] [("P", claims)].
Example C116_example : exists v' ce,
  create_signed_cose cw_senv sg_cred (-8) "did:i#k" = Ok v' /\ cr_cwt v' = Some ce
  /\ coherent toyT sg_cred /\ (forall cl, new_cwt_claims sg_cred = Ok cl -> makes_cose (cw_env (rev cw_claims)) cw_senv (cwt_claims_cbor cl) (-8) "did:i#k") /\ mhas cw_claims "exp" = true
  /\ is_ok (parse_credential (cw_env (rev cw_claims)) ex_copts (se_hex cw_senv (ce_raw ce))) = true
  /\ co_no_proof ex_copts = false.
Proof.
  eexists; eexists; split; [vm_compute; reflexivity|]; split; [reflexivity|].
  split; [eexists; split; [vm_compute; reflexivity|]; vm_compute; intuition (try discriminate; auto)|].
  split; [|split; [vm_compute; reflexivity|split; [vm_compute; reflexivity|reflexivity]]].
  intros cl _. generalize (cwt_claims_cbor cl). intros claims raw msg. cbn [cw_senv se_cose se_hex]. destruct (json_eqb _ _) eqn:E; [|discriminate]. apply json_eqb_eq in E. injection E as ->.
  intros [= <- <-]. split; [reflexivity|]. split; [eexists; split; [reflexivity|apply Permutation_sym, Permutation_rev]|repeat split; reflexivity].
Qed.
Print Assumptions C116_cose_then_parse.

(** ** C117  (refuted) "The issuer that a parsed CWT credential reports is the token's iss claim (when it has one)."
    The registered claims of a CWT are never read: proof checking uses the issuer inside the vc claim, and the token's
    iss, sub, exp, nbf are ignored. *)
Definition cw_env2 : venv := cw_env (mset cw_claims "iss" (JStr "did:other")).
Definition cw_cred2 : credential :=
  Eval vm_compute in match parse_credential cw_env2 ex_copts "d2" with Ok v => v | _ => sg_cred end.
Lemma cw_parsed2 : parse_credential cw_env2 ex_copts "d2" = Ok cw_cred2.
Proof. vm_compute. reflexivity. Qed.
Theorem C117_cwt_claims_agree_refuted : ~ forall (E : venv) (o : copts) (data : string) (v : credential) ce p i s,
  parse_credential E o data = Ok v -> co_no_proof o = false -> cr_cwt v = Some ce -> ve_cbor E (co_payload (ce_msg ce)) = Some p ->
  vc_issuer (cr_contents v) = Some i -> mget p "iss" = Some (JStr s) -> is_id i = s.
Proof.
  intros H. specialize (H cw_env2 ex_copts "d2" cw_cred2 _ _ _ "did:other" cw_parsed2 eq_refl eq_refl eq_refl eq_refl eq_refl).
  discriminate H.
Qed.
Print Assumptions C117_cwt_claims_agree_refuted.

(** ** C118  ToUniversalForm of a JWT or CWT credential (a JSON string for data model 1.1, an enveloping object with a data
    URL otherwise) parses to the same credential as the token itself. *)
Definition quoted (s : string) : string := String quote_char (s ++ String quote_char "").
(** [data] is the JSON text of the universal form [u] *)
Definition form_text (E : venv) (data : string) (u : json) : Prop :=
  match u with
  | JStr s => data = quoted s /\ ve_members E data = None /\ ve_cose E data = None
  | JObj m => json_text E data m
  | _ => False
  end.
(** [tok] is the token that secures [w] *)
Definition secured_by (E : venv) (S : senv) (w : credential) (tok : string) : Prop :=
  ve_members E tok = None /\
  ((exists je, cr_jwt w = Some je /\ je_jwt je = tok /\ vc_sdalg (cr_contents w) = None)
   \/ (exists ce, cr_cwt w = Some ce /\ se_hex S (ce_raw ce) = tok /\ is_hex tok = true /\ ve_cose E tok = None)).

Lemma last_char_snoc s c : last_char (s ++ String c "") = Some c.
Proof. induction s as [|d s IH]; [reflexivity|]. cbn [append last_char]. destruct (s ++ String c "") eqn:E; [destruct s; discriminate|assumption]. Qed.
Lemma un_quote_quoted s : un_quote (quoted s) = s.
Proof.
  unfold quoted, un_quote. rewrite Ascii.eqb_refl.
  assert (Hl : last_char (String quote_char (s ++ String quote_char "")) = Some quote_char) by (apply (last_char_snoc (String quote_char s))).
  rewrite Hl, Ascii.eqb_refl. cbn [String.length]. rewrite append_length. cbn [String.length].
  assert (H : (1 <? S (String.length s + 1))%nat = true) by (apply Nat.ltb_lt; lia). rewrite H. cbn [andb].
  replace (String.length s + 1 - 1)%nat with (String.length s) by lia. apply str_take_app.
Qed.
Lemma parse_not_json E o tok : ve_members E tok = None ->
  parse_credential E o tok = try_parsers E o [json_parser E o; cbor_parser E o] tok.
Proof. intros H. unfold parse_credential. cbn [try_parsers]. unfold parse_with at 1. now rewrite (enveloped_not_json _ _ _ H). Qed.
Lemma json_parser_jwt_text E o tok v je : json_parser E o tok = Ok (Some v) -> cr_jwt v = Some je -> je_jwt je = tok ->
  is_jws (ve_obj E) tok = true /\ (forall d, unwrap_string E d = unwrap_string E tok -> json_parser E o d = Ok (Some v)) .
Proof.
  unfold json_parser. intros H Hj Ht. apply bind_ok in H as (hm & Hh & H). destruct hm as [[h m]|]; [|discriminate].
  apply bind_ok in H as (c & Hc & H). apply bind_ok in H as (ps & Hps & H). apply bind_ok in H as (x & Hx & H).
  apply bind_ok in H as (ds & Hds & H). injection H as <-. cbn [cr_jwt] in Hj.
  assert (Hjw : jv_jws (try_parse_jws E (unwrap_string E tok)) = true) by (destruct (jv_jws _); [reflexivity|discriminate]).
  split.
  - rewrite Hjw in Hj. injection Hj as <-. cbn [je_jwt] in Ht. rewrite <- Ht at 1.
    unfold try_parse_jws in Hjw |- *. destruct (if (1 <? List.length (split_on tilde (unwrap_string E tok)))%nat then _ else _) as [[t d] b]. destruct (is_jws (ve_obj E) t) eqn:Ei; [assumption|discriminate].
  - intros d Hd. rewrite Hd, Hjw in *. rewrite Hh. cbn [bind]. rewrite Hc. cbn [bind]. rewrite Hps. cbn [bind]. rewrite Hx. cbn [bind]. now rewrite Hds.
Qed.
Lemma checked_twice E o a b : checked E o a b -> (cr_jwt a <> None \/ cr_cwt a <> None) -> b = a.
Proof.
  unfold checked. destruct (co_no_proof o); [auto|]. intros H Hn.
  apply check_cred_same in H as (_ & _ & _ & _ & [?|(H1 & H2 & _)]); [assumption|]. destruct Hn; contradiction.
Qed.
Lemma parse_with_intro E o p d v : p d = Ok (Some v) -> checked E o v v ->
  (co_no_related o = false -> ve_related E (vc_related (cr_contents v)) = Ok tt) -> parse_with E o p d = Ok (Some v).
Proof.
  intros Hp Hc Hr. unfold parse_with. rewrite Hp. cbn [bind]. unfold checked in Hc.
  assert (H : (if co_no_proof o then Ok v else check_cred_proof E o v) = Ok v) by (now destruct (co_no_proof o)).
  rewrite H. cbn [bind]. destruct (co_no_related o); [reflexivity|]. now rewrite Hr.
Qed.
Lemma enveloped_text E o data media d : json_text E data (enveloped_object media d) ->
  enveloped_parser E o data = parse_data_url_cred E o (new_data_url media "" d).
Proof.
  intros H. pose proof (parse_json_text _ _ _ H) as (ms & Hpj & Hp). unfold enveloped_parser. rewrite Hpj.
  assert (Hnd : NoDup (map fst (enveloped_object media d))) by (destruct H as (? & ? & _ & _ & _ & ? & _); assumption).
  rewrite (fld_perm ms (enveloped_object media d)) by assumption. rewrite <- (mget_perm (enveloped_object media d) ms) by (try assumption; now apply Permutation_sym). reflexivity.
Qed.
Lemma data_url_of E o media d : media = vc_media_jwt \/ media = vc_media_sdjwt \/ media = vc_media_cose ->
  parse_data_url_cred E o (new_data_url media "" d) =
  if String.eqb media vc_media_cose then parse_with E o (cbor_parser E o) d else parse_with E o (json_parser E o) d.
Proof.
  intros H. unfold parse_data_url_cred. rewrite C101_data_url_round_trip.
  - cbn [bind]. destruct H as [->|[->| ->]]; reflexivity.
  - now destruct H as [->|[->| ->]].
  - destruct H as [->|[->| ->]]; unfold char_in; vm_compute; intuition discriminate.
  - destruct H as [->|[->| ->]]; unfold char_in; vm_compute; intuition discriminate.
  - intros [].
Qed.
Theorem C118_universal_form_parses_back : forall (E : venv) (S : senv) (o : copts) sd (w : credential) tok u data,
  parse_credential E o tok = Ok w -> secured_by E S w tok ->
  to_universal S sd w = Ok u -> form_text E data u ->
  parse_credential E o data = Ok w.
Proof.
  intros E S o sd w tok u data Hp (Hm & Hs) Hu Ht. rewrite (parse_not_json _ _ _ Hm) in Hp. cbn [try_parsers] in Hp.
  apply bind_ok in Hp as (r & Hj & Hp). destruct Hs as [(je & Hje & Htok & Hsd)|(ce & Hce & Htok & Hhx & Hnc)].
  - (* a JWT *)
    assert (Hjp : exists x, json_parser E o tok = Ok (Some x) /\ checked E o x w
       /\ (co_no_related o = false -> ve_related E (vc_related (cr_contents w)) = Ok tt)).
    { destruct r as [x|]; [injection Hp as ->; now apply parse_with_ok in Hj|]. exfalso.
      apply bind_ok in Hp as (r2 & Hj2 & Hp). destruct r2 as [x|]; [injection Hp as ->|discriminate].
      apply parse_with_ok in Hj2 as (x & Hx & Hck & _). apply checked_same in Hck. inversion Hck as [a b H1 H2 H3 H4 H5]; subst a b.
      rewrite Hje in H3. unfold cbor_parser in Hx. apply bind_ok in Hx as (dm & _ & Hx). destruct dm as [[raw msg]|]; [|discriminate].
      apply bind_ok in Hx as (m & _ & Hx). apply bind_ok in Hx as (c & _ & Hx). apply bind_ok in Hx as (z & _ & Hx). injection Hx as <-. discriminate H3. }
    destruct Hjp as (x & Hx & Hck & Hrel).
    assert (Hxw : w = x).
    { eapply checked_twice; [exact Hck|]. left. apply checked_same in Hck. inversion Hck as [a b H1 H2 H3 H4 H5]. rewrite <- H3, Hje. discriminate. }
    subst x. destruct (json_parser_jwt_text E o tok w je Hx Hje Htok) as [His Hsame].
    pose proof (parse_with_intro E o (json_parser E o) tok w Hx Hck Hrel) as Hpw.
    assert (Hcw : cr_cwt w = None).
    { unfold json_parser in Hx. apply bind_ok in Hx as (hm & _ & Hx). destruct hm as [[h m]|]; [|discriminate].
      apply bind_ok in Hx as (c & _ & Hx). apply bind_ok in Hx as (ps & _ & Hx). apply bind_ok in Hx as (z & _ & Hx). apply bind_ok in Hx as (ds & _ & Hx).
      injection Hx as <-. reflexivity. }
    unfold to_universal, to_jwt_string in Hu. rewrite Hcw, Hje, Hsd in Hu. cbn [bind] in Hu. rewrite Htok in Hu.
    assert (Eu : u = to_enveloped w match je_discs je with [] => vc_media_jwt | _ :: _ => vc_media_sdjwt end tok) by congruence. clear Hu.
    unfold to_enveloped in Eu. destruct (is_base_context _ _); subst u.
    + destruct Ht as (Ed & Hdm & _). rewrite (parse_not_json _ _ _ Hdm). cbn [try_parsers]. 
      assert (Hjd : json_parser E o data = Ok (Some w)).
      { apply Hsame. unfold unwrap_string. rewrite Hm, Hdm. rewrite Ed, un_quote_quoted. symmetry. now apply (is_jws_unquoted (ve_obj E)). }
      rewrite (parse_with_intro E o (json_parser E o) data w Hjd Hck Hrel). reflexivity.
    + cbn [form_text] in Ht. unfold parse_credential. cbn [try_parsers].
      assert (He : enveloped_parser E o data = Ok (Some w)).
      { rewrite (enveloped_text _ _ _ _ _ Ht), data_url_of by (destruct (je_discs je); auto). destruct (je_discs je); exact Hpw. }
      rewrite (parse_with_intro E o _ data w He Hck Hrel). reflexivity.
  - (* a CWT *)
    assert (Hjn : r = None).
    { unfold parse_with in Hj. rewrite (json_parser_hex E o tok Hhx Hm) in Hj. cbn [bind] in Hj. congruence. }
    subst r. apply bind_ok in Hp as (r & Hc & Hp). destruct r as [x|]; [injection Hp as ->|discriminate].
    apply parse_with_ok in Hc as (x & Hx & Hck & Hrel).
    assert (Hxw : w = x).
    { eapply checked_twice; [exact Hck|]. right. apply checked_same in Hck. inversion Hck as [a b H1 H2 H3 H4 H5]. rewrite <- H4, Hce. discriminate. }
    subst x. pose proof (parse_with_intro E o (cbor_parser E o) tok w Hx Hck Hrel) as Hpw.
    unfold to_universal in Hu. rewrite Hce, Htok in Hu.
    assert (Eu : u = to_enveloped w vc_media_cose tok) by congruence. clear Hu.
    unfold to_enveloped in Eu. destruct (is_base_context _ _); subst u.
    + destruct Ht as (Ed & Hdm & Hdc). rewrite (parse_not_json _ _ _ Hdm). cbn [try_parsers].
      assert (Hjd : json_parser E o data = Ok None).
      { pose proof (json_parser_hex E o tok Hhx Hm) as Hk. unfold json_parser, unwrap_string in Hk |- *. rewrite Hm, hex_unquoted in Hk by assumption.
        rewrite Hdm. rewrite Ed, un_quote_quoted. rewrite <- Ed. unfold parse_json in Hk |- *. rewrite Hm in Hk. rewrite Hdm. exact Hk. }
      unfold parse_with at 1. rewrite Hjd. cbn [bind].
      assert (Hcd : cbor_parser E o data = Ok (Some w)).
      { rewrite <- Hx. unfold cbor_parser. rewrite Hdc, Hnc, Ed, un_quote_quoted, hex_unquoted by assumption. reflexivity. }
      rewrite (parse_with_intro E o (cbor_parser E o) data w Hcd Hck Hrel). reflexivity.
    + cbn [form_text] in Ht. unfold parse_credential. cbn [try_parsers].
      assert (He : enveloped_parser E o data = Ok (Some w)) by (rewrite (enveloped_text _ _ _ _ _ Ht), data_url_of by auto; exact Hpw).
      rewrite (parse_with_intro E o _ data w He Hck Hrel). reflexivity.
Qed.
Print Assumptions C118_universal_form_parses_back.
(** which form it is: the bare token for credentials whose first context is that of data model 1.1, otherwise an
    EnvelopedVerifiableCredential in data model 2.0 whose id is a data URL with the token and its media type *)
Definition media_of (w : credential) (media : string) : Prop :=
  (exists ce, cr_cwt w = Some ce /\ media = "application/vc-ld+cose")
  \/ (cr_cwt w = None /\ exists je, cr_jwt w = Some je /\
       ((je_discs je = [] /\ media = "application/vc-ld+jwt") \/ (je_discs je <> [] /\ media = "application/vc-ld+sd-jwt"))).
Theorem C118_universal_form : forall (E : venv) (S : senv) sd (w : credential) tok media,
  secured_by E S w tok -> (cr_cwt w = None \/ cr_jwt w = None) -> media_of w media ->
  ((exists l, vc_context (cr_contents w) = v1_context :: l) -> to_universal S sd w = Ok (JStr tok))
  /\ ((forall l, vc_context (cr_contents w) <> v1_context :: l) ->
       to_universal S sd w = Ok (JObj [("id", JStr ("data:" ++ media ++ "," ++ tok)); ("type", JArr [JStr "EnvelopedVerifiableCredential"]);
                                       ("@context", JArr [JStr v2_context])])).
Proof.
  intros E S sd w tok media (_ & Hs) Hone Hm.
  assert (Hu : to_universal S sd w = Ok (to_enveloped w media tok)).
  { unfold to_universal. destruct Hm as [(ce & Hce & ->)|(Hcn & je & Hje & Hmed)].
    - rewrite Hce. destruct Hs as [(je & Hje & _)|(ce' & Hce' & Ht & _)]; [destruct Hone; congruence|]. assert (ce' = ce) by congruence. subst ce'. now rewrite Ht.
    - rewrite Hcn, Hje. destruct Hs as [(je' & Hje' & Ht & Hsd)|(ce & Hce & _)]; [|congruence]. assert (je' = je) by congruence. subst je'.
      unfold to_jwt_string. rewrite Hje, Hsd. cbn [bind]. rewrite Ht. destruct Hmed as [(-> & ->)|(Hne & ->)]; [reflexivity|]. destruct (je_discs je); [congruence|reflexivity]. }
  rewrite Hu. unfold to_enveloped, is_base_context. split.
  - intros (l & ->). now rewrite String.eqb_refl.
  - intros Hn. destruct (vc_context (cr_contents w)) as [|c l]; [reflexivity|]. destruct (String.eqb_spec c v1_context) as [->|]; [now destruct (Hn l)|reflexivity].
Qed.
Print Assumptions C118_universal_form.
Definition un_claims : list (string * json) :=
  [("iss", JStr "did:i"); ("vc", JObj [("@context", JArr [JStr v2_context]); ("type", JArr [JStr "VerifiableCredential"]);
     ("issuer", JStr "did:i"); ("credentialSubject", JObj [("id", JStr "did:s")])])].
Definition un_text : string := String brace "env".
Definition un_env : venv := toyV0 [(ex_tok "good", ex_jws "sig:m")]
  [("P", un_claims); ("{}", []); (un_text, enveloped_object vc_media_jwt (ex_tok "good"))].
Definition un_cred : credential :=
  Eval vm_compute in match parse_credential un_env ex_copts (ex_tok "good") with Ok v => v | _ => sg_cred end.
Definition st_cred : credential :=
  Eval vm_compute in match parse_credential (sg_env true) ex_copts (ex_tok "good") with Ok v => v | _ => sg_cred end.
Example C118_example :
  (parse_credential un_env ex_copts (ex_tok "good") = Ok un_cred /\ secured_by un_env cw_senv un_cred (ex_tok "good")
   /\ to_universal cw_senv (fun _ => Err "x") un_cred = Ok (JObj (enveloped_object vc_media_jwt (ex_tok "good")))
   /\ form_text un_env un_text (JObj (enveloped_object vc_media_jwt (ex_tok "good"))))
  /\ (parse_credential (sg_env true) ex_copts (ex_tok "good") = Ok st_cred /\ secured_by (sg_env true) cw_senv st_cred (ex_tok "good")
   /\ to_universal cw_senv (fun _ => Err "x") st_cred = Ok (JStr (ex_tok "good"))
   /\ form_text (sg_env true) (quoted (ex_tok "good")) (JStr (ex_tok "good"))).
Proof.
  split.
  - split; [vm_compute; reflexivity|]. split; [split; [vm_compute; reflexivity|left; eexists; repeat split; vm_compute; reflexivity]|].
    split; [vm_compute; reflexivity|]. cbn [form_text]. exists "env". eexists. split; [reflexivity|]. split; [vm_compute; reflexivity|].
    split; [apply Permutation_refl|]. split; [vm_compute; nodup_keys|]. cbn. intros k [<-|[<-|[<-|[]]]]; reflexivity.
  - split; [vm_compute; reflexivity|]. split; [split; [vm_compute; reflexivity|left; eexists; repeat split; vm_compute; reflexivity]|].
    split; [vm_compute; reflexivity|]. cbn [form_text]. repeat split; vm_compute; reflexivity.
Qed.
