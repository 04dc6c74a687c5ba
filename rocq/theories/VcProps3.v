(** Property theorems for credentials: JWT payloads, panics (C109-C114). *)
From Coq Require Import Permutation.
From Verif Require Import GoBase Base64 StatusModel PexModel StrLemmas JwtSpec DiSpec VcSpec JwtModel SdSpec SdModel SdParse DiModel
  VcModel VcJwt VcParse VcProofs VcView VcText VcMod VcSecure VcJwtProofs VcPanic DiProps JwtProofs VcProps VcProps2.

Lemma parse_credential_sourced E o d v : parse_credential E o d = Ok v -> sourced E v.
Proof.
  intros H. apply parse_credential_ok in H as (d' & v0 & v1 & _ & H0 & H1 & H2). apply parser_sourced in H0 as (Hs & _).
  assert (Hs1 : sourced E v1) by (eapply sourced_upd; [exact Hs|now apply (checked_same E o)]).
  destruct H2 as [->|H2]; [assumption|]. eapply sourced_upd; [exact Hs1|now apply (checked_same E o)].
Qed.

(** ** C109  The object of a JWT credential is the "vc" claim (or, without one, the claims that are not registered) with
    the registered claims applied: iss replaces the issuer id, jti the id, iat (else nbf) the start of validity, exp its
    end; nothing else differs. *)
Theorem C109_registered_claims : forall (E : venv) (o : copts) (data : string) (v : credential) je j ms m0,
  parse_credential E o data = Ok v -> cr_jwt v = Some je ->
  de_jws (ve_jwt E) (je_jwt je) None = Ok j -> ve_members E (jws_payload j) = Some ms ->
  plain_claims ms -> body ms m0 ->
  exists iss jti nbf iat exp, text_member ms "iss" iss /\ text_member ms "jti" jti /\ date_claim ms "nbf" nbf
    /\ date_claim ms "iat" iat /\ date_claim ms "exp" exp
    /\ refined (ve_time E) m0 (cr_json v) iss jti nbf iat exp.
Proof.
  intros E o data v je j ms m0 H Hje Hj Hms Hp Hb. apply parse_credential_sourced in H as [Hs _].
  destruct (Hs je Hje) as (j' & Hj' & _ & Hc). rewrite Hj in Hj'. injection Hj' as <-.
  destruct (jwt_contents_refined E _ ms m0 _ Hc Hms Hp Hb) as (iss & jti & nbf & iat & exp & H1 & H2 & H3 & H4 & H5 & H6 & _).
  exists iss, jti, nbf, iat, exp. tauto.
Qed.
Definition ex_body : gomap json := match mget ex_jwt_members "vc" with Some (JObj m) => m | _ => [] end.
Lemma names_check (ms : gomap json) : forallb (fun r => forallb (fun k => negb (equal_fold r k) || String.eqb k r) (map fst ms)) ("vc" :: registered) = true ->
  forall r k, In r ("vc" :: registered) -> In k (map fst ms) -> equal_fold r k = true -> k = r.
Proof.
  intros H r k Hr Hk He. rewrite forallb_forall in H. specialize (H r Hr). rewrite forallb_forall in H. specialize (H k Hk).
  rewrite He in H. cbn [negb orb] in H. now apply String.eqb_eq.
Qed.
Ltac nodup_keys := cbn [map fst]; repeat (constructor; [cbn [In]; intuition discriminate|]); constructor.
Example C109_example : exists v je j,
  parse_credential ex_jenv ex_copts (ex_tok "good") = Ok v /\ cr_jwt v = Some je
  /\ de_jws (ve_jwt ex_jenv) (je_jwt je) None = Ok j /\ ve_members ex_jenv (jws_payload j) = Some ex_jwt_members
  /\ plain_claims ex_jwt_members /\ body ex_jwt_members ex_body
  /\ mget ex_body "issuanceDate" = None /\ mget (cr_json v) "issuanceDate" = Some (JStr "T7").
Proof.
  destruct (parse_credential ex_jenv ex_copts (ex_tok "good")) as [v| |] eqn:Ev; [|vm_compute in Ev; discriminate..].
  vm_compute in Ev. injection Ev as <-. eexists _, _, (ex_jws "sig:m"). repeat split; try (vm_compute; reflexivity).
  - nodup_keys.
  - apply names_check. vm_compute. reflexivity.
  - apply body_vc; [reflexivity|discriminate|nodup_keys].
Qed.
Print Assumptions C109_registered_claims.

(** ** C110  When both the iss claim and the issuer of the "vc" claim are DIDs, they are equal. *)
Theorem C110_did_issuers_agree : forall (E : venv) (o : copts) (data : string) (v : credential) je j ms m0 iss id,
  parse_credential E o data = Ok v -> cr_jwt v = Some je ->
  de_jws (ve_jwt E) (je_jwt je) None = Ok j -> ve_members E (jws_payload j) = Some ms ->
  plain_claims ms -> body ms m0 ->
  mget ms "iss" = Some (JStr iss) ->
  (mget m0 "issuer" = Some (JStr id) \/ exists o, mget m0 "issuer" = Some (JObj o) /\ mget o "id" = Some (JStr id)) ->
  has_prefix "did:" iss = true -> has_prefix "did:" id = true -> iss = id.
Proof.
  intros E o data v je j ms m0 iss id H Hje Hj Hms Hp Hb Hi Hd P1 P2. apply parse_credential_sourced in H as [Hs _].
  destruct (Hs je Hje) as (j' & Hj' & _ & Hc). rewrite Hj in Hj'. injection Hj' as <-.
  destruct (jwt_contents_refined E _ ms m0 _ Hc Hms Hp Hb) as (iss' & jti & nbf & iat & exp & H1 & _ & _ & _ & _ & _ & Hn & _).
  destruct H1 as [H1|[[H1|H1] _]]; rewrite Hi in H1; try discriminate. injection H1 as <-.
  destruct (String.eqb_spec iss id) as [|Hne]; [assumption|]. exfalso. apply Hn. split.
  - intros ->. discriminate.
  - exists id. auto.
Qed.
Example C110_example : mget ex_jwt_members "iss" = Some (JStr "did:i") /\ mget ex_body "issuer" = Some (JStr "did:i")
  /\ has_prefix "did:" "did:i" = true.
Proof. repeat split. Qed.
(** tokens with two different DIDs are refused *)
Definition two_iss (a b : string) : list (string * json) :=
  [("iss", JStr a); ("vc", JObj [("@context", JStr v1_context); ("type", JStr "VerifiableCredential"); ("issuer", JStr b)])].
Definition two_env (a b : string) : venv :=
  toyV0 [(ex_tok "good", ex_jws "sig:m")] [("P", two_iss a b); ("{}", [])].
Example C110_example_refused : parse_credential (two_env "did:a" "did:b") toyO (ex_tok "good") = Err "iss claim and vc.issuer.id missmatch".
Proof. vm_compute. reflexivity. Qed.
Print Assumptions C110_did_issuers_agree.

(** ** C111  (refuted) For issuers in general: when one of the two is not a DID, iss silently replaces the issuer. *)
Theorem C111_issuers_agree_refuted :
  ~ (forall E o data v je j ms m0 iss id,
       parse_credential E o data = Ok v -> cr_jwt v = Some je ->
       de_jws (ve_jwt E) (je_jwt je) None = Ok j -> ve_members E (jws_payload j) = Some ms ->
       plain_claims ms -> body ms m0 ->
       mget ms "iss" = Some (JStr iss) -> mget m0 "issuer" = Some (JStr id) -> iss <> "" -> iss = id).
Proof.
  intros H.
  destruct (parse_credential (two_env "https://mallory.example" "did:bank") toyO (ex_tok "good")) as [v| |] eqn:Ev; [|vm_compute in Ev; discriminate..].
  assert (Hje : exists je, cr_jwt v = Some je /\ de_jws (ve_jwt (two_env "https://mallory.example" "did:bank")) (je_jwt je) None = Ok (ex_jws "sig:m")).
  { vm_compute in Ev. injection Ev as <-. eexists. split; reflexivity. }
  destruct Hje as (je & H1 & H2).
  assert (G : "https://mallory.example" = "did:bank").
  { eapply (H _ _ _ _ _ _ (two_iss "https://mallory.example" "did:bank")
      [("@context", JStr v1_context); ("type", JStr "VerifiableCredential"); ("issuer", JStr "did:bank")]);
      [exact Ev|exact H1|exact H2|reflexivity| | |reflexivity|reflexivity|discriminate].
    - split; [nodup_keys|apply names_check; vm_compute; reflexivity].
    - apply body_vc; [reflexivity|discriminate|nodup_keys]. }
  discriminate G.
Qed.
Print Assumptions C111_issuers_agree_refuted.

(** ** C112  (refuted) The validity period Contents() reports is that of the registered claims: not when a 2.0 credential
    also has the date members of data model 1.1. *)
Definition shadow_ms : list (string * json) :=
  [("iss", JStr "did:i"); ("nbf", jnum 900); ("exp", jnum 905);
   ("vc", JObj [("@context", JStr v2_context); ("type", JStr "VerifiableCredential"); ("issuer", JStr "did:i");
                ("issuanceDate", JStr "T1"); ("expirationDate", JStr "T99999")])].
Theorem C112_claim_dates_reported_refuted :
  ~ (forall E o data v je j ms d,
       parse_credential E o data = Ok v -> cr_jwt v = Some je -> de_jws (ve_jwt E) (je_jwt je) None = Ok j ->
       ve_members E (jws_payload j) = Some ms -> plain_claims ms -> date_claim ms "exp" (Some d) ->
       option_map tw_time (vc_expired (cr_contents v)) = Some (of_unix d)).
Proof.
  intros H. set (E := toyV0 [(ex_tok "good", ex_jws "sig:m")] [("P", shadow_ms); ("{}", [])]).
  destruct (parse_credential E toyO (ex_tok "good")) as [v| |] eqn:Ev; [|vm_compute in Ev; discriminate..].
  assert (Hje : exists je, cr_jwt v = Some je /\ de_jws (ve_jwt E) (je_jwt je) None = Ok (ex_jws "sig:m")).
  { vm_compute in Ev. injection Ev as <-. eexists. split; reflexivity. }
  destruct Hje as (je & H1 & H2).
  assert (G : option_map tw_time (vc_expired (cr_contents v)) = Some (of_unix 905)).
  { eapply (H E toyO (ex_tok "good") v je _ shadow_ms); [exact Ev|exact H1|exact H2|reflexivity| |reflexivity].
    split; [nodup_keys|apply names_check; vm_compute; reflexivity]. }
  vm_compute in Ev. injection Ev as <-. vm_compute in G. discriminate G.
Qed.
Print Assumptions C112_claim_dates_reported_refuted.

(** ** C113  ParseCredential does not panic: on any input, when every JWT payload involved has a registered claim and
    another claim, base-context validation is not selected, and libraries and checkers do not panic. *)
Theorem C113_no_panic : forall (E : venv) (o : copts) (data : string),
  calm E o -> co_mode o <> MBase ->
  (forall d tok j ms, reaches E data d -> tokens_of E d tok -> de_jws (ve_jwt E) tok None = Ok j ->
     ve_members E (jws_payload j) = Some ms -> usable_payload ms) ->
  parse_credential E o data <> Panic.
Proof.
  intros E o data Hc Hm Hu. apply np_parse_credential; [assumption..|]. intros d' Hr tok j ms Ht. now apply Hu with (d := d').
Qed.
Definition calm_env : venv := toyV0 [(ex_tok "good", ex_jws "sig:m")] [("P", ex_jwt_members); ("{}", [])].
Example C113_example : calm calm_env toyO /\ co_mode toyO <> MBase
  /\ (forall d tok j ms, reaches calm_env (ex_tok "good") d -> tokens_of calm_env d tok -> de_jws (ve_jwt calm_env) tok None = Ok j ->
        ve_members calm_env (jws_payload j) = Some ms -> usable_payload ms)
  /\ is_ok (parse_credential calm_env toyO (ex_tok "good")) = true.
Proof.
  split; [|split; [discriminate|split; [|vm_compute; reflexivity]]].
  - unfold calm, np. cbn [ve_jwt ve_schema ve_valid ve_jsonld ve_ldproofs ve_ldmsg ve_related ve_cose calm_env toyV0 toyO co_jwt_check co_cwt_check co_ld_check co_di toyD de_jws].
    repeat split; intros; try discriminate.
    + destruct (mget _ t); discriminate.
    + injection H as <-. contradiction.
  - intros d tok j ms _ _ Hj Hm. cbn [calm_env toyV0 toyD ve_jwt de_jws mget] in Hj.
    destruct (String.eqb tok (ex_tok "good")); [|discriminate]. injection Hj as <-. cbn in Hm. injection Hm as <-.
    split; [exists "iss", "iss"; cbn; tauto|]. exists "vc". cbn. split; [tauto|]. intuition discriminate.
Qed.
Print Assumptions C113_no_panic.

(** ** C114  (refuted) Every JWT payload gives a credential or an error: payloads without registered claims, and
    payloads with registered claims only, panic - before any signature is checked. *)
Theorem C114_no_registered_claims_refuted : forall (E : venv) (o : copts) tok j ms c,
  split_on tilde tok = [tok] -> enveloped_parser E o tok = Ok None -> unwrap_string E tok = tok -> is_jws (ve_obj E) tok = true ->
  de_compact (ve_jwt E) tok = true -> de_jws (ve_jwt E) tok None = Ok j -> check_headers (jws_headers j) = Ok tt ->
  ve_members E (jws_payload j) = Some ms -> unmarshal_claims ms = Ok c ->
  (forall r k, In r registered -> In k (map fst ms) -> equal_fold r k = false) ->
  parse_credential E o tok = Panic.
Proof.
  intros E o tok j ms c Hs He Hu Hi Hco Hj Hh Hm Hc Hn.
  assert (Hd : decode_cred_jwt (ve_time E) (ve_jwt E) (ve_members E) tok = Panic).
  { unfold decode_cred_jwt, jwt_parse, parse_jwt, map_jws. rewrite Hco. cbn [guard bind]. rewrite Hj. cbn [bind]. rewrite Hh. cbn [bind].
    unfold claims_of. rewrite Hm, Hc. cbn [is_ok guard bind snd]. rewrite Hm, Hc. cbn [bind].
    assert (Ha : jc_alloc c = false).
    { unfold unmarshal_claims in Hc. apply bind_ok in Hc as (d & Hd & Hc). injection Hc as Hc.
      assert (Hdf : jc_alloc d = false).
      { unfold decode_claims in Hd. repeat (apply bind_ok in Hd as (? & _ & Hd)). injection Hd as <-.
        apply not_true_iff_false. intros Hx.
        apply (proj1 (existsb_exists (fun k => match occurrences k ms with [] => false | _ => true end) registered)) in Hx.
        destruct Hx as (r & Hr & Hx). unfold occurrences in Hx. rewrite filter_none in Hx; [discriminate|].
        intros [k y] Hin. apply Hn; [assumption|]. cbn [fst]. change k with (fst (k, y)). now apply in_map. }
      rewrite <- Hc. now destruct (_ && _). }
    unfold refine. now rewrite Ha. }
  unfold parse_credential. cbn [try_parsers]. unfold parse_with at 1. rewrite He. cbn [bind].
  unfold parse_with at 1. unfold json_parser. rewrite Hu. unfold try_parse_jws. rewrite Hs. cbn [List.length Nat.ltb Nat.leb]. rewrite Hi. cbn [jv_jws jv_jwt].
  now rewrite Hd.
Qed.
Example C114_example :
  parse_credential (toyV0 [(ex_tok "x", ex_jws "x")] [("P", [("vc", JObj [("type", JStr "VerifiableCredential")])]); ("{}", [])]) ex_copts (ex_tok "x") = Panic
  /\ parse_credential (toyV0 [(ex_tok "x", ex_jws "x")] [("P", [("iss", JStr "did:i")]); ("{}", [])]) ex_copts (ex_tok "x") = Panic
  /\ co_no_proof ex_copts = false.
Proof. repeat split; vm_compute; reflexivity. Qed.
Print Assumptions C114_no_registered_claims_refuted.
