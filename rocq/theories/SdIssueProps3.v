(** Property theorems: issuing SD-JWTs, continued - edge cases of New, and credentials (NewFromVC). *)
From Verif Require Import GoBase Base64 StrLemmas JwtSpec JwtModel JwtProofs JwtProps SdSpec SdModel SdProofs SdRun SdOrder SdParse SdParseProofs SdSubset
  SdIssueSpec SdIssueModel SdIssueEnc SdIssueTop SdIssueV2 SdIssueMain SdIssueV5 SdIssueVc SdIssueProps.

(** A payload with a single digest whose disclosure cannot be put there is refused. *)
Lemma single_digest_refused E h F s P' :
  wf_env E -> wf_json (JObj (F ++ [("_sd", JArr [JStr (get_hash E h s)])])%list) -> ~ In "_sd" (map fst F) -> get_crypto_hash F = Ok h ->
  (exists v, dsp E s = Some (CElem v)) \/ (exists k v, dsp E s = Some (CMember k v) /\ In k (map fst F)) ->
  wf_json (JObj P') -> jeq (JObj (F ++ [("_sd", JArr [JStr (get_hash E h s)])])%list) (JObj P') ->
  verify_disclosures E [s] P' <> Ok tt.
Proof.
  intros HE Hw Hns Hh Hc Hw' Hj Hv.
  assert (HS : same_decoding E E) by (split; [reflexivity|]; intros b; destruct (sd_json E b); [apply jeq_refl|exact Logic.I]).
  apply jeq_sym in Hj.
  pose proof (verify_disclosures_order E E [s] _ _ HE HE Hw' Hw HS Hj Hv) as Hv2.
  apply verify_disclosures_iff in Hv2 as (h' & Hh' & Hall & out & dl & R & _ & _); auto.
  assert (h' = h).
  { assert (Hg : get_crypto_hash (F ++ [("_sd", JArr [JStr (get_hash E h s)])])%list = Ok h); [|congruence].
    revert Hh. unfold get_crypto_hash, get_key_from_vc. rewrite !mget_app. cbn [mget].
    change (String.eqb "_sd_alg" "_sd") with false. change (String.eqb "vc" "_sd") with false. cbv iota.
    destruct (mget F "_sd_alg"); [tauto|]. destruct (mget F "vc") as [[]|]; tauto. }
  subst h'.
  assert (Hds : exists c, dsp E s = Some c) by (destruct Hc as [(v & Hd)|(k & v & Hd & _)]; eauto). destruct Hds as (c & Hds).
  assert (HD : Dof E h [s] (get_hash E h s) = Some c).
  { unfold Dof. rewrite supplied_unique; [assumption|repeat constructor; simpl; tauto| |now left]. intros x [<-|[]]. congruence. }
  inversion R as [? Hx| |m sds named hidden ds1 mem ds2 Hl HN HM Nd Hk]; subst; [destruct Hx|].
  unfold sd_list in Hl. rewrite mget_app in Hl. apply mget_None in Hns. rewrite Hns in Hl. cbn [mget] in Hl. rewrite String.eqb_refl in Hl.
  injection Hl as <-. inversion HN as [|d l ou hid ds HDn HN2|d n x x' ds1' l ou hid ds HDs HR HN2]; subst; [congruence|].
  rewrite HD in HDs. injection HDs as ->. destruct Hc as [(v & Hd)|(k & v & Hd & Hi)]; [congruence|].
  rewrite Hd in Hds. injection Hds as -> ->. apply (Hk n).
  - rewrite map_app, in_app_iff. now left.
  - apply in_map_iff in Hi as ([k' w] & Hx & Hi). simpl in Hx. subst k'.
    unfold plain_key. destruct (String.eqb_spec n "_sd") as [->|]; [|reflexivity]. exfalso.
    apply mget_None in Hns. apply Hns. exact (in_map fst _ _ Hi).
  - now left.
Qed.
Lemma single_payload E I v5 o iss k v payload discs :
  io_decoys o = false -> ~ In k (io_nonsd o) ->
  (forall n l, Permutation l (ie_shuffle I n l)) ->
  new_sdjwt E I v5 o iss [(k, JStr v)] = Ok (payload, discs) ->
  exists s st, create_disclosure I v5 k (JStr v) 0 = Ok (s, st) /\ discs = [s] /\
    payload = (create_payload iss o ++ [("_sd", JArr [JStr (get_hash E (io_hash o) s)])])%list.
Proof.
  intros Hd Hk Hs Hn. apply str_in_nIn in Hk.
  assert (Hsh : forall n x, ie_shuffle I n [x] = [x]) by (intros n x; apply Permutation_length_1_inv, Hs).
  apply new_sdjwt_inv in Hn as (dm & st & Hc & ->). 
  assert (G : exists s st, create_disclosure I v5 k (JStr v) 0 = Ok (s, st) /\ discs = [s] /\ dm = [("_sd", JArr [JStr (get_hash E (io_hash o) s)])]).
  { destruct v5; [cbn [v5_create] in Hc|cbn [v2_create] in Hc]; unfold create_decoys in Hc; rewrite Hd in Hc; cbn [bind fst snd v5_loop v2_loop] in Hc;
      unfold cur_path in Hc; cbn [String.eqb] in Hc; rewrite Hk in Hc; cbn [orb andb] in Hc.
    all: rewrite !bind_assoc in Hc || idtac; apply bind_ok in Hc as ([[[a b] c] d] & Hc & Hb); apply bind_ok in Hc as ([s st1] & Hc & Hx).
    all: cbn [app fst snd] in *; injection Hx as <- <- <- <-; cbn [app fst snd create_digests map] in *; rewrite Hsh in Hb; injection Hb as <- <- _.
    all: exists s, st1; auto. }
  destruct G as (s & st1 & Hc1 & -> & ->). exists s, st1. split; [assumption|]. split; [reflexivity|].
  apply merge_custom_disjoint; [repeat constructor; simpl; tauto|]. intros x [<-|[]]. apply create_payload_no_sd.
Qed.
Lemma single_wf iss o d : (forall jwk, io_holder o = Some jwk -> ordinary jwk) ->
  wf_json (JObj (create_payload iss o ++ [("_sd", JArr [JStr d])])%list).
Proof.
  intros Hh. apply wf_obj_intro.
  - rewrite map_app. apply NoDup_app_intro; [apply create_payload_nodup|repeat constructor; simpl; tauto|].
    intros x Hx [<-|[]]. now apply create_payload_no_sd in Hx.
  - apply Forall_app. split.
    + apply Forall_forall. intros [k v] Hi. simpl. apply ordinary_wf. eapply create_payload_ordinary; eauto.
    + repeat constructor; simpl; auto.
Qed.

(** ** C79 (refuted)  SD-JWT v5: a claim whose name is the empty string (a JSON name like any other) is issued,
    but its disclosure is refused: it is encoded as an array element. *)
Theorem C79_v5_empty_name_refuted :
  forall E I o ok iss v payload discs P',
    wf_env E -> reads_back (sd_json E) (ie_enc I) ok -> (forall n s, ie_salt I n = Some s -> ok s) -> ok v ->
    (forall n l, Permutation l (ie_shuffle I n l)) -> (forall jwk, io_holder o = Some jwk -> ordinary jwk) ->
    io_decoys o = false -> ~ In "" (io_nonsd o) ->
    new_sdjwt E I true o iss [("", JStr v)] = Ok (payload, discs) ->
    wf_json (JObj P') -> jeq (JObj payload) (JObj P') ->
    verify_disclosures E discs P' <> Ok tt.
Proof.
  intros E I o ok iss v payload discs P' HE Hrb Hsalt Hok Hs Hh Hd Hk Hn Hw Hj.
  apply single_payload in Hn as (s & st & Hc & -> & ->); auto.
  destruct (disclosure_elem E I ok Hrb Hsalt _ _ _ _ Hc) as (v' & Hv' & _); [exact Logic.I|now apply texts_str|].
  eapply single_digest_refused; eauto using single_wf, create_payload_no_sd, create_payload_hash.
Qed.
Example C79_example :
  let tbl := [("A", JArr [JStr "s0"; JStr "Ann"])] in
  new_sdjwt (tbl_env tbl) (tbl_ienv tbl) true ex5_opts "did:i" [("", JStr "Ann")]
    = Ok ([("iss", JStr "did:i"); ("_sd_alg", JStr "sha-256"); ("_sd", JArr [JStr (b64_encode (b64_encode "A"))])], [b64_encode "A"]) /\
  exists e, verify_disclosures (tbl_env tbl) [b64_encode "A"]
     [("iss", JStr "did:i"); ("_sd_alg", JStr "sha-256"); ("_sd", JArr [JStr (b64_encode (b64_encode "A"))])] = Err e.
Proof. split; [vm_compute; reflexivity|]. eexists. vm_compute. reflexivity. Qed.
Print Assumptions C79_v5_empty_name_refuted.

(** ** C80 (refuted)  A hidden claim named like a registered field that is present (iss, sub, exp, ...) is issued,
    but its disclosure is refused. *)
Theorem C80_registered_name_refuted :
  forall E I v5 o ok iss k v payload discs P',
    wf_env E -> reads_back (sd_json E) (ie_enc I) ok -> (forall n s, ie_salt I n = Some s -> ok s) -> ok v -> ok k ->
    (forall n l, Permutation l (ie_shuffle I n l)) -> (forall jwk, io_holder o = Some jwk -> ordinary jwk) ->
    io_decoys o = false -> ~ In k (io_nonsd o) -> In k (map fst (create_payload iss o)) ->
    new_sdjwt E I v5 o iss [(k, JStr v)] = Ok (payload, discs) ->
    wf_json (JObj P') -> jeq (JObj payload) (JObj P') ->
    verify_disclosures E discs P' <> Ok tt.
Proof.
  intros E I v5 o ok iss k v payload discs P' HE Hrb Hsalt Hok Hokk Hs Hh Hd Hk Hin Hn Hw Hj.
  apply single_payload in Hn as (s & st & Hc & -> & ->); auto.
  assert (Hne : k <> "").
  { intros ->. apply in_map_iff in Hin as ([x y] & Hx & Hi). simpl in Hx. subst x. rewrite create_payload_eq in Hi.
    repeat (apply in_app_iff in Hi as [Hi|Hi]; [apply (in_map fst) in Hi; apply (opt_keys_in _ _ _ (f_str_keys _ _)) in Hi || apply (opt_keys_in _ _ _ (f_date_keys _ _)) in Hi || apply (opt_keys_in _ _ _ (f_cnf_keys _)) in Hi; discriminate|]).
    destruct Hi as [Hi|[]]. discriminate. }
  destruct (disclosure_member E I ok Hrb Hsalt _ _ _ _ _ _ Hc (or_intror Hne)) as (v' & Hv' & _); [exact Logic.I|now apply texts_str|assumption|].
  eapply single_digest_refused; eauto 6 using single_wf, create_payload_no_sd, create_payload_hash.
Qed.
Example C80_example :
  let tbl := [("A", JArr [JStr "s0"; JStr "iss"; JStr "did:x"])] in
  new_sdjwt (tbl_env tbl) (tbl_ienv tbl) false ex5_opts "did:i" [("iss", JStr "did:x")]
    = Ok ([("iss", JStr "did:i"); ("_sd_alg", JStr "sha-256"); ("_sd", JArr [JStr (b64_encode (b64_encode "A"))])], [b64_encode "A"]) /\
  exists e, verify_disclosures (tbl_env tbl) [b64_encode "A"]
     [("iss", JStr "did:i"); ("_sd_alg", JStr "sha-256"); ("_sd", JArr [JStr (b64_encode (b64_encode "A"))])] = Err e.
Proof. split; [vm_compute; reflexivity|]. eexists. vm_compute. reflexivity. Qed.
Print Assumptions C80_registered_name_refuted.

(** ** C81  Credentials: the subject's claims are hidden inside the credential, everything else stays as it was
    (plus the holder key and the hash algorithm), and verifying gives back the credential with the claims shown. *)
Theorem C81_v2_credential :
  forall E I o ok vc signed discs,
    wf_env E -> reads_back (sd_json E) (ie_enc I) ok -> (forall n s, ie_salt I n = Some s -> ok s) ->
    (forall n l, Permutation l (ie_shuffle I n l)) ->
    ordinary (JObj vc) -> texts ok (JObj vc) -> (forall jwk, io_holder o = Some jwk -> ordinary jwk) ->
    (mget vc "credentialSubject" = None \/ forall c, mget vc "vc" <> Some (JObj c)) ->
    (forall cs, mget (vc_claims vc) "credentialSubject" = Some (JObj cs) ->
       forall k, In k (map fst cs) -> k <> "cnf" /\ ~ In k (map fst (create_payload "" o))) ->
    new_from_vc E I false o vc = Ok (signed, discs) ->
    NoDup (digests_in false (JObj signed)) ->
    exists cs T, mget (vc_claims vc) "credentialSubject" = Some (JObj cs) /\ erase T = JObj cs /\
      v2_marked (io_structured o) (io_nonsd o) "" T /\ Permutation discs (all_discs T) /\
      forall sel P', NoDup sel -> incl sel discs -> wf_json (JObj P') -> jeq (JObj signed) (JObj P') ->
        verify_disclosures E sel P' = Ok tt /\ get_crypto_hash P' = Ok (io_hash o) /\
        forall order, visits_all order -> exists out, vp_disclosed E (io_hash o) sel order P' = Ok out /\
          jeq (JObj out) (JObj (with_claims vc (mset (bound (io_holder o) (vc_claims vc)) "credentialSubject"
            (JObj (subject_fields o ++ members_of (reveal (fun s => str_in s sel) T))%list)))).
Proof.
  intros E I o ok vc signed discs HE Hrb Hsalt Hshuf Hord Ht Hh Hone Hnames Hnew ND.
  apply new_from_vc_inv in Hnew as (cs & payload & Hcs & Hn & ->); [|assumption].
  apply new_sdjwt_inv in Hn as (dm & st & Hc & ->).
  assert (Hvo : ordinary (JObj (vc_claims vc))).
  { unfold vc_claims. destruct (mget vc "vc") as [[| | | | |c]|] eqn:Ev; try assumption. apply mget_In in Ev.
    inversion Hord as [? Hx| |m N Ha]; subst; [destruct Hx|]. now apply (Ha "vc"). }
  assert (Hvt : texts ok (JObj (vc_claims vc))).
  { unfold vc_claims. destruct (mget vc "vc") as [[| | | | |c]|] eqn:Ev; try assumption. apply mget_In in Ev.
    now apply (texts_obj_inv ok vc "vc"). }
  pose proof (mget_In _ _ _ Hcs) as Hci.
  assert (Hco : ordinary (JObj cs)) by (inversion Hvo as [? Hx| |m N Ha]; subst; [destruct Hx|]; now apply (Ha "credentialSubject")).
  assert (Hct : texts ok (JObj cs)) by now apply (texts_obj_inv ok (vc_claims vc) "credentialSubject").
  destruct (v2_create_ok E I o ok Hrb Hsalt Hshuf (JObj cs) "" 0 _ Hco Hct eq_refl Hc) as (mems & dec & HEnc & He & Hm & Hp).
  cbn [fst snd] in *.
  assert (Hnm : forall k, In k (names mems) -> In k (map fst cs)).
  { intros k Hk. cbn [erase] in He. injection He as <-. rewrite map_map. exact Hk. }
  assert (Hdis2 : forall k, In k (names mems) -> ~ In k (map fst (create_payload "" o))).
  { intros k Hk. eapply Hnames; eauto. }
  assert (Hcnf : ~ In "cnf" (names mems)).
  { intros Hk. destruct (Hnames cs Hcs "cnf") as [Hx _]; auto. }
  pose proof (signed_eq E o vc Hh mems dm dec HEnc Hcnf Hdis2) as Hse. cbv zeta in Hse. cbn [fst snd] in *. rewrite Hse in *.
  exists cs, (TObj mems). split; [assumption|]. split; [assumption|]. split; [assumption|]. split; [assumption|].
  intros sel P' Ns Hi Hw Hj.
  assert (Hi2 : incl sel (all_discs (TObj mems))) by (intros s Hs; eapply Permutation_in; [exact Hp|auto]).
  assert (NA : NoDup (map (get_hash E (io_hash o)) (all_discs (TObj mems)) ++ dec)%list).
  { rewrite <- (v2_reachable _ _ (fun _ => false) _ _ Hm).
    eapply Permutation_NoDup; [apply (vc_digests E o vc Hord Hh mems dm dec HEnc Hdis2)|exact ND]. }
  destruct (vc_main E o vc HE Hord Hh mems dm dec HEnc Hdis2 sel P' NA Ns Hi2 Hw Hj) as (Hv1 & Hv2).
  assert (HV : verify_disclosures E sel P' = Ok tt) by (apply Hv1; now rewrite (v2_reachable _ _ _ _ _ Hm)).
  split; [assumption|]. now apply Hv2.
Qed.
Theorem C81_v5_credential :
  forall E I o ok vc signed discs,
    wf_env E -> reads_back (sd_json E) (ie_enc I) ok -> (forall n s, ie_salt I n = Some s -> ok s) ->
    (forall n l, Permutation l (ie_shuffle I n l)) -> ok "_sd" -> ok "..." -> (forall x, ok (b64_encode x)) ->
    io_decoys o = false ->
    ordinary (JObj vc) -> texts ok (JObj vc) -> ~ name_of "" (JObj vc) -> (forall jwk, io_holder o = Some jwk -> ordinary jwk) ->
    (mget vc "credentialSubject" = None \/ forall c, mget vc "vc" <> Some (JObj c)) ->
    (forall cs, mget (vc_claims vc) "credentialSubject" = Some (JObj cs) ->
       forall k, In k (map fst cs) -> k <> "cnf" /\ ~ In k (map fst (create_payload "" o))) ->
    new_from_vc E I true o vc = Ok (signed, discs) ->
    NoDup (map (get_hash E (io_hash o)) discs) ->
    exists cs T, mget (vc_claims vc) "credentialSubject" = Some (JObj cs) /\ erase T = JObj cs /\
      v5_marked (io_structured o) (io_nonsd o) (io_always o) (io_rec o) false "" T /\ Permutation discs (all_discs T) /\
      forall sel P', NoDup sel -> incl sel discs -> wf_json (JObj P') -> jeq (JObj signed) (JObj P') ->
        (verify_disclosures E sel P' = Ok tt <-> incl sel (reachable (fun s => str_in s sel) T)) /\
        (verify_disclosures E sel P' = Ok tt ->
         get_crypto_hash P' = Ok (io_hash o) /\
         forall order, visits_all order -> exists out, vp_disclosed E (io_hash o) sel order P' = Ok out /\
          jeq (JObj out) (JObj (with_claims vc (mset (bound (io_holder o) (vc_claims vc)) "credentialSubject"
            (JObj (subject_fields o ++ members_of (reveal (fun s => str_in s sel) T))%list))))).
Proof.
  intros E I o ok vc signed discs HE Hrb Hsalt Hshuf Hok1 Hok2 Hok3 Hdec Hord Ht Hne Hh Hone Hnames Hnew ND.
  apply new_from_vc_inv in Hnew as (cs & payload & Hcs & Hn & ->); [|assumption].
  apply new_sdjwt_inv in Hn as (dm & st & Hc & ->).
  assert (Hvo : ordinary (JObj (vc_claims vc)) /\ texts ok (JObj (vc_claims vc)) /\ ~ name_of "" (JObj (vc_claims vc))).
  { unfold vc_claims. destruct (mget vc "vc") as [[| | | | |c]|] eqn:Ev; auto. apply mget_In in Ev.
    inversion Hord as [? Hx| |m N Ha]; subst; [destruct Hx|]. split; [now apply (Ha "vc")|]. split; [now apply (texts_obj_inv ok vc "vc")|].
    intros Hx. apply Hne. eapply no_obj; eassumption. }
  destruct Hvo as (Hvo & Hvt & Hvn).
  pose proof (mget_In _ _ _ Hcs) as Hci.
  assert (Hco : ordinary (JObj cs)) by (inversion Hvo as [? Hx| |m N Ha]; subst; [destruct Hx|]; now apply (Ha "credentialSubject")).
  assert (Hct : texts ok (JObj cs)) by now apply (texts_obj_inv ok (vc_claims vc) "credentialSubject").
  assert (Hcn : ~ name_of "" (JObj cs)) by (intros Hx; apply Hvn; eapply no_obj; eassumption).
  destruct (v5_create_ok E I o ok Hrb Hsalt Hshuf Hok1 Hok2 Hok3 Hdec (JObj cs) "" false 0 _ Hco Hct Hcn eq_refl Hc) as (mems & HEnc & He & Hm & Hp & _).
  cbn [fst snd] in *.
  assert (Hnm : forall k, In k (names mems) -> In k (map fst cs)).
  { intros k Hk. cbn [erase] in He. injection He as <-. rewrite map_map. exact Hk. }
  assert (Hdis2 : forall k, In k (names mems) -> ~ In k (map fst (create_payload "" o))) by (intros k Hk; eapply Hnames; eauto).
  assert (Hcnf : ~ In "cnf" (names mems)) by (intros Hk; destruct (Hnames cs Hcs "cnf") as [Hx _]; auto).
  pose proof (signed_eq E o vc Hh mems dm [] HEnc Hcnf Hdis2) as Hse. cbv zeta in Hse. cbn [fst snd] in *. rewrite Hse in *.
  exists cs, (TObj mems). split; [assumption|]. split; [assumption|]. split; [assumption|]. split; [assumption|].
  intros sel P' Ns Hi Hw Hj.
  assert (Hi2 : incl sel (all_discs (TObj mems))) by (intros s Hs; eapply Permutation_in; [exact Hp|auto]).
  assert (NA : NoDup (map (get_hash E (io_hash o)) (all_discs (TObj mems)) ++ [])%list).
  { rewrite app_nil_r. eapply Permutation_NoDup; [apply Permutation_map; exact Hp|exact ND]. }
  exact (vc_main E o vc HE Hord Hh mems dm [] HEnc Hdis2 sel P' NA Ns Hi2 Hw Hj).
Qed.
Definition ex_vc : gomap json :=
  [("iss", JStr "did:i"); ("vc", JObj [("type", JStr "VerifiableCredential");
     ("credentialSubject", JObj [("name", JStr "Ann"); ("degree", JObj [("type", JStr "BSc")]); ("lang", JStr "en")])])].
Definition ex_vc_opts (v5 : bool) : iopts :=
  {| io_sub := ""; io_aud := ""; io_jti := ""; io_id := "did:s"; io_exp := None; io_nbf := None; io_iat := None;
     io_holder := Some (JObj [("kty", JStr "OKP")]); io_hash := SHA256; io_decoys := negb v5; io_structured := true;
     io_nonsd := ["lang"]; io_always := []; io_rec := [] |}.
Definition ex_vc_tbl : list (string * json) :=
  [("A", JArr [JStr "s2"; JStr "name"; JStr "Ann"]); ("B", JArr [JStr "s5"; JStr "type"; JStr "BSc"]);
   ("A5", JArr [JStr "s0"; JStr "name"; JStr "Ann"]); ("B5", JArr [JStr "s1"; JStr "type"; JStr "BSc"])].
Definition ex_vc_signed (degree sd : list json) : gomap json :=
  [("iss", JStr "did:i"); ("vc", JObj [("type", JStr "VerifiableCredential");
     ("credentialSubject", JObj [("id", JStr "did:s"); ("degree", JObj [("_sd", JArr degree)]); ("lang", JStr "en"); ("_sd", JArr sd)]);
     ("_sd_alg", JStr "sha-256"); ("cnf", JObj [("jwk", JObj [("kty", JStr "OKP")])])])].
Example C81_example :
  ordinary (JObj ex_vc) /\ ~ name_of "" (JObj ex_vc) /\
  new_from_vc (tbl_env ex_vc_tbl) (tbl_ienv ex_vc_tbl) false (ex_vc_opts false) ex_vc
    = Ok (ex_vc_signed [JStr (b64_encode "s4"); JStr (b64_encode (b64_encode "B"))] [JStr (b64_encode "s1"); JStr (b64_encode (b64_encode "A"))],
          [b64_encode "B"; b64_encode "A"]) /\
  new_from_vc (tbl_env ex_vc_tbl) (tbl_ienv ex_vc_tbl) true (ex_vc_opts true) ex_vc
    = Ok (ex_vc_signed [JStr (b64_encode (b64_encode "B5"))] [JStr (b64_encode (b64_encode "A5"))], [b64_encode "A5"; b64_encode "B5"]) /\
  vp_disclosed (tbl_env ex_vc_tbl) SHA256 [b64_encode "A5"] (fun m => map fst m)
    (ex_vc_signed [JStr (b64_encode (b64_encode "B5"))] [JStr (b64_encode (b64_encode "A5"))])
    = Ok [("iss", JStr "did:i"); ("vc", JObj [("type", JStr "VerifiableCredential");
       ("credentialSubject", JObj [("name", JStr "Ann"); ("id", JStr "did:s"); ("degree", JObj []); ("lang", JStr "en")]);
       ("cnf", JObj [("jwk", JObj [("kty", JStr "OKP")])])])].
Proof.
  split.
  { repeat first [apply scalar_ordinary | apply ord_obj; [repeat constructor; simpl; intuition discriminate|
      let k := fresh in let v := fresh in let H := fresh in intros k v H; simpl in H;
      repeat (destruct H as [H|H]; [injection H as <- <-; split; [unfold reserved; intuition discriminate|]|]); try contradiction] ]. }
  split.
  { intros H. repeat match goal with
    | H : name_of _ (JObj _) |- _ => inversion H; clear H; subst
    | H : name_of _ (JStr _) |- _ => inversion H
    | H : In _ _ |- _ => simpl in H; repeat (destruct H as [H|H]; [inversion H; subst; clear H|]); try contradiction
    end. }
  split; [vm_compute; reflexivity|]. split; vm_compute; reflexivity.
Qed.
Print Assumptions C81_v2_credential.
Print Assumptions C81_v5_credential.

(** ** C82 (refuted)  A credential subject hidden by NewFromVC does not remain in clear text; it does when the
    map has both a [vc] object and a top-level credentialSubject (whose claims are the ones encoded). *)
Theorem C82_clear_copy_refuted :
  forall E I v5 o vc c cs signed discs,
    mget vc "vc" = Some (JObj c) -> mget vc "credentialSubject" = Some (JObj cs) ->
    new_from_vc E I v5 o vc = Ok (signed, discs) -> mget signed "credentialSubject" = Some (JObj cs).
Proof.
  intros E I v5 o vc c cs signed discs Hv Hc H. unfold new_from_vc, get_key_from_vc in H. rewrite Hc, Hv in H.
  apply bind_ok in H as (r & _ & H). cbn [bind] in H. injection H as <- _. rewrite mget_mset. exact Hc.
Qed.
Example C82_example :
  exists signed discs, new_from_vc (tbl_env ex_vc_tbl) (tbl_ienv ex_vc_tbl) true (ex_vc_opts true)
    (("credentialSubject", JObj [("name", JStr "Ann")]) :: ex_vc) = Ok (signed, discs) /\ discs = [b64_encode "A5"].
Proof. eexists. eexists. split; vm_compute; reflexivity. Qed.
Print Assumptions C82_clear_copy_refuted.

(** ** C83  Claims that use the reserved name [_sd], at any depth of objects, are refused ... *)
Inductive named_in_objects (n : string) : json -> Prop :=
| nio_here m v : In (n, v) m -> named_in_objects n (JObj m)
| nio_deep m k v : In (k, v) m -> named_in_objects n v -> named_in_objects n (JObj m).
Lemma key_exists_objects n j : named_in_objects n j -> key_exists n j = true.
Proof.
  induction 1 as [m v Hi|m k v Hi _ IH]; cbn [key_exists]; apply existsb_exists; [exists (n, v)|exists (k, v)]; (split; [assumption|]); cbn [fst snd].
  - now rewrite String.eqb_refl.
  - rewrite IH. apply orb_true_r.
Qed.
Theorem C83_reserved_name_refused :
  forall E I v5 o iss claims, named_in_objects "_sd" (JObj claims) ->
    exists e, new_sdjwt E I v5 o iss claims = Err e.
Proof.
  intros E I v5 o iss claims H. unfold new_sdjwt. rewrite (key_exists_objects _ _ H). eexists. reflexivity.
Qed.
(** ** C84 (refuted)  ... but not inside arrays, and the other reserved names are not refused. *)
Theorem C84_reserved_in_arrays_refuted :
  forall E I o iss x, io_decoys o = false -> ~ In "a" (io_nonsd o) -> ~ In "..." (io_nonsd o) ->
    (forall n, exists s, ie_salt I n = Some s) -> (forall j, exists b, ie_enc I j = Some b) ->
    (exists r, new_sdjwt E I false o iss [("a", JArr [JObj [("_sd", x)]])] = Ok r) /\
    (is_object x = false -> exists r, new_sdjwt E I false o iss [("...", x)] = Ok r).
Proof.
  intros E I o iss x Hd Ha Hb Hs He. apply str_in_nIn in Ha, Hb. destruct (Hs O) as (s & Hs0).
  split.
  - unfold new_sdjwt, v2_create, create_decoys, cur_path, create_disclosure, new_salt.
    cbn [key_exists existsb fst snd String.eqb Ascii.eqb Bool.eqb orb negb guard bind]. rewrite Hd. cbn [bind fst snd v2_loop].
    unfold cur_path. cbn [String.eqb andb]. rewrite Ha. unfold create_disclosure, new_salt. rewrite Hs0. cbn [bind fst snd andb].
    destruct (He (JArr [JStr s; JStr "a"; JArr [JObj [("_sd", x)]]])) as (b & ->). cbn [bind fst snd]. eauto.
  - intros Ex.
    unfold new_sdjwt, v2_create, create_decoys.
    assert (Hk : key_exists "_sd" (JObj [("...", x)]) = false) by (destruct x; try discriminate; reflexivity). rewrite Hk.
    cbn [negb guard bind]. rewrite Hd. cbn [bind fst snd v2_loop].
    assert (Hm : match x with JObj _ => true | _ => false end = false) by exact Ex. rewrite Hm. cbn [andb].
    unfold cur_path. cbn [String.eqb]. rewrite Hb. unfold create_disclosure, new_salt. rewrite Hs0. cbn [bind fst snd andb].
    destruct (He (JArr [JStr s; JStr "..."; x])) as (b & ->). cbn [bind fst snd]. eexists. reflexivity.
Qed.
Example C83_example : named_in_objects "_sd" (JObj [("a", JObj [("_sd", JArr [])])]).
Proof. eapply nio_deep; [now left|]. eapply nio_here. now left. Qed.
Print Assumptions C83_reserved_name_refused.
Print Assumptions C84_reserved_in_arrays_refuted.
Example C84_example :
  exists r, new_sdjwt (tbl_env []) {| ie_salt := fun _ => Some "s"; ie_shuffle := fun _ l => l; ie_decoys := fun _ => O; ie_enc := fun _ => Some "A" |}
     false ex5_opts "did:i" [("a", JArr [JObj [("_sd", JArr [])]])] = Ok r.
Proof. eexists. vm_compute. reflexivity. Qed.
