(** Property theorems for .well-known DID configurations (C37, C133-C136). *)
From Coq Require Import Permutation.
From Verif Require Import GoBase Base64 StatusModel PexModel StrLemmas JwtSpec DiSpec VcSpec JwtModel SdSpec SdModel SdParse DiModel
  VcModel VcJwt VcParse VcProofs VcView VcText VcMod VcSecure VcPanic DiProofs DiProps JwtProofs JwtProps VcProps VcProps2 VcProps5 DcModel.

(** *** Two parses of one text agree on the credential, whatever the options (no external contexts). *)
Definition agree_on {A} (a b : res A) : Prop := forall x y, a = Ok x -> b = Ok y -> x = y.
Lemma json_agree E o1 o2 d : agree_on (json_parser E o1 d) (json_parser E o2 d).
Proof.
  intros x y. unfold json_parser. cbv zeta. intros H1 H2.
  apply bind_ok in H1 as (hm & Hm & H1). rewrite Hm in H2. cbn [bind] in H2. destruct hm as [[h m]|]; [|congruence].
  apply bind_ok in H1 as (c & Hc & H1). rewrite Hc in H2. cbn [bind] in H2.
  apply bind_ok in H1 as (ps & Hps & H1). rewrite Hps in H2. cbn [bind] in H2.
  apply bind_ok in H1 as (u & _ & H1). apply bind_ok in H2 as (u' & _ & H2).
  apply bind_ok in H1 as (ds & Hds & H1). rewrite Hds in H2. cbn [bind] in H2. congruence.
Qed.
Lemma cbor_agree E o1 o2 d : agree_on (cbor_parser E o1 d) (cbor_parser E o2 d).
Proof.
  intros x y. unfold cbor_parser. intros H1 H2.
  apply bind_ok in H1 as (dm & Hm & H1). rewrite Hm in H2. cbn [bind] in H2. destruct dm as [[raw msg]|]; [|congruence].
  apply bind_ok in H1 as (m & Hx & H1). rewrite Hx in H2. cbn [bind] in H2.
  apply bind_ok in H1 as (c & Hc & H1). rewrite Hc in H2. cbn [bind] in H2.
  apply bind_ok in H1 as (u & _ & H1). apply bind_ok in H2 as (u' & _ & H2). congruence.
Qed.
Lemma with_agree E o1 o2 p1 p2 d : co_external o1 = [] -> co_external o2 = [] -> agree_on (p1 d) (p2 d) ->
  agree_on (parse_with E o1 p1 d) (parse_with E o2 p2 d).
Proof.
  intros X1 X2 Hp x y H1 H2.
  assert (N : forall o p z, parse_with E o p d = Ok z -> co_external o = [] -> p d = Ok z).
  { intros o p z H X. destruct z as [v|].
    - apply parse_with_ok in H as (v0 & H0 & Hc & _). apply checked_no_ext in Hc as ->; assumption.
    - unfold parse_with in H. apply bind_ok in H as ([v|] & Hr & H); [|assumption].
      apply bind_ok in H as (v1 & _ & H). apply bind_ok in H as (u & _ & H). discriminate. }
  apply N in H1; [|assumption]. apply N in H2; [|assumption]. eapply Hp; eassumption.
Qed.
Lemma enveloped_agree E o1 o2 d : co_external o1 = [] -> co_external o2 = [] -> agree_on (enveloped_parser E o1 d) (enveloped_parser E o2 d).
Proof.
  intros X1 X2 x y. unfold enveloped_parser. destruct (parse_json E d) as [m|]; [|congruence].
  destruct (decode_type (fld m "type")) as [ts| |]; [|congruence..]. destruct (negb (str_in enveloped_type ts)); [congruence|].
  destruct (mget m "id") as [[| | |id| |]|]; try congruence. unfold parse_data_url_cred. intros H1 H2.
  apply bind_ok in H1 as ([[media enc] dd] & Hu & H1). rewrite Hu in H2. cbn [bind] in H2.
  destruct (String.eqb media vc_media_jwt || String.eqb media vc_media_sdjwt); [|destruct (String.eqb media vc_media_cose); [|discriminate]].
  - exact (with_agree E o1 o2 _ _ dd X1 X2 (json_agree E o1 o2 dd) _ _ H1 H2).
  - exact (with_agree E o1 o2 _ _ dd X1 X2 (cbor_agree E o1 o2 dd) _ _ H1 H2).
Qed.
Lemma parse_agree E o1 o2 d : co_external o1 = [] -> co_external o2 = [] ->
  agree_on (parse_credential E o1 d) (parse_credential E o2 d).
Proof.
  intros X1 X2 x y. unfold parse_credential. cbn [try_parsers]. intros H1 H2.
  apply bind_ok in H1 as (r1 & A1 & H1). apply bind_ok in H2 as (s1 & B1 & H2).
  assert (r1 = s1) by exact (with_agree E o1 o2 _ _ d X1 X2 (enveloped_agree E o1 o2 d X1 X2) _ _ A1 B1). subst s1.
  destruct r1; [congruence|].
  apply bind_ok in H1 as (r1 & A2 & H1). apply bind_ok in H2 as (s1 & B2 & H2).
  assert (r1 = s1) by exact (with_agree E o1 o2 _ _ d X1 X2 (json_agree E o1 o2 d) _ _ A2 B2). subst s1.
  destruct r1; [congruence|].
  apply bind_ok in H1 as (r1 & A3 & H1). apply bind_ok in H2 as (s1 & B3 & H2).
  assert (r1 = s1) by exact (with_agree E o1 o2 _ _ d X1 X2 (cbor_agree E o1 o2 d) _ _ A3 B3). subst s1.
  destruct r1; [congruence|discriminate].
Qed.

(** ** C37  VerifyDIDAndDomain succeeds only on a configuration with exactly the two members, one of whose linked
    credentials is a domain linkage credential of the DID for the domain, signed with a key of the DID. *)
(** Specification: a domain linkage credential of [did] for [domain] *)
Definition same_origin (D : dcenv) (a b : string) : Prop := exists scheme host, dc_url D a = Some (scheme, host) /\ dc_url D b = Some (scheme, host).
Record domain_linkage (D : dcenv) (did domain : string) (v : credential) : Prop := {
  dl_issuer : exists i, vc_issuer (cr_contents v) = Some i /\ is_id i = did;
  dl_type : In "DomainLinkageCredential" (vc_types (cr_contents v));
  dl_noid : vc_id (cr_contents v) = "";
  dl_issued : vc_issued (cr_contents v) <> None;
  dl_expires : vc_expired (cr_contents v) <> None;
  dl_subject : exists s origin, vc_subject (cr_contents v) = [s] /\ sj_id s = did /\ dc_did D did = true
     /\ mget (sj_custom s) "origin" = Some (JStr origin) /\ same_origin D origin domain;
  (** JSON web token format *)
  dl_jwt : forall je, cr_jwt v = Some je -> exists j kid alg pl, de_jws (ve_jwt (dc_v D)) (je_jwt je) None = Ok j
     /\ mget (jws_headers j) "alg" = Some (JStr alg) /\ mget (jws_headers j) "kid" = Some (JStr kid)
     /\ (forall t, mget (jws_headers j) "typ" = Some (JStr t) -> t = "JWT")
     /\ incl (map fst (jws_headers j)) ["alg"; "kid"; "typ"]
     /\ de_members (ve_jwt (dc_v D)) (jws_payload j) = Some pl
     /\ incl (map fst pl) ["exp"; "iss"; "nbf"; "sub"; "vc"; "iat"] }.
(** the configuration lists [entries] *)
Definition lists (D : dcenv) (cfg : string) (entries : list json) : Prop :=
  exists ms, ve_members (dc_v D) cfg = Some ms
    /\ (forall k, In k (map fst ms) <-> k = "@context" \/ k = "linked_dids") /\ In ("linked_dids", JArr entries) ms.
(** the text of an entry: a JWT, or an object *)
Definition entry_is (D : dcenv) (j : json) (text : string) : Prop :=
  j = JStr text \/ exists m, j = JObj m /\ dc_marshal D m = Ok text.

Lemma guard_ok b e u : guard b e = Ok u -> b = true.
Proof. destruct b; [reflexivity|discriminate]. Qed.
Lemma only_keys_incl {V} (m : list (string * V)) l : only_keys m l = true <-> incl (map fst m) l.
Proof.
  unfold only_keys. rewrite forallb_forall. split.
  - intros H k Hk. apply in_map_iff in Hk as (kv & <- & Hi). now apply str_in_In, H.
  - intros H kv Hk. apply str_in_In, H. now apply in_map.
Qed.
Lemma validate_origin_ok D a b : validate_origin D a b = Ok tt <-> same_origin D a b.
Proof.
  unfold validate_origin, same_origin. split.
  - destruct (dc_url D a) as [[s1 h1]|]; [|discriminate]. destruct (dc_url D b) as [[s2 h2]|]; [|discriminate]. intros H.
    apply guard_ok, andb_prop in H as [H1 H2]. apply String.eqb_eq in H1, H2. subst. eauto.
  - intros (s & h & -> & ->). now rewrite !String.eqb_refl.
Qed.
Definition linked_contents (D : dcenv) (did domain : string) (c : contents) : Prop :=
  In "DomainLinkageCredential" (vc_types c) /\ vc_id c = "" /\ vc_issued c <> None /\ vc_expired c <> None
  /\ exists s origin, vc_subject c = [s] /\ sj_id s = did /\ sj_id s <> "" /\ dc_did D did = true
     /\ mget (sj_custom s) "origin" = Some (JStr origin) /\ same_origin D origin domain.
Lemma validate_linkage_ok D c did domain : validate_linkage D c did domain = Ok tt <-> linked_contents D did domain c.
Proof.
  unfold validate_linkage, linked_contents. split.
  - intros H.
    apply bind_ok in H as (u1 & H1 & H). apply guard_ok, str_in_In in H1.
    apply bind_ok in H as (u2 & H2 & H). apply guard_ok, String.eqb_eq in H2.
    apply bind_ok in H as (u3 & H3 & H). apply guard_ok in H3.
    apply bind_ok in H as (u4 & H4 & H). apply guard_ok in H4.
    apply bind_ok in H as (u5 & H5 & H). apply guard_ok in H5.
    split; [assumption|]. split; [assumption|]. split; [intros X; rewrite X in H3; discriminate|]. split; [intros X; rewrite X in H4; discriminate|].
    unfold validate_subject in H. destruct (vc_subject c) as [|s [|]]; [discriminate| |discriminate].
    apply bind_ok in H as (u6 & H6 & H). apply guard_ok in H6. apply bind_ok in H as (u7 & H7 & H). apply guard_ok in H7.
    apply bind_ok in H as (or & Ho & H). destruct (mget (sj_custom s) "origin") as [[| | |x| |]|] eqn:Em; try discriminate. injection Ho as ->.
    apply bind_ok in H as (u8 & H8 & H). apply guard_ok, String.eqb_eq in H8. subst did.
    exists s, or. repeat split; auto; [|now apply validate_origin_ok].
    intros X. rewrite X in H6. discriminate.
  - intros (H1 & H2 & H3 & H4 & s & or & Hs & Hd & Hne & Hdid & Ho & Hor).
    apply str_in_In in H1. unfold linkage_type. rewrite H1, H2, Hs. cbn [guard bind is_empty negb].
    destruct (vc_issued c); [|contradiction]. destruct (vc_expired c); [|contradiction]. cbn [is_none negb guard bind validate_subject String.eqb].
    destruct (String.eqb_spec (sj_id s) ""); [contradiction|]. rewrite Hd, Hdid, Ho. cbn [guard bind negb].
    rewrite String.eqb_refl. cbn [guard bind]. now apply validate_origin_ok.
Qed.
Lemma h_str_none h k : negb (is_none (h_str h k)) = true <-> exists s, mget h k = Some (JStr s).
Proof.
  unfold h_str. split.
  - destruct (mget h k) as [[| | |s| |]|]; try discriminate. eauto.
  - now intros (s & ->).
Qed.
Definition linked_header (h : headers) : Prop :=
  (exists alg, mget h "alg" = Some (JStr alg)) /\ (exists kid, mget h "kid" = Some (JStr kid))
  /\ (forall t, mget h "typ" = Some (JStr t) -> t = "JWT") /\ incl (map fst h) ["alg"; "kid"; "typ"].
Lemma validate_header_ok h : validate_header h = Ok tt <-> linked_header h.
Proof.
  unfold validate_header, linked_header, h_alg, h_kid, h_typ. split.
  - intros H. apply bind_ok in H as (u1 & H1 & H). apply guard_ok, h_str_none in H1.
    apply bind_ok in H as (u2 & H2 & H). apply guard_ok, h_str_none in H2. apply bind_ok in H as (u3 & H3 & H). apply guard_ok, only_keys_incl in H.
    repeat split; auto. intros t Ht. unfold h_str in H3. rewrite Ht in H3. now apply guard_ok, String.eqb_eq in H3.
  - intros (H1 & H2 & H3 & H4). apply h_str_none in H1, H2. apply only_keys_incl in H4. rewrite H1, H2, H4. cbn [guard bind].
    unfold h_str. destruct (mget h "typ") as [[| | |t| |]|] eqn:Et; try reflexivity. rewrite (H3 t eq_refl). reflexivity.
Qed.
Lemma valid_linkage_ok D v did domain : valid_linkage D v did domain = Ok tt -> (exists i, vc_issuer (cr_contents v) = Some i /\ is_id i = did) ->
  domain_linkage D did domain v.
Proof.
  unfold valid_linkage. intros H Hi.
  assert (G : linked_contents D did domain (cr_contents v) /\
    forall je, cr_jwt v = Some je -> exists j kid alg pl, de_jws (ve_jwt (dc_v D)) (je_jwt je) None = Ok j
     /\ mget (jws_headers j) "alg" = Some (JStr alg) /\ mget (jws_headers j) "kid" = Some (JStr kid)
     /\ (forall t, mget (jws_headers j) "typ" = Some (JStr t) -> t = "JWT")
     /\ incl (map fst (jws_headers j)) ["alg"; "kid"; "typ"]
     /\ de_members (ve_jwt (dc_v D)) (jws_payload j) = Some pl
     /\ incl (map fst pl) ["exp"; "iss"; "nbf"; "sub"; "vc"; "iat"]).
  { destruct (cr_jwt v) as [je|]; [|split; [now apply validate_linkage_ok|discriminate]].
    apply bind_ok in H as ([tk p] & Hp & H). apply bind_ok in H as (u & Hh & H). apply bind_ok in H as (u' & Hpl & H).
    split; [now apply validate_linkage_ok|]. intros je' [= <-]. destruct u. apply validate_header_ok in Hh as ((alg & Ha) & (kid & Hk) & Ht & Hin).
    unfold jwt_parse in Hp. apply bind_ok in Hp as (u2 & _ & Hp). unfold parse_jwt in Hp. apply bind_ok in Hp as (j & Hj & Hp).
    unfold map_jws in Hp. apply bind_ok in Hp as (u3 & _ & Hp). apply bind_ok in Hp as (pl & Hm & Hp). apply bind_ok in Hp as (u4 & _ & Hp).
    injection Hp as <- <-. cbn [fst tk_headers tk_payload] in *. apply bind_ok in Hm as (pm & Hm & Hm'). injection Hm' as <-.
    unfold payload_to_map in Hm. destruct (de_members _ (jws_payload j)) as [pl|] eqn:Em; [|discriminate]. destruct (nodup_str _); [|discriminate]. injection Hm as ->.
    unfold validate_payload in Hpl. apply bind_ok in Hpl as (u5 & Hok & _). apply guard_ok, only_keys_incl in Hok.
    exists j, kid, alg, pm. auto 10. }
  destruct G as [(H1 & H2 & H3 & H4 & s & or & Hs & Hd & _ & Hdid & Ho & Hor) G]. constructor; auto. exists s, or. auto.
Qed.
Lemma candidates_ok D did domain l cs : candidates D did domain l = Ok cs ->
  forall t, In t cs -> exists j v, In j l /\ entry_is D j t /\ parse_credential (dc_v D) (dc_opts D true) t = Ok v /\ domain_linkage D did domain v.
Proof.
  revert cs. induction l as [|j l IH]; intros cs H t Ht; cbn [candidates] in H; [injection H as <-; contradiction|].
  apply bind_ok in H as (tx & Hx & H). apply bind_ok in H as (c & Hc & H). apply bind_ok in H as (r & Hr & H). injection H as <-.
  assert (G : In t r \/ c = Some t) by (destruct c as [x|]; [destruct Ht as [->|Ht]|]; auto).
  destruct G as [G|G].
  - destruct (IH r Hr t G) as (j' & v & Hi & Hv). exists j', v. split; [now right|assumption].
  - subst c. unfold candidate in Hc. destruct (parse_credential _ _ tx) as [v| |] eqn:Ev; [|discriminate..].
    destruct (vc_issuer (cr_contents v)) as [i|] eqn:Ei; [|discriminate]. destruct (String.eqb_spec (is_id i) did); [|discriminate]. cbn [negb] in Hc.
    destruct (valid_linkage D v did domain) as [[]| |] eqn:El; [|discriminate..]. injection Hc as <-.
    exists j, v. split; [now left|]. split.
    + unfold entry_text in Hx. destruct j; try discriminate; [left; congruence|right; eauto].
    + split; [assumption|]. eapply valid_linkage_ok; eauto.
Qed.
Lemma first_verified_ok D l : first_verified D l = Ok tt -> exists t v, In t l /\ parse_credential (dc_v D) (dc_opts D false) t = Ok v.
Proof.
  induction l as [|t l IH]; cbn [first_verified]; [discriminate|].
  destruct (parse_credential _ _ t) as [v| |] eqn:Ev; [intros _; exists t, v; split; [now left|assumption]| |discriminate].
  intros H. destruct (IH H) as (t' & v & Hi & Hv). exists t', v. split; [now right|assumption].
Qed.
Lemma In_mhas {V} (m : gomap V) k : In k (map fst m) <-> mhas m k = true.
Proof.
  unfold mhas. destruct (mget m k) eqn:E.
  - split; [reflexivity|]. intros _. apply mget_In in E. change k with (fst (k, v)). now apply in_map.
  - split; [|discriminate]. intros H. apply mget_None in E. contradiction.
Qed.
Lemma keys_to_map ms k : In k (map fst (to_map ms)) <-> In k (map fst ms).
Proof.
  unfold to_map. assert (G : forall (l acc : gomap json), In k (map fst (fold_left (fun acc kv => mset acc (fst kv) (snd kv)) l acc)) <-> In k (map fst l) \/ In k (map fst acc)).
  { induction l as [|[a b] l IH]; intros acc; cbn [fold_left map fst In]; [tauto|]. rewrite IH. cbn [fst snd In].
    assert (K : In k (map fst (mset acc a b)) <-> k = a \/ In k (map fst acc)).
    { split.
      - intros H. apply In_mhas in H. unfold mhas in H. rewrite mget_mset in H. destruct (String.eqb_spec k a); [now left|].
        right. apply In_mhas. unfold mhas. assumption.
      - intros H. apply In_mhas. unfold mhas. rewrite mget_mset. destruct (String.eqb_spec k a); [reflexivity|]. destruct H as [H|H]; [contradiction|].
        apply In_mhas in H. assumption. }
    rewrite K. intuition congruence. }
  rewrite G. cbn. tauto.
Qed.
Lemma fold_arr_in l : forall a r, fold_res arr_step l a = Ok r -> r = a \/ r = [] \/ In (JArr r) l.
Proof.
  unfold fold_res. assert (E : forall l e, fold_left (fun acc j => let* x := acc in arr_step x j) l (Err e) = Err e) by (induction l0; auto).
  induction l as [|j l IH]; intros a r H; cbn [fold_left] in H; [injection H as <-; now left|].
  cbn [bind] in H. destruct (arr_step a j) as [b|e|] eqn:Ej; [|rewrite E in H; discriminate|destruct j; discriminate].
  destruct (IH b r H) as [->|[->|Hi]]; [|now right; left|right; right; now right].
  destruct j; try discriminate; injection Ej as <-; [right; now left|right; right; now left].
Qed.
Theorem C37_linkage_sound : forall (D : dcenv) (cfg did domain : string),
  verify_did_and_domain D cfg did domain = Ok tt ->
  exists entries j text v, lists D cfg entries /\ In j entries /\ entry_is D j text
    /\ parse_credential (dc_v D) (dc_opts D false) text = Ok v
    /\ domain_linkage D did domain v /\ signed_by_issuer (dc_c D) (dc_resolve D) (dc_v D) v did.
Proof.
  intros D cfg did domain H. unfold verify_did_and_domain in H. destruct (ve_members (dc_v D) cfg) as [ms|] eqn:Em; [|discriminate].
  apply bind_ok in H as (u1 & Hk & H). apply bind_ok in H as (ctx & _ & H). apply bind_ok in H as (l & Hl & H).
  apply bind_ok in H as (cs & Hcs & H). apply bind_ok in H as (u2 & _ & H). apply first_verified_ok in H as (t & v & Ht & Hv).
  destruct (candidates_ok _ _ _ _ _ Hcs t Ht) as (j & v' & Hj & He & Hv' & HL).
  assert (v = v') by (eapply (parse_agree (dc_v D) (dc_opts D false) (dc_opts D true)); try eassumption; reflexivity). subst v'.
  unfold check_properties in Hk. apply bind_ok in Hk as (u3 & Hreq & Hall). apply guard_ok, andb_prop in Hreq as [R1 R2]. apply guard_ok, only_keys_incl in Hall.
  exists l, j, t, v. split; [|split; [assumption|split; [assumption|split; [assumption|split; [assumption|]]]]].
  - exists ms. split; [assumption|].
    assert (K : forall k, In k (map fst ms) <-> k = "@context" \/ k = "linked_dids").
    { intros k. rewrite <- keys_to_map. split.
      - intros Hi. apply Hall in Hi. cbn [In] in Hi. intuition congruence.
      - intros [->| ->]; now apply In_mhas. }
    split; [exact K|]. apply fold_arr_in in Hl as [->|[->|Hi]]; [contradiction..|].
    unfold occurrences in Hi. apply in_map_iff in Hi as ([k x] & Hx & Hi). cbn [snd] in Hx. subst x.
    apply filter_In in Hi as [Hi Hf]. cbn [fst] in Hf. assert (Hk : In k (map fst ms)) by (change k with (fst (k, JArr l)); now apply in_map).
    apply K in Hk as [->| ->]; [vm_compute in Hf; discriminate|assumption].
  - destruct (C104_key_of_the_issuer (dc_c D) (dc_resolve D) (dc_ck D) (dc_v D) (dc_opts D false) t v) as (i & Hi & _ & Hs); try reflexivity.
    + intros pc [= <-]. reflexivity.
    + intros pc [= <-]. reflexivity.
    + intros pc [= <-]. reflexivity.
    + assumption.
    + destruct (dl_issuer _ _ _ _ HL) as (i' & Hi' & <-). congruence.
Qed.

(** Conversely: if no entry makes the parser crash, one good entry is enough. *)
Lemma valid_linkage_intro D v did domain : domain_linkage D did domain v -> did <> "" ->
  (forall je j pl, cr_jwt v = Some je -> de_jws (ve_jwt (dc_v D)) (je_jwt je) None = Ok j -> de_members (ve_jwt (dc_v D)) (jws_payload j) = Some pl ->
     de_compact (ve_jwt (dc_v D)) (je_jwt je) = true /\ check_headers (jws_headers j) = Ok tt /\ nodup_str (map fst pl) = true) ->
  valid_linkage D v did domain = Ok tt.
Proof.
  intros [Hi H1 H2 H3 H4 H5 H6] Hne Hjw.
  assert (L : validate_linkage D (cr_contents v) did domain = Ok tt).
  { apply validate_linkage_ok. destruct H5 as (s & or & Hs & Hd & Hdid & Ho & Hor). split; [assumption|]. split; [assumption|]. split; [assumption|].
    split; [assumption|]. exists s, or. repeat split; auto. congruence. }
  unfold valid_linkage. destruct (cr_jwt v) as [je|] eqn:Ej; [|assumption].
  destruct (H6 je eq_refl) as (j & kid & alg & pl & Hj & Ha & Hk & Ht & Hin & Hm & Hpl).
  destruct (Hjw je j pl eq_refl Hj Hm) as (Hc & Hh & Hn). unfold jwt_parse, parse_jwt, map_jws, payload_to_map.
  rewrite Hc, Hj. cbn [guard bind]. rewrite Hh, Hm, Hn. cbn [guard bind rmap fst tk_headers tk_payload].
  replace (validate_header (jws_headers j)) with (@Ok unit tt) by (symmetry; apply validate_header_ok; repeat split; eauto). cbn [bind].
  unfold validate_payload, new_jwt_claims. apply only_keys_incl in Hpl. rewrite Hpl. cbn [guard bind].
  destruct Hi as (i & Hi & Hid). destruct H5 as (s & or & Hs & Hd & _). rewrite Hs, Hi. cbn [subject_id]. rewrite Hd, Hid.
  destruct (String.eqb_spec did ""); [contradiction|]. cbn [bind jc_iss jc_sub]. rewrite !String.eqb_refl. cbn [guard bind]. assumption.
Qed.
Lemma first_verified_intro D l t v : In t l -> (forall t', In t' l -> parse_credential (dc_v D) (dc_opts D false) t' <> Panic) ->
  parse_credential (dc_v D) (dc_opts D false) t = Ok v -> first_verified D l = Ok tt.
Proof.
  induction l as [|x l IH]; intros Hi Hp Hv; [contradiction|]. cbn [first_verified].
  destruct (parse_credential (dc_v D) (dc_opts D false) x) as [w|e|] eqn:Ex; [reflexivity| |exfalso; eapply Hp; [now left|eassumption]].
  destruct Hi as [->|Hi]; [congruence|]. apply IH; auto. intros t' Ht'. apply Hp. now right.
Qed.
Lemma occ_two ctx entries ms : Permutation ms [("@context", JStr ctx); ("linked_dids", JArr entries)] ->
  occurrences "@context" ms = [JStr ctx] /\ occurrences "linked_dids" ms = [JArr entries] /\ check_properties (to_map ms) = Ok tt.
Proof.
  intros H. assert (E : ms = [("@context", JStr ctx); ("linked_dids", JArr entries)] \/ ms = [("linked_dids", JArr entries); ("@context", JStr ctx)]).
  { apply Permutation_sym in H. apply Permutation_length_2_inv in H as [->| ->]; auto. }
  destruct E as [->| ->]; repeat split; vm_compute; reflexivity.
Qed.
Lemma np_guard_seq {A} b e (k : res A) : (b = true -> np k) -> np (let* _ := guard b e in k).
Proof. destruct b; cbn [guard bind]; [auto|]. intros _. apply np_err. Qed.
Lemma candidate_np D did domain t : 
  (forall tok, de_jws (ve_jwt (dc_v D)) tok None <> Panic) ->
  parse_credential (dc_v D) (dc_opts D true) t <> Panic ->
  (forall v, parse_credential (dc_v D) (dc_opts D true) t = Ok v -> vc_issuer (cr_contents v) <> None) ->
  exists r, candidate D did domain t = Ok r.
Proof.
  intros Hj H1 H2. unfold candidate. destruct (parse_credential _ _ t) as [v| |] eqn:Ev; [|eauto|contradiction].
  specialize (H2 v eq_refl). destruct (vc_issuer (cr_contents v)) as [i|] eqn:Ei; [|contradiction].
  destruct (negb _); [eauto|]. destruct (valid_linkage D v did domain) eqn:El; [eauto..|]. exfalso. revert El. change (np (valid_linkage D v did domain)).
  assert (L : np (validate_linkage D (cr_contents v) did domain)).
  { unfold validate_linkage. do 5 (apply np_guard_seq; intros ?). destruct (vc_subject (cr_contents v)) as [|s [|]] eqn:Es; [discriminate|unfold validate_subject, validate_origin; np|apply np_err]. }
  assert (K : np (validate_payload v match cr_jwt v with Some _ => [] | None => [] end did) /\ forall p, np (validate_payload v p did)).
  { assert (forall p, np (validate_payload v p did)); [|auto]. intros p. unfold validate_payload, new_jwt_claims, subject_id. rewrite Ei. np. }
  destruct K as [_ K]. unfold valid_linkage. destruct (cr_jwt v) as [je|]; [|assumption].
  assert (P : np (jwt_parse (ve_jwt (dc_v D)) (je_jwt je) None false (fun _ => true))).
  { unfold jwt_parse, parse_jwt, map_jws, payload_to_map, check_headers, check_typ_header. np; try apply Hj. }
  apply np_bind; [assumption|]. intros tp _. unfold validate_header. np; auto; apply K.
Qed.
Theorem C37_linkage_complete : forall (D : dcenv) (cfg did domain ctx : string) (entries : list json) ms j text v,
  ve_members (dc_v D) cfg = Some ms -> Permutation ms [("@context", JStr ctx); ("linked_dids", JArr entries)] ->
  (* every entry is a string or an object that marshals, and none of them crashes the parser or lacks an issuer *)
  (forall e, In e entries -> exists t, entry_is D e t) ->
  (forall tok, de_jws (ve_jwt (dc_v D)) tok None <> Panic) ->
  (forall e t, In e entries -> entry_is D e t -> parse_credential (dc_v D) (dc_opts D true) t <> Panic
     /\ parse_credential (dc_v D) (dc_opts D false) t <> Panic
     /\ (forall w, parse_credential (dc_v D) (dc_opts D true) t = Ok w -> vc_issuer (cr_contents w) <> None)) ->
  (* one is a domain linkage credential with a proof that checks *)
  In j entries -> entry_is D j text -> did <> "" ->
  parse_credential (dc_v D) (dc_opts D true) text = Ok v -> parse_credential (dc_v D) (dc_opts D false) text = Ok v ->
  domain_linkage D did domain v ->
  (forall je x pl, cr_jwt v = Some je -> de_jws (ve_jwt (dc_v D)) (je_jwt je) None = Ok x -> de_members (ve_jwt (dc_v D)) (jws_payload x) = Some pl ->
     de_compact (ve_jwt (dc_v D)) (je_jwt je) = true /\ check_headers (jws_headers x) = Ok tt /\ nodup_str (map fst pl) = true) ->
  verify_did_and_domain D cfg did domain = Ok tt.
Proof.
  intros D cfg did domain ctx entries ms j text v Hms Hperm Hent Hjws Hnp Hj Hjt Hne Hv1 Hv2 HL Hjw.
  destruct (occ_two _ _ _ Hperm) as (O1 & O2 & O3). unfold verify_did_and_domain. rewrite Hms, O1, O2, O3. cbn [bind fold_res fold_left str_step arr_step].
  assert (TX : forall e t, entry_is D e t -> entry_text D e = Ok t) by (intros e t [->|(m & -> & Hm)]; cbn [entry_text]; auto).
  assert (G : forall l, incl l entries -> exists cs, candidates D did domain l = Ok cs
     /\ (forall t, In t cs -> exists e, In e l /\ entry_is D e t) /\ (In j l -> In text cs)).
  { induction l as [|e l IH]; intros Hi; cbn [candidates]; [exists []; repeat split; auto; intros t []|].
    destruct IH as (cs & Hcs & Hin & Htx); [intros x Hx; apply Hi; now right|].
    destruct (Hent e (Hi e (or_introl eq_refl))) as (t & Ht). rewrite (TX _ _ Ht). cbn [bind].
    destruct (Hnp e t (Hi e (or_introl eq_refl)) Ht) as (N1 & _ & N3).
    destruct (candidate_np D did domain t Hjws N1 N3) as (r & Hr). rewrite Hr, Hcs. cbn [bind].
    assert (Ra : forall x, r = Some x -> x = t).
    { intros x ->. unfold candidate in Hr. destruct (parse_credential _ _ t); [|discriminate..]. destruct (vc_issuer _); [|discriminate].
      destruct (negb _); [discriminate|]. destruct (valid_linkage _ _ _ _); [congruence|discriminate..]. }
    eexists. split; [reflexivity|]. split.
    - intros x Hx. assert (G : x = t \/ In x cs) by (destruct r as [y|]; [destruct Hx as [<-|Hx]; [left; now apply Ra|auto]|auto]).
      destruct G as [->|G]; [exists e; split; [now left|assumption]|]. destruct (Hin x G) as (e' & He & Hx'). exists e'. split; [now right|assumption].
    - intros [->|Hjl]; [|specialize (Htx Hjl); destruct r; [now right|assumption]].
      assert (t = text) by (apply TX in Ht, Hjt; congruence). subst t.
      destruct r as [y|]; [left; now apply Ra|]. exfalso. unfold candidate in Hr. rewrite Hv1 in Hr.
      destruct (dl_issuer _ _ _ _ HL) as (i & Hi' & Hid). rewrite Hi', Hid, String.eqb_refl in Hr. cbn [negb] in Hr.
      rewrite valid_linkage_intro in Hr by assumption. discriminate. }
  destruct (G entries (incl_refl _)) as (cs & Hcs & Hin & Htx). rewrite Hcs. cbn [bind].
  specialize (Htx Hj). destruct cs as [|c cs]; [contradiction|]. cbn [is_empty negb guard bind].
  apply first_verified_intro with (t := text) (v := v); auto. intros t' Ht'. destruct (Hin t' Ht') as (e & He & Het). exact (proj1 (proj2 (Hnp e t' He Het))).
Qed.

(** example environment: four tokens.  "good" and "expired"/"sub": domain linkage credentials of did:i for https://a;
    "noiss": a credential without issuer; texts without "://" have no scheme and no host (net/url). *)
Definition dx_vc (origin : string) : json := JObj
  [("@context", JStr v1_context); ("type", JArr [JStr "VerifiableCredential"; JStr "DomainLinkageCredential"]); ("issuer", JStr "did:i");
   ("credentialSubject", JObj [("id", JStr "did:i"); ("origin", JStr origin)])].
Definition dx_payload (sub origin : string) : gomap json :=
  [("iss", JStr "did:i"); ("sub", JStr sub); ("nbf", jnum 7); ("exp", jnum 9); ("vc", dx_vc origin)].
Definition dx_noiss : gomap json := [("nbf", jnum 7); ("vc", JObj [("@context", JStr v1_context); ("type", JStr "VerifiableCredential")])].
Definition dx_jws (p sig : string) : jws :=
  {| jws_headers := [("alg", JStr "EdDSA"); ("kid", JStr "did:i#k")]; jws_payload := p; jws_input := "m"; jws_sig := sig |}.
Definition dx_toks : gomap jws :=
  [(ex_tok "good", dx_jws "P" "sig:m"); (ex_tok "bad", dx_jws "P" "sig:x"); (ex_tok "noiss", dx_jws "N" "sig:m");
   (ex_tok "other", dx_jws "O" "sig:m"); (ex_tok "sub", dx_jws "S" "sig:m")].
Definition dx_tbl : gomap (gomap json) :=
  [("P", dx_payload "did:i" "https://a"); ("N", dx_noiss); ("O", dx_payload "did:i" "evil.example"); ("S", dx_payload "did:x" "https://a"); ("{}", [])].
Definition dx_cfg (l : list json) : gomap json := [("@context", JStr "c"); ("linked_dids", JArr l)].
Definition dx_cfgs : gomap (gomap json) :=
  [("good", dx_cfg [JStr "junk"; JStr (ex_tok "bad"); JStr (ex_tok "good")]); ("crash", dx_cfg [JStr (ex_tok "noiss"); JStr (ex_tok "good")]);
   ("other", dx_cfg [JStr (ex_tok "other")]); ("sub", dx_cfg [JStr (ex_tok "sub")]);
   ("more", (dx_cfg [JStr (ex_tok "good")] ++ [("x", JNull)])%list); ("bad", dx_cfg [JStr (ex_tok "bad")])].
Definition dx_venv : venv :=
  let V := toyV0 dx_toks (dx_tbl ++ dx_cfgs)%list in
  {| ve_time := ve_time V;
     ve_jwt := {| de_compact := fun s => mhas dx_toks s; de_jws := fun s _ => match mget dx_toks s with Some j => Ok j | None => Err "x" end;
                  de_members := fun s => mget dx_tbl s; de_gstr := fun _ => "" |};
     ve_members := ve_members V; ve_obj := ve_obj V; ve_sd := ve_sd V; ve_order := ve_order V; ve_cose := ve_cose V; ve_hex := ve_hex V;
     ve_cbor := ve_cbor V; ve_schema := ve_schema V; ve_valid := ve_valid V; ve_jsonld := ve_jsonld V; ve_ext := ve_ext V;
     ve_ldproofs := ve_ldproofs V; ve_ldmsg := ve_ldmsg V; ve_di := ve_di V; ve_now := ve_now V; ve_related := ve_related V |}.
Definition dx_url (s : string) : option (string * string) :=
  if String.eqb s "https://a" || String.eqb s "https://a/path" then Some ("https", "a") else if String.eqb s "https://b" then Some ("https", "b") else Some ("", "").
Definition dx_env : dcenv := {|
  dc_v := dx_venv; dc_c := ex_cenv; dc_resolve := ex_resolve; dc_ck := fun _ => Err "x"; dc_marshal := fun _ => Ok "{}";
  dc_did := fun s => has_prefix "did:" s; dc_url := dx_url;
  dc_http := fun u => if String.eqb u ("https://a" ++ well_known) then Ok (200%Z, "good") else Ok (404%Z, "good") |}.
Example C37_example :
  verify_did_and_domain dx_env "good" "did:i" "https://a" = Ok tt
  /\ is_err (verify_did_and_domain dx_env "good" "did:i" "https://b") = true
  /\ is_err (verify_did_and_domain dx_env "good" "did:j" "https://a") = true
  /\ is_err (verify_did_and_domain dx_env "bad" "did:i" "https://a") = true
  /\ is_err (verify_did_and_domain dx_env "more" "did:i" "https://a") = true.
Proof. repeat split; vm_compute; reflexivity. Qed.
Print Assumptions C37_linkage_sound.
Print Assumptions C37_linkage_complete.

(** ** C133  The client asks exactly the well-known address of the domain and accepts only a 200 answer that verifies. *)
Theorem C133_well_known : forall (D : dcenv) (did domain : string),
  client_verify D did domain = Ok tt <->
  exists body, dc_http D (domain ++ "/.well-known/did-configuration.json") = Ok (200%Z, body) /\ verify_did_and_domain D body did domain = Ok tt.
Proof.
  intros D did domain. unfold client_verify. fold well_known. split.
  - intros H. apply bind_ok in H as ([st body] & Hr & H). apply bind_ok in H as (u & Hg & H). apply guard_ok, Z.eqb_eq in Hg. cbn [fst snd] in *. subst st. eauto.
  - intros (body & Hb & H). rewrite Hb. cbn [bind fst snd Z.eqb Pos.eqb guard]. assumption.
Qed.
Example C133_example : client_verify dx_env "did:i" "https://a" = Ok tt /\ is_err (client_verify dx_env "did:i" "https://b") = true.
Proof. split; vm_compute; reflexivity. Qed.
Print Assumptions C133_well_known.

(** ** C134  (refuted) Claimed: whatever a domain publishes, VerifyDIDAndDomain returns.  A listed JWT credential without
    an issuer crashes it, also when a good credential follows. *)
Theorem C134_no_panic_refuted : exists (D : dcenv) (cfg did domain : string),
  verify_did_and_domain D cfg did domain = Panic
  /\ (forall o text, parse_credential (dc_v D) o text = Panic -> text <> ex_tok "noiss")
  /\ exists entries, lists D cfg entries /\ In (JStr (ex_tok "good")) entries /\ verify_did_and_domain D "good" did domain = Ok tt.
Proof.
  exists dx_env, "crash", "did:i", "https://a". split; [vm_compute; reflexivity|]. split.
  - intros o text H ->. revert H. unfold parse_credential. cbn [try_parsers].
    assert (E0 : enveloped_parser dx_venv o (ex_tok "noiss") = Ok None) by (vm_compute; reflexivity).
    unfold parse_with. cbn [dc_v dx_env]. rewrite E0. cbn [bind].
    assert (E1 : exists v, json_parser dx_venv o (ex_tok "noiss") = Ok (Some v) /\ vc_issuer (cr_contents v) = None).
    { eexists. split; vm_compute; reflexivity. }
    destruct E1 as (v & E1 & Ei). rewrite E1. cbn [bind]. unfold check_cred_proof. rewrite Ei.
    destruct (co_no_proof o); [|discriminate]. cbn [bind ve_related dx_venv toyV0]. destruct (co_no_related o); discriminate.
  - eexists. split; [|split; [|vm_compute; reflexivity]].
    + exists (dx_cfg [JStr (ex_tok "noiss"); JStr (ex_tok "good")]). split; [vm_compute; reflexivity|]. split; [|right; now left].
      intros k. cbn. intuition congruence.
    + right. now left.
Qed.
Print Assumptions C134_no_panic_refuted.

(** ** C135  (refuted) Claimed: an expired domain linkage credential is not accepted.  The outcome does not depend on the
    clock, so a configuration accepted once is accepted for ever. *)
Definition at_time (D : dcenv) (t : gtime) : dcenv :=
  {| dc_v := with_now (dc_v D) t; dc_c := dc_c D; dc_resolve := dc_resolve D; dc_ck := dc_ck D; dc_marshal := dc_marshal D; dc_did := dc_did D;
     dc_url := dc_url D; dc_http := dc_http D |}.
Theorem C135_expiry_ignored_refuted :
  (forall (D : dcenv) (t : gtime) (cfg did domain : string), verify_did_and_domain (at_time D t) cfg did domain = verify_did_and_domain D cfg did domain)
  /\ exists D cfg did domain t v, verify_did_and_domain D cfg did domain = Ok tt
       /\ parse_credential (dc_v D) (dc_opts D false) (ex_tok "good") = Ok v /\ lists D cfg [JStr "junk"; JStr (ex_tok "bad"); JStr (ex_tok "good")]
       /\ (exists x, vc_expired (cr_contents v) = Some x /\ (gt_ns (tw_time x) < gt_ns t)%Z) /\ verify_did_and_domain (at_time D t) cfg did domain = Ok tt.
Proof.
  split.
  - intros D t cfg did domain.
    assert (P : forall b d, parse_credential (dc_v (at_time D t)) (dc_opts (at_time D t) b) d = parse_credential (dc_v D) (dc_opts D b) d)
      by (intros; cbn [dc_v at_time]; apply C124_clock_free; reflexivity).
    assert (C : forall tx, candidate (at_time D t) did domain tx = candidate D did domain tx) by (intros; unfold candidate; rewrite P; reflexivity).
    assert (CS : forall l, candidates (at_time D t) did domain l = candidates D did domain l).
    { induction l as [|j l IH]; cbn [candidates]; [reflexivity|]. rewrite IH. change (entry_text (at_time D t) j) with (entry_text D j).
      destruct (entry_text D j); cbn [bind]; [|reflexivity..]. now rewrite C. }
    assert (F : forall l, first_verified (at_time D t) l = first_verified D l) by (induction l as [|x l IH]; cbn [first_verified]; [reflexivity|]; now rewrite P, IH).
    unfold verify_did_and_domain. change (ve_members (dc_v (at_time D t)) cfg) with (ve_members (dc_v D) cfg). destruct (ve_members (dc_v D) cfg); [|reflexivity].
    destruct (check_properties _); [|reflexivity..]. cbn [bind]. destruct (fold_res str_step _ _); [|reflexivity..]. cbn [bind].
    destruct (fold_res arr_step _ _); [|reflexivity..]. cbn [bind]. rewrite CS. destruct (candidates _ _ _ _); [|reflexivity..]. cbn [bind].
    destruct (guard _ _); [|reflexivity..]. cbn [bind]. apply F.
  - exists dx_env, "good", "did:i", "https://a", (of_unix 100). eexists. split; [vm_compute; reflexivity|]. split; [vm_compute; reflexivity|].
    split; [|split; [|vm_compute; reflexivity]].
    + exists (dx_cfg [JStr "junk"; JStr (ex_tok "bad"); JStr (ex_tok "good")]). split; [vm_compute; reflexivity|]. split; [|right; now left].
      intros k. cbn. intuition congruence.
    + eexists. split; [vm_compute; reflexivity|]. vm_compute. reflexivity.
Qed.
Print Assumptions C135_expiry_ignored_refuted.

(** ** C136  (refuted) Claimed: a credential whose origin names another site is not accepted.  A domain given without
    a scheme has neither scheme nor host for net/url, and so has any other such text. *)
Theorem C136_origin_refuted :
  ~ (forall (D : dcenv) (cfg did domain : string), verify_did_and_domain D cfg did domain = Ok tt ->
       exists entries j text v s, lists D cfg entries /\ In j entries /\ entry_is D j text /\ parse_credential (dc_v D) (dc_opts D true) text = Ok v
         /\ vc_subject (cr_contents v) = [s] /\ (mget (sj_custom s) "origin" = Some (JStr domain) \/ exists scheme host, dc_url D domain = Some (scheme, host) /\ host <> "")).
Proof.
  intros H. destruct (H dx_env "other" "did:i" "bank.example") as (l & j & t & v & s & HL & Hj & He & Hp & Hs & Ho); [vm_compute; reflexivity|].
  destruct HL as (ms & Hms & _ & Hi). assert (ms = dx_cfg [JStr (ex_tok "other")]) by (vm_compute in Hms; unfold dx_cfg; injection Hms as <-; reflexivity). subst ms.
  destruct Hi as [Hi|[Hi|[]]]; [discriminate|]. injection Hi as <-. destruct Hj as [<-|[]].
  destruct He as [He|(m & Hm & _)]; [|discriminate]. injection He as <-.
  destruct Ho as [Ho|(sc & h & Hu & Hne)]; [|vm_compute in Hu; injection Hu as <- <-; contradiction].
  assert (G : match parse_credential (dc_v dx_env) (dc_opts dx_env true) (ex_tok "other") with
              | Ok w => match vc_subject (cr_contents w) with [x] => mget (sj_custom x) "origin" | _ => None end | _ => None end = Some (JStr "evil.example")) by (vm_compute; reflexivity).
  rewrite Hp, Hs, Ho in G. discriminate.
Qed.
Print Assumptions C136_origin_refuted.

(** ** C137  (refuted) Claimed: the sub claim of an accepted JWT is the DID.  The sub claim of the token is never read. *)
Theorem C137_sub_claim_refuted : exists (D : dcenv) (cfg did domain : string) (text sub : string) (j : jws) (pl : gomap json),
  verify_did_and_domain D cfg did domain = Ok tt /\ lists D cfg [JStr text]
  /\ de_jws (ve_jwt (dc_v D)) text None = Ok j /\ de_members (ve_jwt (dc_v D)) (jws_payload j) = Some pl
  /\ mget pl "sub" = Some (JStr sub) /\ sub <> did.
Proof.
  exists dx_env, "sub", "did:i", "https://a", (ex_tok "sub"), "did:x", (dx_jws "S" "sig:m"), (dx_payload "did:x" "https://a").
  split; [vm_compute; reflexivity|]. split; [|split; [vm_compute; reflexivity|split; [vm_compute; reflexivity|split; [vm_compute; reflexivity|discriminate]]]].
  exists (dx_cfg [JStr (ex_tok "sub")]). split; [vm_compute; reflexivity|]. split; [|right; now left]. intros k. cbn. intuition congruence.
Qed.
Print Assumptions C137_sub_claim_refuted.
