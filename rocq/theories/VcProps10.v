(** Property theorems for MakeSDJWT in the v5 format (C195). *)
From Coq Require Import Permutation.
From Verif Require Import GoBase Base64 StrLemmas JwtSpec DiSpec VcSpec JwtModel JwtProofs SdSpec SdModel SdProofs SdRun SdOrder SdSubset SdParse SdParseProofs
  SdIssueSpec SdIssueModel SdIssueEnc SdIssueTop SdIssueV2 SdIssueMain SdIssueV5 SdIssueVc SdIssueProps SdIssueProps3
  DiModel VcModel VcJwt VcParse VcProofs VcView VcText VcMod VcSecure VcJwtProofs VcPanic VcSign VcSignProofs VcSd VcSdProofs DispSpec VcDispProofs VcProps VcProps2 VcProps4 VcProps6 VcProps7 VcProps8 VcMakeProofs VcProps9.

(** no member of the document is taken for a registered claim (or for "vc") when the payload is decoded *)
Definition unregistered (m : gomap json) : Prop := forall k r, In k (map fst m) -> In r ("vc" :: registered) -> equal_fold r k = false.
Lemma equal_fold_refl s : equal_fold s s = true.
Proof. unfold equal_fold. apply String.eqb_refl. Qed.
Lemma mget_bare c k :
  mget (claims_json (set_vc c None)) k =
    if String.eqb k "iss" then (if String.eqb (jc_iss c) "" then None else Some (JStr (jc_iss c)))
    else if String.eqb k "sub" then (if String.eqb (jc_sub c) "" then None else Some (JStr (jc_sub c)))
    else if String.eqb k "exp" then option_map jnum (jc_exp c)
    else if String.eqb k "nbf" then option_map jnum (jc_nbf c)
    else if String.eqb k "iat" then option_map jnum (jc_iat c)
    else if String.eqb k "jti" then (if String.eqb (jc_jti c) "" then None else Some (JStr (jc_jti c))) else None.
Proof.
  unfold claims_json. cbn [set_vc jc_iss jc_sub jc_exp jc_nbf jc_iat jc_jti jc_vc]. rewrite !VcSignProofs.mget_app, !mget_opt_field, !mget_date. cbn [mget option_map].
  destruct (String.eqb (jc_iss c) ""), (String.eqb (jc_sub c) ""), (String.eqb (jc_jti c) "");
  repeat match goal with |- context [String.eqb k ?s] => destruct (String.eqb_spec k s); [subst k; cbn [andb negb String.eqb Ascii.eqb Bool.eqb option_map];
    now destruct (jc_exp c), (jc_nbf c), (jc_iat c)|] end;
  reflexivity.
Qed.
Lemma bare_keys c : NoDup (map fst (claims_json (set_vc c None))) /\ forall k, In k (map fst (claims_json (set_vc c None))) -> In k registered.
Proof.
  unfold claims_json. cbn [set_vc jc_iss jc_sub jc_exp jc_nbf jc_iat jc_jti jc_vc]. rewrite !map_app, !opt_keys, !date_keys. cbn [map fst].
  destruct (String.eqb (jc_iss c) ""), (String.eqb (jc_sub c) ""), (jc_exp c), (jc_nbf c), (jc_iat c), (String.eqb (jc_jti c) "");
    cbn [app]; (split; [repeat (constructor; [cbn [In]; intuition discriminate|]); constructor|intros k; cbn [In registered]; intuition]).
Qed.
Lemma add_custom_nodup cf : forall m : gomap json, NoDup (map fst m) -> NoDup (map fst (add_custom m cf)).
Proof. unfold add_custom. induction cf as [|kv cf IH]; intros m H; cbn [fold_left]; [assumption|]. apply IH. destruct (mhas m (fst kv)); [assumption|]. now apply mset_nodup. Qed.
Lemma mset_keys_in {V} (m : gomap V) k v x : In x (map fst (mset m k v)) -> x = k \/ In x (map fst m).
Proof. intros H. apply in_map_iff in H as ([a b] & Ha & H). cbn in Ha. subst a. apply mset_In in H as [[-> _]|[[_ H]|[-> _]]]; auto. right. exact (in_map fst _ _ H). Qed.
Lemma nodup_kept {A B} (f : A -> B) p l : NoDup (map f l) -> NoDup (map f (filter p l)).
Proof.
  induction l as [|x l IH]; [auto|]. cbn [map filter]. inversion 1; subst. destruct (p x); [|auto]. cbn [map]. constructor; [|auto].
  intros Hi. apply in_map_iff in Hi as (y & Hy & Hi). apply filter_In in Hi as [Hi _]. rewrite <- Hy in *. auto using in_map.
Qed.
Lemma unregistered_not m k : unregistered m -> In k (map fst m) -> ~ In k ("vc" :: registered).
Proof. intros H Hk Hr. specialize (H k k Hk Hr). now rewrite equal_fold_refl in H. Qed.
Lemma unregistered_dm k : In k ["_sd_alg"; "credentialSubject"] -> forall r, In r ("vc" :: registered) -> equal_fold r k = false.
Proof. intros Hk r Hr. assert (G : forallb (fun k => forallb (fun r => negb (equal_fold r k)) ("vc" :: registered)) ["_sd_alg"; "credentialSubject"] = true) by (vm_compute; reflexivity).
  rewrite forallb_forall in G. specialize (G k Hk). rewrite forallb_forall in G. specialize (G r Hr). now apply negb_true_iff. Qed.

Lemma v5_claims_round cl J a d ms : jc_vc cl = Some J -> jc_aud cl = [] -> jc_alloc cl = true -> jc_sub cl <> "" -> unregistered J -> NoDup (map fst J) ->
  Permutation ms (mset (mset (v5_payload cl) "_sd_alg" a) "credentialSubject" d) ->
  exists m1, unmarshal_claims ms = Ok (set_vc cl (Some m1)) /\ NoDup (map fst m1)
    /\ forall k, mget m1 k = mget (mset (mset J "_sd_alg" a) "credentialSubject" d) k.
Proof.
  intros Hv Ha Hal Hs Hu HN Hp. set (sg := mset (mset (v5_payload cl) "_sd_alg" a) "credentialSubject" d) in *.
  destruct (bare_keys cl) as [Nb Kb].
  assert (Np : NoDup (map fst (v5_payload cl))) by (unfold v5_payload; now apply add_custom_nodup).
  assert (Nsg : NoDup (map fst sg)) by (unfold sg; apply mset_nodup, mset_nodup, Np).
  assert (Nms : NoDup (map fst ms)) by (eapply Permutation_NoDup; [apply Permutation_map, Permutation_sym, Hp|assumption]).
  assert (Gp : forall k, mget (v5_payload cl) k = match mget (claims_json (set_vc cl None)) k with Some x => Some x | None => mget J k end).
  { intros k. unfold v5_payload. rewrite mget_add_custom, Hv. reflexivity. }
  assert (Gms : forall k, mget ms k = mget sg k) by (intros k; apply mget_perm; [assumption|assumption] || (apply mget_perm; auto)).
  assert (Kms : forall k, In k (map fst ms) -> In k registered \/ forall r, In r ("vc" :: registered) -> equal_fold r k = false).
  { intros k Hk. assert (Hk' : In k (map fst sg)) by (eapply Permutation_in; [apply Permutation_map, Hp|assumption]).
    unfold sg in Hk'. apply mset_keys_in in Hk' as [->|Hk']; [right; apply unregistered_dm; cbn; auto|].
    apply mset_keys_in in Hk' as [->|Hk']; [right; apply unregistered_dm; cbn; auto|].
    destruct (mget (claims_json (set_vc cl None)) k) eqn:Eb; [left; apply Kb; apply mget_In in Eb; exact (in_map fst _ _ Eb)|].
    right. intros r Hr. apply Hu; [|assumption]. destruct (mget J k) eqn:Ej; [apply mget_In in Ej; exact (in_map fst _ _ Ej)|].
    specialize (Gp k). rewrite Eb, Ej in Gp. apply mget_None in Gp. contradiction. }
  assert (Hpc : plain_claims ms).
  { split; [assumption|]. intros r k Hr Hk He. destruct (Kms k Hk) as [Hk'|Hk']; [apply registered_fold; cbn [In] in *; auto|]. now rewrite Hk' in He. }
  assert (Jn : forall r, In r ("vc" :: registered) -> mget J r = None).
  { intros r Hr. apply mget_None. intros Hk. now apply (unregistered_not J r). }
  assert (Greg : forall r, In r ("vc" :: registered) -> mget ms r = mget (claims_json (set_vc cl None)) r).
  { intros r Hr. rewrite Gms. unfold sg. rewrite !mget_mset. destruct (String.eqb_spec r "credentialSubject") as [->|]; [exfalso; cbn in Hr; intuition discriminate|].
    destruct (String.eqb_spec r "_sd_alg") as [->|]; [exfalso; cbn in Hr; intuition discriminate|]. rewrite Gp, (Jn r Hr). now destruct (mget (claims_json (set_vc cl None)) r). }
  assert (Hg : forall r, In r ("vc" :: registered) -> occurrences r ms = match mget (claims_json (set_vc cl None)) r with Some j => [j] | None => [] end).
  { intros r Hr. rewrite occ_plain by assumption. now rewrite Greg. }
  set (c0 := set_vc cl None).
  assert (Hd : decode_claims ms = Ok c0).
  { unfold decode_claims. rewrite !Hg by (cbn; tauto). rewrite !mget_bare. cbn [String.eqb Ascii.eqb Bool.eqb].
    assert (S : forall s : string, fold_res str_step match (if String.eqb s "" then None else Some (JStr s)) with Some j => [j] | None => [] end "" = Ok s)
      by (intros s; destruct (String.eqb_spec s "") as [->|]; reflexivity).
    assert (D : forall dd, fold_res date_step match option_map jnum dd with Some j => [j] | None => [] end None = Ok dd).
    { intros [z|]; cbn; [now rewrite qtrunc_z|reflexivity]. }
    rewrite !S, !D. cbn [fold_res bind].
    assert (Hal' : existsb (fun k => match occurrences k ms with [] => false | _ => true end) registered = true).
    { apply existsb_exists. exists "sub". split; [cbn; tauto|]. rewrite Hg by (cbn; tauto). rewrite mget_bare.
      cbn [String.eqb Ascii.eqb Bool.eqb]. destruct (String.eqb_spec (jc_sub cl) ""); [contradiction|reflexivity]. }
    rewrite Hal'. unfold c0. rewrite <- Hal. unfold set_vc. now rewrite Ha. }
  unfold unmarshal_claims. rewrite Hd. cbn [bind]. rewrite to_map_nodup by assumption.
  set (P := fun k => negb (str_in k (field_names c0))).
  set (m1 := filter (fun kv => P (fst kv)) ms). change (filter (fun kv => negb (str_in (fst kv) (field_names c0))) ms) with m1.
  assert (Fn : forall k, In k (field_names c0) -> In k registered).
  { intros k. unfold field_names, c0, omit_empty. cbn [set_vc jc_iss jc_sub jc_exp jc_nbf jc_iat jc_jti jc_vc jc_aud vc_len0]. rewrite !in_app_iff.
    destruct (String.eqb (jc_iss cl) ""), (String.eqb (jc_sub cl) ""), (is_empty (jc_aud cl)), (is_none (jc_exp cl)), (is_none (jc_nbf cl)), (is_none (jc_iat cl)), (String.eqb (jc_jti cl) ""); cbn; intuition. }
  assert (Fin : forall k x, mget (claims_json (set_vc cl None)) k = Some x -> In k (field_names c0)).
  { intros k x Hx. rewrite mget_bare in Hx. unfold field_names, c0, omit_empty. cbn [set_vc jc_iss jc_sub jc_exp jc_nbf jc_iat jc_jti jc_vc jc_aud vc_len0]. rewrite !in_app_iff.
    repeat match type of Hx with (if String.eqb k ?z then _ else _) = _ => destruct (String.eqb_spec k z); [subst k|] end; try discriminate;
      [destruct (String.eqb (jc_iss cl) "")|destruct (String.eqb (jc_sub cl) "")|destruct (jc_exp cl)|destruct (jc_nbf cl)|destruct (jc_iat cl)|destruct (String.eqb (jc_jti cl) "")];
      try discriminate; cbn [is_none In]; tauto. }
  assert (Gm1 : forall k, mget m1 k = mget (mset (mset J "_sd_alg" a) "credentialSubject" d) k).
  { intros k. unfold m1. rewrite mget_filter, Gms. unfold sg. rewrite !mget_mset, Gp. unfold P.
    destruct (String.eqb_spec k "credentialSubject") as [->|N1].
    - assert (Hn : str_in "credentialSubject" (field_names c0) = false) by (apply str_in_nIn; intros Hi; apply Fn in Hi; cbn in Hi; intuition discriminate). now rewrite Hn.
    - destruct (String.eqb_spec k "_sd_alg") as [->|N2].
      + assert (Hn : str_in "_sd_alg" (field_names c0) = false) by (apply str_in_nIn; intros Hi; apply Fn in Hi; cbn in Hi; intuition discriminate). now rewrite Hn.
      + destruct (str_in k (field_names c0)) eqn:Ei; cbn [negb].
        * apply str_in_In, Fn in Ei. symmetry. apply Jn. now right.
        * destruct (mget (claims_json (set_vc cl None)) k) eqn:Eb; [|reflexivity]. apply Fin in Eb. apply str_in_nIn in Ei. contradiction. }
  assert (Hm1 : is_empty m1 = false).
  { destruct m1; [|reflexivity]. specialize (Gm1 "credentialSubject"). rewrite mget_mset in Gm1. discriminate. }
  exists m1. rewrite Hm1. cbn [negb andb]. change (vc_len0 c0) with true. cbn match. split; [reflexivity|]. split; [|assumption].
  unfold m1. now apply nodup_kept.
Qed.

Lemma v5_payload_ordinary cl J : jc_vc cl = Some J -> ordinary (JObj J) -> ordinary (JObj (v5_payload cl)).
Proof.
  intros Hv Ho. destruct (bare_keys cl) as [Nb Kb]. apply ordinary_obj. split; [unfold v5_payload; now apply add_custom_nodup|]. intros k w Hi.
  apply mget_In_nodup in Hi; [|unfold v5_payload; now apply add_custom_nodup]. unfold v5_payload in Hi. rewrite mget_add_custom, Hv in Hi.
  destruct (mget (claims_json (set_vc cl None)) k) as [x|] eqn:Eb.
  - injection Hi as <-. pose proof (mget_In _ _ _ Eb) as Hk. apply (in_map fst), Kb in Hk. cbn [fst] in Hk. split; [unfold reserved; cbn in Hk; intuition (subst; discriminate)|].
    rewrite mget_bare in Eb.
    assert (S : forall s, (if String.eqb s "" then None else Some (JStr s)) = Some x -> ordinary x) by (intros s Hs; destruct (String.eqb s ""); [discriminate|]; injection Hs as <-; now constructor).
    assert (D : forall d, option_map jnum d = Some x -> ordinary x) by (intros [d|] Hd; [|discriminate]; injection Hd as <-; now constructor).
    repeat match type of Eb with (if String.eqb k ?z then _ else _) = _ => destruct (String.eqb k z); [solve [eapply S; eauto | eapply D; eauto]|] end. discriminate.
  - apply ordinary_obj in Ho as [_ Ha]. apply Ha. now apply mget_In.
Qed.
Lemma v5_marked_id sid cs mems : erase (TObj mems) = JObj cs -> mget cs "id" = Some (JStr sid) ->
  forall st clear alw recu, v5_marked st clear alw recu false "" (TObj mems) -> In "id" clear -> In ("id", None, TVal (JStr sid)) mems.
Proof.
  intros He Hg st clear alw recu Hm Hi. cbn [erase] in He. injection He as <-. apply mget_In, in_map_iff in Hg as ([[n l] t] & Hx & Hin).
  cbn [fst snd] in Hx. injection Hx as -> Ht. inversion Hm as [? ? ? H1]; subst. specialize (H1 _ _ _ Hin). change (sub_path "" "id") with "id" in H1.
  inversion H1; subst; try contradiction. cbn [erase] in Ht. now rewrite Ht in Hin.
Qed.
(** the extra demands of the v5 format: the document's members become top-level claims, claims have names *)
Record v5able (ok : string -> Prop) (v : credential) : Prop := {
  v5_unreg : unregistered (cr_json v);
  v5_named : ~ name_of "" (JObj (cr_json v));
  v5_ok1 : ok "_sd"; v5_ok2 : ok "..."; v5_ok3 : forall x, ok (b64_encode x) }.

(** ** C195  The same in the v5 format: nested disclosures need the disclosures they are in. *)
Theorem C195_make_parse_display_v5 : forall (E : venv) (I : ienv) (ok : string -> Prop) (v : credential) ps (sign : jose_signer) kid (o : mkopts) tok signed discs j,
  issuable (ve_time E) ok v ps -> v5able ok v -> coding E I ok -> mk_v5 o = true ->
  make_sdjwt E I v sign kid o = Ok (tok, signed, discs) -> signs E sign kid true signed tok j ->
  NoDup (map (get_hash (ve_sd E) (io_hash (issuer_opts o))) discs) -> Forall (free_of tilde) discs ->
  exists cs T sid, mget (cr_json v) "credentialSubject" = Some (JObj cs) /\ erase T = JObj cs
    /\ mget cs "id" = Some (JStr sid) /\ sid <> ""
    /\ v5_marked true (mk_nonsd o ++ ["id"])%list (mk_always o) (mk_rec o) false "" T /\ Permutation discs (all_discs T)
    /\ forall o' sel hb text, presents E o' v j tok sel hb text -> incl sel discs -> incl sel (SdIssueSpec.reachable (fun s => str_in s sel) T) ->
         exists w shown, parse_credential E o' text = Ok w /\ reads v (io_hash (issuer_opts o)) sid w
           /\ display_map E w {| dp_all := true; dp_given := [] |} = Ok shown /\ shows v T sel shown.
Proof.
  intros E I ok v ps sign kid o tok signed discs j [Uo Ut Uc Up Uv Un [Uz1 Ur1] [Uz2 Ur2]] [V1 V2 V3 V4 V5] [HE Hvis Hrb Hsalt Hshuf] Hv5 Hmk Hsg ND Hfree.
  unfold make_sdjwt in Hmk. rewrite Hv5 in Hmk. apply bind_ok in Hmk as (cl & Hcl & Hmk). apply bind_ok in Hmk as ([sgn ds] & Hn & Hmk).
  apply bind_ok in Hmk as (tk & Htk & Hmk). cbn [fst snd] in *. injection Hmk as -> -> ->.
  destruct (new_claims_fields v cl Hcl) as (Hjv & Hja & Hjaud & Hjs & s & Hs & Hsid).
  pose proof (v5_payload_ordinary cl _ Hjv Uo) as Hpo.
  assert (Gp : forall k, mget (v5_payload cl) k = match mget (claims_json (set_vc cl None)) k with Some x => Some x | None => mget (cr_json v) k end).
  { intros k. unfold v5_payload. rewrite mget_add_custom, Hjv. reflexivity. }
  assert (Hgvc : mget (v5_payload cl) "vc" = None) by (rewrite Gp, mget_bare; cbn [String.eqb Ascii.eqb Bool.eqb]; exact Uv).
  assert (Hgcs : mget (v5_payload cl) "credentialSubject" = mget (cr_json v) "credentialSubject") by (rewrite Gp, mget_bare; reflexivity).
  assert (Hcc : vc_claims (v5_payload cl) = v5_payload cl) by (unfold vc_claims; now rewrite Hgvc).
  apply new_from_vc_inv in Hn as (cs & payload & Hcs & Hn & Hsigned); [|right; intros c; rewrite Hgvc; discriminate]. rewrite Hcc, Hgcs in Hcs.
  apply new_sdjwt_inv in Hn as (dm & st & Hc & ->).
  pose proof (ordinary_mget _ _ _ Uo Hcs) as Hco. pose proof (mget_In _ _ _ Hcs) as Hci.
  assert (Hct : texts ok (JObj cs)) by now apply (texts_obj_inv ok (cr_json v) "credentialSubject").
  assert (Hcn : ~ name_of "" (JObj cs)) by (intros Hx; apply V2; eapply no_obj; eassumption).
  destruct (v5_create_ok (ve_sd E) I (issuer_opts o) ok Hrb Hsalt Hshuf V3 V4 V5 eq_refl (JObj cs) "" false 0 _ Hco Hct Hcn eq_refl Hc) as (mems & HEnc & He & Hm & Hp & _).
  cbn [fst snd] in *.
  assert (Hnm : forall k, In k (names mems) -> In k (map fst cs)) by (intros k Hk; cbn [erase] in He; injection He as <-; rewrite map_map; exact Hk).
  assert (Hres : forall k, In k (names mems) -> ~ reserved k).
  { intros k Hk. apply Hnm in Hk. apply in_map_iff in Hk as ([k' w] & Hx & Hk). cbn in Hx. subst k'. apply ordinary_obj in Hco as [_ A]. now apply A in Hk. }
  assert (Hdis2 : forall k, In k (names mems) -> ~ In k (map fst (create_payload "" (issuer_opts o)))).
  { intros k Hk. rewrite issuer_payload. intros [<-|[]]. apply (Hres _ Hk). right. now left. }
  assert (Hcnf : ~ In "cnf" (names mems)).
  { intros Hk. apply Hnm in Hk. specialize (Un cs Hcs). apply mget_None in Un. contradiction. }
  assert (Hh : forall jwk, io_holder (issuer_opts o) = Some jwk -> ordinary jwk) by discriminate.
  pose proof (signed_eq (ve_sd E) (issuer_opts o) (v5_payload cl) Hh mems dm [] HEnc Hcnf Hdis2) as Hse. cbv zeta in Hse. cbv zeta in Hsigned. rewrite Hse in Hsigned.
  assert (NA : NoDup (map (get_hash (ve_sd E) (io_hash (issuer_opts o))) (all_discs (TObj mems)) ++ [])%list).
  { rewrite app_nil_r. eapply Permutation_NoDup; [apply Permutation_map; exact Hp|exact ND]. }
  assert (Hs1 : signed = mset (mset (v5_payload cl) "_sd_alg" (JStr (hash_name (io_hash (issuer_opts o))))) "credentialSubject" (JObj dm)).
  { rewrite Hsigned. unfold with_claims. rewrite Hgvc. unfold signed_claims, bound. cbn [io_holder issuer_opts]. rewrite Hcc. reflexivity. }
  destruct (Hsg Htk) as (ms & Hjt & Hpm). rewrite Hs1 in Hpm.
  assert (NJ : NoDup (map fst (cr_json v))) by (now apply ordinary_obj in Uo as [? _]).
  destruct (v5_claims_round cl (cr_json v) _ _ ms Hjv Hjaud Hja Hjs V1 NJ Hpm) as (m1 & Hum & Nm1 & Hm1).
  pose proof (subject_text _ v cs Uc Hcs s Hs ltac:(congruence)) as Hsi.
  pose proof (v5_marked_id (sj_id s) cs mems He Hsi _ _ _ _ Hm ltac:(apply in_app_iff; right; now left)) as Hidm.
  exists cs, (TObj mems), (sj_id s). split; [assumption|]. split; [assumption|]. split; [assumption|]. split; [congruence|]. split; [assumption|]. split; [assumption|].
  intros o' sel hb text [Ptx Psome Ponce Phb Pnj Ppr Prel] Hin Hreach.
  assert (Hin2 : incl sel (all_discs (TObj mems))) by (intros x Hx; eapply Permutation_in; [exact Hp|auto]).
  subst text.
  destruct (made_round E (issuer_opts o) v cs mems dm [] cl m1 (sj_id s) HE Hvis eq_refl (issuer_payload o) Uo Uv Uc Hcl Hcs HEnc He Hidm Ur1 Ur2 Uz1 Uz2
    Hm1 Nm1 tok j ms ps Hjt Hum Up NA sel hb o' Ponce Hin2 Psome) as (w & shown & s0 & s' & cu & W1 & W2 & W3 & W4 & W5 & W6 & W7); try assumption.
  - apply Forall_forall. intros x Hx. rewrite Forall_forall in Hfree. auto.
  - destruct Phb as [->|[_ ?]]; [intros []|assumption].
  - destruct Phb as [->|[? _]]; auto.
  - exists w, shown. split; [assumption|]. split; [exists cu; assumption|]. split; [assumption|]. split; [|exists s0, s'; auto].
    intros k Hk. apply W4; intros Hx; apply Hk; [clear - Hx; cbn in Hx |- *; tauto|clear - Hx; subst; cbn; tauto].
Qed.
Print Assumptions C195_make_parse_display_v5.
(** Example: "home" is hidden with the city hidden in it; both are presented, the name is not *)
Definition mk_o5 : mkopts := {| mk_hash := None; mk_v5 := true; mk_rec := ["home"]; mk_always := []; mk_nonsd := ["lang"] |}.
Definition mk5_tbl : list (string * json) :=
  [("A", JArr [JStr "s0"; JStr "name"; JStr "n"]); ("B", JArr [JStr "s1"; JStr "city"; JStr "p"]);
   ("C", JArr [JStr "s3"; JStr "home"; JObj [("_sd", JArr [JStr (b64_encode (b64_encode "B"))])]])].
Definition mk5_signed : gomap json := Eval vm_compute in
  match make_sdjwt (with_sdenv (toyV0 [] []) (tbl_env mk5_tbl)) (tbl_ienv mk5_tbl) mk_cred mk_sign "did:i#k" mk_o5 with Ok r => snd (fst r) | _ => [] end.
Definition mk5_env : venv := with_sdenv (toyV0 [(ex_tok "good", ex_jws "sig:m")] [("P", mk5_signed); ("{}", [])]) (tbl_env mk5_tbl).
Definition mk5_text : string := ex_tok "good" ++ "~" ++ b64_encode "C" ++ "~" ++ b64_encode "B" ++ "~".
Definition unregb (m : gomap json) : bool := forallb (fun kv => forallb (fun r => negb (equal_fold r (fst kv))) ("vc" :: registered)) m.
Lemma unregb_ok m : unregb m = true -> unregistered m.
Proof.
  intros H k r Hk Hr. apply in_map_iff in Hk as ([a b] & Ha & Hk). cbn in Ha. subst a. unfold unregb in H. rewrite forallb_forall in H. specialize (H _ Hk).
  rewrite forallb_forall in H. specialize (H r Hr). now apply negb_true_iff.
Qed.
Fixpoint namedb (j : json) : bool :=
  match j with
  | JArr l => forallb namedb l
  | JObj m => forallb (fun kv => negb (String.eqb (fst kv) "") && namedb (snd kv)) m
  | _ => true
  end.
Lemma namedb_ok j : namedb j = true -> ~ name_of "" j.
Proof.
  induction j as [|b|z|s|l IH|m IH] using json_ind'; cbn [namedb]; intros H Hn; try (inversion Hn; fail).
  - rewrite forallb_forall in H. rewrite Forall_forall in IH. inversion Hn; subst. eapply IH; eauto.
  - rewrite forallb_forall in H. rewrite Forall_forall in IH. inversion Hn as [m' v' Hi| |m' k' v' Hi Hv]; subst.
    + apply H in Hi. discriminate.
    + pose proof (H _ Hi) as Hb. apply andb_prop in Hb as [_ Hb]. exact (IH _ Hi Hb Hv).
Qed.
Example C195_example :
  issuable (ve_time mk5_env) (fun _ => True) mk_cred [] /\ v5able (fun _ => True) mk_cred /\ coding mk5_env (tbl_ienv mk5_tbl) (fun _ => True)
  /\ make_sdjwt mk5_env (tbl_ienv mk5_tbl) mk_cred mk_sign "did:i#k" mk_o5 = Ok (ex_tok "good", mk5_signed, [b64_encode "A"; b64_encode "C"; b64_encode "B"])
  /\ signs mk5_env mk_sign "did:i#k" true mk5_signed (ex_tok "good") (ex_jws "sig:m")
  /\ NoDup (map (get_hash (ve_sd mk5_env) SHA256) [b64_encode "A"; b64_encode "C"; b64_encode "B"])
  /\ presents mk5_env ex_copts mk_cred (ex_jws "sig:m") (ex_tok "good") [b64_encode "C"; b64_encode "B"] "" mk5_text
  /\ match parse_credential mk5_env ex_copts mk5_text with
     | Ok w => rmap (fun m => mget m "credentialSubject") (display_map mk5_env w {| dp_all := true; dp_given := [] |}) | _ => Err "" end
     = Ok (Some (JObj [("home", JObj [("city", JStr "p")]); ("lang", JStr "en"); ("id", JStr "did:s")])).
Proof.
  destruct C194_example as (H1 & _). split; [exact H1|].
  split; [|split; [|split; [|split; [|split; [|split]]]]].
  - split; try (intros; exact Logic.I); [apply unregb_ok; vm_compute; reflexivity|apply namedb_ok; vm_compute; reflexivity].
  - split.
    + apply tbl_wf. apply Forall_forall. intros p Hp. apply wfb_wf. revert p Hp. apply forallb_forall. vm_compute. reflexivity.
    + intros m k Hk. exact Hk.
    + apply tbl_reads_back. apply nodup_str. vm_compute. reflexivity.
    + intros; exact Logic.I.
    + apply tbl_shuffle.
  - vm_compute. reflexivity.
  - intros _. exists mk5_signed. split; [|apply Permutation_refl]. repeat split; vm_compute; reflexivity.
  - apply nodup_str. vm_compute. reflexivity.
  - split.
    + vm_compute. reflexivity.
    + discriminate.
    + apply nodup_str. vm_compute. reflexivity.
    + now left.
    + vm_compute. reflexivity.
    + right. eexists _, _. split; [reflexivity|]. split; [reflexivity|]. vm_compute. reflexivity.
    + now left.
  - vm_compute. reflexivity.
Qed.
