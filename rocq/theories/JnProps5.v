(** C331: an SD-JWT credential made with a proof creator and parsed with a proof checker. *)
From Coq Require Import Permutation.
From Verif Require Import GoBase Base64 StrLemmas JwtSpec DiSpec VcSpec JwtModel JwtProofs SdSpec SdModel SdProofs SdRun SdOrder SdSubset SdParse SdParseProofs
  SdIssueSpec SdIssueModel SdIssueEnc SdIssueTop SdIssueV2 SdIssueMain SdIssueV5 SdIssueVc SdIssueProps SdIssueProps3
  DiModel VcModel VcJwt VcParse VcProofs VcView VcText VcMod VcSecure VcJwtProofs VcPanic VcSign VcSignProofs VcSd VcSdProofs DispSpec VcDispProofs VcProps VcProps2 VcProps4 VcProps6 VcProps7 VcProps8 VcMakeProofs
  VcProps9 VcProps10 CkModel CkProps JnModel JnProofs JnProps JnProps2 JnProps3 KaModel.
From Verif Require LdModel.

(** sdjwt/issuer/issuer.go:150-160, 472-489: jwt.NewJoseSigned of the claims with the extra headers, then Serialize; the jose.Signer is that of
    jwt/jose_wrappers.go:16-47 for a proof creator and the given algorithm and key id *)
Definition creator_signer (L : jlib) (c : LdModel.creator) (alg kid : string) : jose_signer := fun claims h =>
  let* x := new_jose_signed L (CMap claims) h (LdModel.creator_headers alg kid, LdModel.creator_sign_jwt c alg) in
  serialize L (snd x) false.
(** the headers of such a token *)
Definition sd_jwt_headers (alg kid : string) (v5 : bool) : headers :=
  ([("alg", JStr alg); ("kid", JStr kid)] ++ if v5 then [("typ", JStr "vc+sd-jwt")] else [])%list.
Lemma sd_heads alg kid v5 : kid <> "" -> merge_headers (sd_headers kid v5) (LdModel.creator_headers alg kid) = sd_jwt_headers alg kid v5.
Proof. intros H. apply String.eqb_neq in H. unfold LdModel.creator_headers. rewrite H. destruct v5; reflexivity. Qed.

Lemma signing_map L E copts claims a k v5 t : sorts L -> same_json L E -> survives L claims -> k <> "" -> reads_headers L (sd_jwt_headers a k v5) ->
  (forall x data, In x (given_signers copts) -> snd x data <> Ok "") ->
  creator_signer L (LdModel.new_creator copts) a k claims (sd_headers k v5) = Ok t ->
  exists j ms, jws_text E t j ms /\ Permutation ms claims /\ jws_headers j = sd_jwt_headers a k v5 /\
    exists x, first_with (fun x => jd_alg (fst x) = a) (given_signers copts) x /\ snd x (jws_input j) = Ok (jws_sig j).
Proof.
  intros S J V Hk R Hne H. unfold creator_signer in H. apply bind_ok in H as ([t0 j0] & H0 & Hs). cbn [snd] in Hs.
  apply jose_signed_ok in H0 as (m & b & Hm & Hb & Eh & Ep & Et & _ & Ha & Hin & Hsg). cbn [fst snd] in Eh, Hsg. rewrite (sd_heads _ _ _ Hk) in Eh.
  cbn [claims_map] in Hm. injection Hm as <-.
  destruct V as [_ V]. destruct (V _ Hb) as [_ (ms & Hms & P)].
  assert (Hpne : jws_payload j0 <> "") by (rewrite Ep; intros ->; now apply (proj2 S) in Hb).
  assert (Vh : survives L (jws_headers j0)) by (rewrite Eh; now apply reads_survives).
  rewrite <- Ep in Hin. destruct (parse_serialised L j0 false t S Vh Ha Hpne Hin Hs) as (Hcp & h & Ph & Hpar).
  assert (T : exists hb, jl_marshal L (sd_jwt_headers a k v5) = Some hb /\ t = (b64_encode hb ++ String "." (b64_encode (jws_payload j0) ++ String "." (b64_encode (jws_sig j0))))).
  { unfold serialize in Hs. apply bind_ok in Hs as (hb & Hh & Hs). injection Hs as Hs. exists hb. apply marshal_ok in Hh. now rewrite Eh in Hh. }
  destruct T as (hb & Hhb & T).
  assert (Sp : split_on "." t = [b64_encode hb; b64_encode (jws_payload j0); b64_encode (jws_sig j0)]) by (rewrite T; apply split3; apply b64_dots).
  destruct R as [Rn R]. destruct (R _ Hhb) as [Rh (mh & Rm & _)].
  assert (h = sd_jwt_headers a k v5) as ->.
  { unfold parse_compact in Hpar. rewrite Sp, !b64_decode_encode in Hpar. cbn [bind] in Hpar. rewrite Rh in Hpar. cbn [bind] in Hpar. rewrite Eh in Ha.
    rewrite Ha in Hpar. cbn [guard bind] in Hpar. apply bind_ok in Hpar as (i' & _ & Hpar). injection Hpar as Hpar _. now rewrite Hpar. }
  apply C313_first_signer in Hsg as (x & Hx1 & Hx2).
  assert (Hsne : jws_sig j0 <> "").
  { intros Hz. rewrite Hz in Hx2. destruct Hx1 as (l1 & l2 & El & _). apply (Hne x (jws_input j0)); [|exact Hx2]. rewrite El. apply in_or_app. right. now left. }
  exists j0, ms. split; [|split; [exact P|split; [exact Eh|exists x; auto]]].
  assert (Ej : parse_compact L t None = Ok j0) by (rewrite Hpar, <- Eh; now destruct j0).
  assert (Hbne : forall z, z <> "" -> b64_encode z <> "") by (intros z Hz Hz'; apply Hz; apply (b64_encode_inj z ""); exact Hz').
  split; [|split; [|split; [|split; [|split; [|split]]]]].
  - apply split_on_free. rewrite T. unfold free_of, char_in.
    assert (G : forall u v, list_ascii_of_string (u ++ v) = (list_ascii_of_string u ++ list_ascii_of_string v)%list) by (induction u as [|? u IHu]; intros v; [reflexivity|]; cbn; now rewrite IHu).
    intros Hc. rewrite G in Hc. apply in_app_or in Hc as [Hc|[Hc|Hc]]; [now apply b64_encode_chars in Hc as [Hc _]|discriminate Hc|].
    rewrite G in Hc. apply in_app_or in Hc as [Hc|[Hc|Hc]]; [now apply b64_encode_chars in Hc as [Hc _]|discriminate Hc|]. now apply b64_encode_chars in Hc as [Hc _].
  - rewrite T. apply (sj_base64 _ _ J). intros ->. now apply (proj2 S) in Hhb.
  - unfold is_jws, is_valid_json. rewrite Sp, !b64_decode_encode, (sj_obj _ _ J _ _ Hhb). rewrite Ep, (sj_obj _ _ J _ _ Hb). cbn [andb].
    apply negb_true_iff, String.eqb_neq. now apply Hbne.
  - rewrite (sj_jwt _ _ J). exact Hcp.
  - rewrite (sj_jwt _ _ J). exact Ej.
  - rewrite Eh. destruct v5; reflexivity.
  - rewrite Ep, (sj_members _ _ J _ _ Hb). exact Hms.
Qed.

(** the ways to present the token, and what the parser needs: its proof checker is [pc] *)
Record presents_to (E : venv) (pc : proof_checker) (o : copts) (v : credential) (tok : string) (sel : list string) (hb text : string) : Prop := {
  pc_text : text = serialize_presentation {| cp_jwt := tok; cp_discs := sel; cp_holder := hb |};
  pc_some : sel <> []; pc_once : NoDup sel; pc_hb : hb = "" \/ is_jws (ve_obj E) hb = true /\ free_of tilde hb;
  pc_not_json : ve_members E text = None;
  pc_proof : co_jwt_check o = Some pc;
  pc_related : co_no_related o = true \/ ve_related E (vc_related (cr_contents v)) = Ok tt }.
(** the key the token names resolves under the issuer of the credential, and the checker accepts what the creator's first signer for the algorithm signs *)
Record key_fits (copts : list LdModel.copt) (kopts : list chkopt) (R : resolver) (v : credential) (name kid : string) : Prop := {
  kf_kid : kid <> "";
  kf_fits : exists i vm d, vc_issuer (cr_contents v) = Some i /\ R kid (is_id i) = Ok vm /\ first_with (fun d => jd_alg d = name) (given_jwts kopts) d /\
    forall x data sig, first_with (fun x => jd_alg (fst x) = name) (given_signers copts) x -> snd x data = Ok sig -> accepted_by (given_verifiers kopts) (jd_vms d) vm data sig;
  kf_signs : forall x data, In x (given_signers copts) -> snd x data <> Ok "" }.
Lemma presents_ok E copts kopts R v name kid v5 o tok j sel hb text x : key_fits copts kopts R v name kid -> jws_headers j = sd_jwt_headers name kid v5 ->
  first_with (fun x => jd_alg (fst x) = name) (given_signers copts) x -> snd x (jws_input j) = Ok (jws_sig j) ->
  presents_to E (new_check_jwt R kopts) o v tok sel hb text -> presents E o v j tok sel hb text.
Proof.
  intros [Kk (i & vm & d & Ki & Kr & Kd & Kx) Ks] Hh Hx Hs [P1 P2 P3 P4 P5 P6 P7]. constructor; try assumption. right. exists i, (new_check_jwt R kopts). split; [exact Ki|]. split; [exact P6|].
  apply C312_jwt. exists kid, name, vm, d. rewrite Hh. split; [destruct v5; reflexivity|]. split; [destruct v5; reflexivity|]. split; [exact Kr|]. split; [exact Kd|]. eapply Kx; eassumption.
Qed.

(** ** C331  The token that MakeSDJWT makes with a proof creator, presented with any of its disclosures, is accepted by ParseCredential with a proof checker that has a descriptor for the
    algorithm and accepts what the creator's first signer for it signs, when the key id resolves under the issuer; the credential comes back, its subject with the identifier, the claims
    listed as not selectively disclosable, and what the disclosures reveal. *)
Theorem C331_make_parse_display : forall L (E : venv) (I : ienv) (ok : string -> Prop) (v : credential) ps copts kopts R name kid (o : mkopts) tok signed discs,
  issuable (ve_time E) ok v ps -> coding E I ok -> mk_v5 o = false ->
  make_sdjwt E I v (creator_signer L (LdModel.new_creator copts) name kid) kid o = Ok (tok, signed, discs) ->
  sorts L -> same_json L E -> reads_headers L (sd_jwt_headers name kid false) -> survives L signed ->
  key_fits copts kopts R v name kid ->
  NoDup (digests_in false (JObj signed)) -> Forall (free_of tilde) discs ->
  exists cs T sid, mget (cr_json v) "credentialSubject" = Some (JObj cs) /\ erase T = JObj cs
    /\ mget cs "id" = Some (JStr sid) /\ sid <> ""
    /\ v2_marked true (mk_nonsd o ++ ["id"])%list "" T /\ Permutation discs (all_discs T)
    /\ forall o' sel hb text, presents_to E (new_check_jwt R kopts) o' v tok sel hb text -> incl sel discs ->
         exists w shown, parse_credential E o' text = Ok w /\ reads v (io_hash (issuer_opts o)) sid w
           /\ display_map E w {| dp_all := true; dp_given := [] |} = Ok shown /\ shows v T sel shown.
Proof.
  intros L E I ok v ps copts kopts R name kid o tok signed discs Hi Hc Hv5 Hmk S J Rh V K ND Hf.
  assert (Htk : creator_signer L (LdModel.new_creator copts) name kid signed (sd_headers kid false) = Ok tok).
  { pose proof Hmk as H. unfold make_sdjwt in H. rewrite Hv5 in H. apply bind_ok in H as (cl & _ & H). apply bind_ok in H as ([sgn ds] & _ & H). apply bind_ok in H as (tk & Htk & H).
    cbn [fst snd] in *. injection H as -> -> ->. exact Htk. }
  destruct (signing_map _ _ _ _ _ _ _ _ S J V (kf_kid _ _ _ _ _ _ K) Rh (kf_signs _ _ _ _ _ _ K) Htk) as (j & ms & A & B & C & x & X1 & X2).
  destruct (C194_make_parse_display E I ok v ps _ kid o tok signed discs j Hi Hc Hv5 Hmk) as (cs & T & sid & H1 & H2 & H3 & H4 & H5 & H6 & H7); try assumption.
  { intros _. exists ms. auto. }
  exists cs, T, sid. repeat (split; [assumption|]). intros o' sel hb text Hp Hin. apply (H7 o' sel hb text); [|exact Hin]. eapply presents_ok; eassumption.
Qed.
Theorem C331_make_parse_display_v5 : forall L (E : venv) (I : ienv) (ok : string -> Prop) (v : credential) ps copts kopts R name kid (o : mkopts) tok signed discs,
  issuable (ve_time E) ok v ps -> v5able ok v -> coding E I ok -> mk_v5 o = true ->
  make_sdjwt E I v (creator_signer L (LdModel.new_creator copts) name kid) kid o = Ok (tok, signed, discs) ->
  sorts L -> same_json L E -> reads_headers L (sd_jwt_headers name kid true) -> survives L signed ->
  key_fits copts kopts R v name kid ->
  NoDup (map (get_hash (ve_sd E) (io_hash (issuer_opts o))) discs) -> Forall (free_of tilde) discs ->
  exists cs T sid, mget (cr_json v) "credentialSubject" = Some (JObj cs) /\ erase T = JObj cs
    /\ mget cs "id" = Some (JStr sid) /\ sid <> ""
    /\ v5_marked true (mk_nonsd o ++ ["id"])%list (mk_always o) (mk_rec o) false "" T /\ Permutation discs (all_discs T)
    /\ forall o' sel hb text, presents_to E (new_check_jwt R kopts) o' v tok sel hb text -> incl sel discs -> incl sel (SdIssueSpec.reachable (fun s => str_in s sel) T) ->
         exists w shown, parse_credential E o' text = Ok w /\ reads v (io_hash (issuer_opts o)) sid w
           /\ display_map E w {| dp_all := true; dp_given := [] |} = Ok shown /\ shows v T sel shown.
Proof.
  intros L E I ok v ps copts kopts R name kid o tok signed discs Hi H5a Hc Hv5 Hmk S J Rh V K ND Hf.
  assert (Htk : creator_signer L (LdModel.new_creator copts) name kid signed (sd_headers kid true) = Ok tok).
  { pose proof Hmk as H. unfold make_sdjwt in H. rewrite Hv5 in H. apply bind_ok in H as (cl & _ & H). apply bind_ok in H as ([sgn ds] & _ & H). apply bind_ok in H as (tk & Htk & H).
    cbn [fst snd] in *. injection H as -> -> ->. exact Htk. }
  destruct (signing_map _ _ _ _ _ _ _ _ S J V (kf_kid _ _ _ _ _ _ K) Rh (kf_signs _ _ _ _ _ _ K) Htk) as (j & ms & A & B & C & x & X1 & X2).
  destruct (C195_make_parse_display_v5 E I ok v ps _ kid o tok signed discs j Hi H5a Hc Hv5 Hmk) as (cs & T & sid & H1 & H2 & H3 & H4 & H5 & H6 & H7); try assumption.
  { intros _. exists ms. auto. }
  exists cs, T, sid. repeat (split; [assumption|]). intros o' sel hb text Hp Hin Hr. apply (H7 o' sel hb text); [|exact Hin|exact Hr]. eapply presents_ok; eassumption.
Qed.

(** instances: the credential of C194, in both formats, with the library of C328 *)
Definition jx_copts : copts := with_checkers toyO (Some (new_check_jwt (fun k i => if String.eqb i "did:i" then Ok ck_vm else Err "x") jn_kopts)) None None None.
Definition jx_lib (v5 : bool) (m : gomap json) : jlib :=
  let h := sd_jwt_headers "EdDSA" "did:i#k" v5 in
  let rd s := if String.eqb s "H" then Some h else if String.eqb s "P" then Some m else None in
  {| jl_marshal := fun x => option_map snd (find (fun e => jm_same (fst e) x) [(h, "H"); (m, "P")]); jl_headers := rd; jl_members := rd; jl_gstr := fun _ => "" |}.
Definition jx_env (v5 : bool) (m : gomap json) (tbl : list (string * json)) : venv :=
  let L := jx_lib v5 m in let E := toyV0 [] [] in with_sdenv {|
  ve_time := ve_time E; ve_jwt := lib_denv L; ve_members := jl_members L; ve_obj := fun s => match jl_members L s with Some _ => true | None => false end; ve_sd := ve_sd E;
  ve_order := ve_order E; ve_cose := ve_cose E; ve_hex := ve_hex E; ve_cbor := ve_cbor E; ve_schema := ve_schema E; ve_valid := ve_valid E; ve_jsonld := ve_jsonld E;
  ve_ext := ve_ext E; ve_ldproofs := ve_ldproofs E; ve_ldmsg := ve_ldmsg E; ve_di := ve_di E; ve_now := ve_now E; ve_related := ve_related E |} (tbl_env tbl).
Definition jx_sign (v5 : bool) (m : gomap json) : jose_signer := creator_signer (jx_lib v5 m) (LdModel.new_creator jn_copts) "EdDSA" "did:i#k".
Definition jx_tok (v5 : bool) (m : gomap json) : string := match jx_sign v5 m m (sd_headers "did:i#k" v5) with Ok t => t | _ => "" end.
Lemma jx_marshal_in v5 m x b : jl_marshal (jx_lib v5 m) x = Some b -> b = "H" \/ b = "P".
Proof.
  cbn [jx_lib jl_marshal]. destruct (find _ _) as [z|] eqn:E; [|discriminate]. apply find_some in E as [E _]. cbn [option_map]. intros H. injection H as <-. destruct E as [<-|[<-|[]]]; auto.
Qed.
Lemma jx_sorts v5 x : sorts (jx_lib v5 x).
Proof.
  split.
  - intros m m' N P. cbn [jx_lib jl_marshal]. f_equal. apply find_same. intros [e s]. cbn [fst]. unfold jm_same. rewrite (Permutation_length P). f_equal.
    induction e as [|kv e IH]; [reflexivity|]. cbn [forallb]. rewrite IH. now rewrite (mget_perm _ _ _ N P).
  - intros m H. apply jx_marshal_in in H as [H|H]; discriminate H.
Qed.
Lemma jx_json v5 x tbl : same_json (jx_lib v5 x) (jx_env v5 x tbl).
Proof.
  split; [reflexivity| |reflexivity|].
  - intros m b H. apply jx_marshal_in in H as [-> | ->]; reflexivity.
  - assert (G : forall p q z, jl_members (jx_lib v5 x) (String p (String q z)) = None).
    { intros p q z. cbn [jx_lib jl_members]. assert (Q : forall c, String.eqb (String p (String q z)) (String c "") = false) by (intros c; cbn; destruct (Ascii.eqb p c); reflexivity). now rewrite !Q. }
    intros s t Hs. change (ve_members (jx_env v5 x tbl)) with (jl_members (jx_lib v5 x)). destruct s as [|a [|b [|c s]]]; [now destruct Hs| | |]; cbn [b64_encode append]; apply G.
Qed.
Lemma jx_fits : key_fits jn_copts jn_kopts (fun k i => if String.eqb i "did:i" then Ok ck_vm else Err "x") mk_cred "EdDSA" "did:i#k".
Proof.
  destruct C321_example as (_ & _ & _ & _ & _ & _ & _ & Hd & Hx & _). split; [discriminate| |].
  - eexists _, ck_vm, d_eddsa. split; [reflexivity|]. split; [reflexivity|]. split; [exact Hd|exact Hx].
  - intros x data [<-|[<-|[]]]; cbn; discriminate.
Qed.
Definition jx_case (v5 : bool) (m : gomap json) (tbl : list (string * json)) (o : mkopts) (discs sel : list string) (subject : json) : Prop :=
  let E := jx_env v5 m tbl in let text := jx_tok v5 m ++ concat "" (map (fun d => "~" ++ d) sel) ++ "~" in
  make_sdjwt E (tbl_ienv tbl) mk_cred (jx_sign v5 m) "did:i#k" o = Ok (jx_tok v5 m, m, discs)
  /\ reads_headers (jx_lib v5 m) (sd_jwt_headers "EdDSA" "did:i#k" v5) /\ survives (jx_lib v5 m) m /\ coding E (tbl_ienv tbl) (fun _ => True)
  /\ presents_to E (new_check_jwt (fun k i => if String.eqb i "did:i" then Ok ck_vm else Err "x") jn_kopts) jx_copts mk_cred (jx_tok v5 m) sel "" text
  /\ co_no_proof jx_copts = false
  /\ match parse_credential E jx_copts text with
     | Ok w => rmap (fun m => mget m "credentialSubject") (display_map E w {| dp_all := true; dp_given := [] |}) | _ => Err "" end = Ok (Some subject).
Lemma jx_codes v5 m tbl : coding (with_sdenv (toyV0 [] []) (tbl_env tbl)) (tbl_ienv tbl) (fun _ => True) -> coding (jx_env v5 m tbl) (tbl_ienv tbl) (fun _ => True).
Proof. intros [A B C D F]. split; assumption. Qed.
Example C331_example :
  jx_case false mk_signed mk_tbl mk_o [b64_encode "B"; b64_encode "A"] [b64_encode "A"] (JObj [("name", JStr "n"); ("lang", JStr "en"); ("id", JStr "did:s")]) /\ jx_case true mk5_signed mk5_tbl mk_o5 [b64_encode "A"; b64_encode "C"; b64_encode "B"] [b64_encode "C"; b64_encode "B"] (JObj [("home", JObj [("city", JStr "p")]); ("lang", JStr "en"); ("id", JStr "did:s")]).
Proof.
  split.
  - split; [vm_compute; reflexivity|]. split.
    { split; [apply nodup_str; vm_compute; reflexivity|]. intros b H. vm_compute in H. injection H as <-. split; [reflexivity|]. eexists. split; [reflexivity|apply Permutation_refl]. }
    split. { split; [apply nodup_str; vm_compute; reflexivity|]. intros b H. vm_compute in H. injection H as <-. split; exists mk_signed; auto. }
    split. { apply jx_codes. destruct C194_example as (_ & [A B C D F] & _). split; assumption. }
    split. { split; [vm_compute; reflexivity|discriminate|repeat constructor; intros []|now left|vm_compute; reflexivity|reflexivity|now left]. }
    split; [reflexivity|vm_compute; reflexivity].
  - split; [vm_compute; reflexivity|]. split.
    { split; [apply nodup_str; vm_compute; reflexivity|]. intros b H. vm_compute in H. injection H as <-. split; [reflexivity|]. eexists. split; [reflexivity|apply Permutation_refl]. }
    split. { split; [apply nodup_str; vm_compute; reflexivity|]. intros b H. vm_compute in H. injection H as <-. split; exists mk5_signed; auto. }
    split. { apply jx_codes. destruct C195_example as (_ & _ & [A B C D F] & _). split; assumption. }
    split. { split; [vm_compute; reflexivity|discriminate|apply nodup_str; vm_compute; reflexivity|now left|vm_compute; reflexivity|reflexivity|now left]. }
    split; [reflexivity|vm_compute; reflexivity].
Qed.
Print Assumptions C331_make_parse_display. Print Assumptions C331_make_parse_display_v5.
