(** Signing a credential and parsing the token: lemmas. *)
From Coq Require Import Permutation.
From Verif Require Import GoBase Base64 StrLemmas JwtSpec DiSpec VcSpec JwtModel JwtProofs SdSpec SdModel SdParse DiModel VcModel
  VcJwt VcParse VcProofs VcView VcText VcMod VcSecure VcJwtProofs VcPanic VcSign.

(** dates agree to the second *)
Definition same_second (a b : twrap) : Prop := unix (tw_time a) = unix (tw_time b).
(** contents equal, dates to the second *)
Definition same_signed (a b : contents) : Prop :=
  vc_context a = vc_context b /\ vc_custom_ctx a = vc_custom_ctx b /\ vc_id a = vc_id b /\ vc_types a = vc_types b
  /\ vc_subject a = vc_subject b /\ vc_issuer a = vc_issuer b
  /\ same_opt same_second (vc_issued a) (vc_issued b) /\ same_opt same_second (vc_expired a) (vc_expired b)
  /\ vc_status a = vc_status b /\ vc_schemas a = vc_schemas b /\ vc_evidence a = vc_evidence b
  /\ vc_terms a = vc_terms b /\ vc_refresh a = vc_refresh b /\ vc_sdalg a = vc_sdalg b
  /\ vc_related a = vc_related b.

(** *** The payload *)
Lemma mget_app {V} (a b : gomap V) k : mget (a ++ b)%list k = match mget a k with Some v => Some v | None => mget b k end.
Proof. induction a as [|[k' v] a IH]; cbn [app mget]; [reflexivity|]. destruct (String.eqb k k'); auto. Qed.
Lemma mget_opt_field r s k : mget (opt_field r s) k = if String.eqb k r && negb (String.eqb s "") then Some (JStr s) else None.
Proof. unfold opt_field. destruct (String.eqb s ""); cbn [mget negb]; [now rewrite andb_false_r|]. rewrite andb_true_r. reflexivity. Qed.
Lemma mget_date r d k : mget (date_member r d) k = if String.eqb k r then option_map jnum d else None.
Proof. destruct d; cbn [date_member mget option_map]; destruct (String.eqb k r); reflexivity. Qed.
Lemma opt_keys r s : map fst (opt_field r s) = if String.eqb s "" then [] else [r].
Proof. unfold opt_field. now destruct (String.eqb s ""). Qed.
Lemma date_keys r d : map fst (date_member r d) = match d with Some _ => [r] | None => [] end.
Proof. now destruct d. Qed.
Lemma claims_keys c : jc_vc c <> None -> vc_len0 c = false ->
  NoDup (map fst (claims_json c)) /\ forall k, In k (map fst (claims_json c)) -> In k ("vc" :: registered).
Proof.
  intros _ Hl. unfold claims_json. rewrite !map_app, !opt_keys, !date_keys.
  unfold vc_len0 in Hl. destruct (jc_vc c) as [[|x m]|]; try discriminate. cbn [map fst].
  destruct (String.eqb (jc_iss c) ""), (String.eqb (jc_sub c) ""), (jc_exp c), (jc_nbf c), (jc_iat c), (String.eqb (jc_jti c) "");
    cbn [app]; (split; [repeat (constructor; [cbn [In]; intuition discriminate|]); constructor|intros k; cbn [In registered]; intuition]).
Qed.
Lemma mget_claims c k : vc_len0 c = false ->
  mget (claims_json c) k =
    if String.eqb k "iss" then (if String.eqb (jc_iss c) "" then None else Some (JStr (jc_iss c)))
    else if String.eqb k "sub" then (if String.eqb (jc_sub c) "" then None else Some (JStr (jc_sub c)))
    else if String.eqb k "exp" then option_map jnum (jc_exp c)
    else if String.eqb k "nbf" then option_map jnum (jc_nbf c)
    else if String.eqb k "iat" then option_map jnum (jc_iat c)
    else if String.eqb k "jti" then (if String.eqb (jc_jti c) "" then None else Some (JStr (jc_jti c)))
    else if String.eqb k "vc" then option_map JObj (jc_vc c) else None.
Proof.
  intros Hl. unfold claims_json. rewrite !mget_app, !mget_opt_field, !mget_date.
  unfold vc_len0 in Hl. destruct (jc_vc c) as [[|x m]|]; try discriminate. cbn [mget option_map].
  destruct (String.eqb (jc_iss c) ""), (String.eqb (jc_sub c) ""), (String.eqb (jc_jti c) "");
  repeat match goal with |- context [String.eqb k ?s] => destruct (String.eqb_spec k s); [subst k; cbn [andb negb String.eqb Ascii.eqb Bool.eqb option_map];
    now destruct (jc_exp c), (jc_nbf c), (jc_iat c)|] end;
  reflexivity.
Qed.
Lemma registered_fold r k : In r ("vc" :: registered) -> In k ("vc" :: registered) -> equal_fold r k = true -> k = r.
Proof.
  intros Hr Hk. assert (G : forallb (fun r => forallb (fun k => negb (equal_fold r k) || String.eqb k r) ("vc" :: registered)) ("vc" :: registered) = true) by (vm_compute; reflexivity).
  rewrite forallb_forall in G. specialize (G r Hr). rewrite forallb_forall in G. specialize (G k Hk). intros E. rewrite E in G. now apply String.eqb_eq.
Qed.
Lemma qtrunc_z z : qtrunc (inject_Z z) = z.
Proof. unfold qtrunc. cbn. apply Z.quot_1_r. Qed.
Lemma claims_round c ms m0 : Permutation ms (claims_json c) -> jc_vc c = Some m0 -> m0 <> [] -> NoDup (map fst m0) ->
  jc_aud c = [] -> jc_alloc c = true -> jc_sub c <> "" -> unmarshal_claims ms = Ok c.
Proof.
  intros Hp Hv Hne Hnd Ha Hal Hs.
  assert (Hl : vc_len0 c = false) by (unfold vc_len0; rewrite Hv; now destruct m0).
  destruct (claims_keys c) as [Hk1 Hk2]; [congruence|assumption|].
  assert (Hms : NoDup (map fst ms)) by (eapply Permutation_NoDup; [apply Permutation_map, Permutation_sym, Hp|assumption]).
  assert (Hin : forall k, In k (map fst ms) -> In k ("vc" :: registered)).
  { intros k H. apply Hk2. eapply Permutation_in; [apply Permutation_map, Hp|assumption]. }
  assert (Hpc : plain_claims ms) by (split; [assumption|]; intros r k Hr H; apply registered_fold; auto).
  assert (Hg : forall r, In r ("vc" :: registered) -> occurrences r ms = match mget (claims_json c) r with Some j => [j] | None => [] end).
  { intros r Hr. rewrite occ_plain by assumption. rewrite (mget_perm (claims_json c) ms); [reflexivity|assumption|now apply Permutation_sym]. }
  unfold unmarshal_claims, decode_claims. rewrite !Hg by (cbn; tauto). rewrite !mget_claims by assumption. cbn [String.eqb Ascii.eqb Bool.eqb].
  assert (S : forall s : string, fold_res str_step match (if String.eqb s "" then None else Some (JStr s)) with Some j => [j] | None => [] end "" = Ok s)
    by (intros s; destruct (String.eqb_spec s "") as [->|]; reflexivity).
  assert (D : forall d, fold_res date_step match option_map jnum d with Some j => [j] | None => [] end None = Ok d).
  { intros [z|]; cbn; [now rewrite qtrunc_z|reflexivity]. }
  rewrite !S, !D. rewrite Hv. cbn [option_map fold_res fold_left map_step bind aud_step].
  change (fold_left (fun acc kv => mset acc (fst kv) (snd kv)) m0 []) with (to_map m0). rewrite to_map_nodup by assumption.
  assert (Hal' : existsb (fun k => match occurrences k ms with [] => false | _ => true end) registered = true).
  { apply existsb_exists. exists "sub". split; [cbn; tauto|]. rewrite Hg by (cbn; tauto). rewrite mget_claims by assumption.
    cbn [String.eqb Ascii.eqb Bool.eqb]. destruct (String.eqb_spec (jc_sub c) ""); [contradiction|reflexivity]. }
  rewrite Hal'. unfold vc_len0 at 1. cbn [jc_vc]. assert (E : (match m0 with [] => true | _ => false end) = false) by now destruct m0.
  rewrite E, andb_false_r. rewrite <- Hal, <- Hv, <- Ha. now destruct c.
Qed.

(** *** Claims of a credential, applied to it again *)
(** the object read back: parse results per member *)
Lemma parse_contents_fields E m c : parse_contents E m false = Ok c ->
  parse_typed_id (fld m "credentialSchema") = Ok (vc_schemas c) /\ decode_type (fld m "type") = Ok (vc_types c)
  /\ parse_issuer (fld m "issuer") = Ok (vc_issuer c)
  /\ decode_context (fld m "@context") = Ok (vc_context c, vc_custom_ctx c)
  /\ parse_typed_id (fld m "termsOfUse") = Ok (vc_terms c) /\ parse_refresh (fld m "refreshService") = Ok (vc_refresh c)
  /\ parse_related E (fld m "relatedResource") = Ok (vc_related c) /\ parse_subject (fld m "credentialSubject") = Ok (vc_subject c)
  /\ vc_sdalg c = None /\ parse_string_fld m "id" = Ok (vc_id c)
  /\ (exists t, parse_time_fld E m "issuanceDate" = Ok t /\ match t with None => parse_time_fld E m "validFrom" | Some _ => Ok t end = Ok (vc_issued c))
  /\ (exists t, parse_time_fld E m "expirationDate" = Ok t /\ match t with None => parse_time_fld E m "validUntil" | Some _ => Ok t end = Ok (vc_expired c))
  /\ new_typed_array (fld m "credentialStatus") = Ok (vc_status c) /\ vc_evidence c = fld m "evidence".
Proof.
  unfold parse_contents. intros H. repeat (let x := fresh "x" in let Hx := fresh "Hx" in apply bind_ok in H as (x & Hx & H)).
  injection H as <-. cbn. cbn in Hx7. injection Hx7 as <-. destruct x2. repeat split; eauto.
Qed.
Lemma parse_contents_intro E m schemas types iss ctx cctx terms refresh rel subs id i0 issued e0 expired sts :
  parse_typed_id (fld m "credentialSchema") = Ok schemas -> decode_type (fld m "type") = Ok types ->
  parse_issuer (fld m "issuer") = Ok iss -> decode_context (fld m "@context") = Ok (ctx, cctx) ->
  parse_typed_id (fld m "termsOfUse") = Ok terms -> parse_refresh (fld m "refreshService") = Ok refresh ->
  parse_related E (fld m "relatedResource") = Ok rel -> parse_subject (fld m "credentialSubject") = Ok subs ->
  parse_string_fld m "id" = Ok id ->
  parse_time_fld E m "issuanceDate" = Ok i0 -> match i0 with None => parse_time_fld E m "validFrom" | Some _ => Ok i0 end = Ok issued ->
  parse_time_fld E m "expirationDate" = Ok e0 -> match e0 with None => parse_time_fld E m "validUntil" | Some _ => Ok e0 end = Ok expired ->
  new_typed_array (fld m "credentialStatus") = Ok sts ->
  parse_contents E m false = Ok {| vc_context := ctx; vc_custom_ctx := cctx; vc_id := id; vc_types := types; vc_subject := subs;
        vc_issuer := iss; vc_issued := issued; vc_expired := expired; vc_status := sts; vc_schemas := schemas;
        vc_evidence := fld m "evidence"; vc_terms := terms; vc_refresh := refresh; vc_sdalg := None; vc_related := rel |}.
Proof.
  intros H1 H2 H3 H4 H5 H6 H7 H8 H9 H10 H11 H12 H13 H14. unfold parse_contents.
  rewrite H1, H2, H3, H4, H5, H6, H7, H8, H9, H10. cbn [bind parse_sd_alg]. rewrite H11. cbn [bind]. rewrite H12. cbn [bind]. rewrite H13. cbn [bind].
  rewrite H14. reflexivity.
Qed.

(** the date has an RFC 3339 text (whole seconds) that denotes it (years 0 to 9999) *)
Definition rfc_ok (T : tenv) (t : option twrap) : Prop :=
  forall x, t = Some x -> exists g, te_parse T (te_rfc T (unix (tw_time x))) = Some g /\ unix g = unix (tw_time x).
Definition nonzero (t : option twrap) : Prop := forall x, t = Some x -> is_zero (tw_time x) = false.

Lemma date_round T m0 m k1 k2 k1' (v2c : bool) t :
  rfc_ok T t -> nonzero t -> k1 <> k2 ->
  (exists a, parse_time_fld T m0 k1 = Ok a /\ match a with None => parse_time_fld T m0 k2 | Some _ => Ok a end = Ok t) ->
  k1' = (if v2c then k2 else k1) ->
  (forall k, k = k1 \/ k = k2 -> mget m k = if String.eqb k k1' then match o_date t with Some n => Some (JStr (te_rfc T n)) | None => mget m0 k end else mget m0 k) ->
  exists a b, parse_time_fld T m k1 = Ok a /\ match a with None => parse_time_fld T m k2 | Some _ => Ok a end = Ok b /\ same_opt same_second t b.
Proof.
  intros Hr Hz Hk (a & Ha & Hb) -> Hm.
  assert (P : forall y, t = Some y -> exists w, parse_wrapper T (te_rfc T (unix (tw_time y))) = Ok w /\ unix (tw_time w) = unix (tw_time y)).
  { intros y Hy. destruct (Hr y Hy) as (x & Hx & Hu). unfold parse_wrapper. rewrite Hx. eexists. split; [reflexivity|assumption]. }
  assert (K : forall k, mget m k = mget m0 k -> parse_time_fld T m k = parse_time_fld T m0 k) by (intros k H; unfold parse_time_fld, fld; now rewrite H).
  pose proof (Hm k1 (or_introl eq_refl)) as H1. pose proof (Hm k2 (or_intror eq_refl)) as H2.
  assert (R : forall x : option twrap, same_opt same_second x x) by (intros [x|]; cbn; [reflexivity|exact I]).
  destruct t as [x|].
  - unfold o_date, numeric_date in H1, H2. rewrite (Hz x eq_refl) in H1, H2. destruct (P x eq_refl) as (w & Hw & Hu).
    destruct v2c.
    + destruct (String.eqb_spec k1 k2); [contradiction|]. rewrite String.eqb_refl in H2. rewrite (K k1 H1), Ha. exists a.
      destruct a as [y|]; [injection Hb as ->; exists (Some x); auto|].
      exists (Some w). split; [reflexivity|]. split; [|cbn; unfold same_second; now rewrite Hu].
      unfold parse_time_fld, fld. rewrite H2, Hw. reflexivity.
    + rewrite String.eqb_refl in H1. exists (Some w), (Some w). split; [unfold parse_time_fld, fld; now rewrite H1, Hw|].
      split; [reflexivity|]. cbn. unfold same_second. now rewrite Hu.
  - cbn [o_date] in H1, H2. exists a, None.
    assert (E1 : mget m k1 = mget m0 k1) by (now destruct (String.eqb k1 _)).
    assert (E2 : mget m k2 = mget m0 k2) by (now destruct (String.eqb k2 _)).
    rewrite (K k1 E1), Ha. split; [reflexivity|]. split; [|exact I]. destruct a; [discriminate|]. now rewrite (K k2 E2).
Qed.

Lemma refine_fwd T c m1 m2 : jc_alloc c = true -> jc_vc c = Some m1 ->
  (if String.eqb (jc_iss c) "" then Ok (Some m1) else refine_issuer (Some m1) (jc_iss c)) = Ok (Some m2) ->
  (forall k, k <> "issuer" -> mget m2 k = mget m1 k) ->
  exists m', refine T c = Ok (Some m') /\ forall k, mget m' k =
     if String.eqb k (until_name m1) then match jc_exp c with Some n => Some (JStr (te_rfc T n)) | None => mget m1 k end
     else if String.eqb k (from_name m1) then match first_of (jc_iat c) (jc_nbf c) with Some n => Some (JStr (te_rfc T n)) | None => mget m1 k end
     else if String.eqb k "id" then if String.eqb (jc_jti c) "" then mget m1 k else Some (JStr (jc_jti c))
     else mget m2 k.
Proof.
  intros Ha Hv Hi Hm.
  assert (D : forall d m f2 f1, refine_date T d (Some m) f2 f1 =
    Ok (Some match d with Some n => mset m (if has_base_context m v2_context then f2 else f1) (JStr (te_rfc T n)) | None => m end)) by (intros [d|] m f2 f1; reflexivity).
  unfold refine. rewrite Ha, Hv. cbn [negb]. rewrite Hi. cbn [bind]. rewrite D. cbn [bind].
  set (b := match jc_nbf c with Some n => _ | None => _ end).
  assert (I : (if String.eqb (jc_jti c) "" then Ok (Some b) else oset (Some b) "id" (JStr (jc_jti c)))
    = Ok (Some (if String.eqb (jc_jti c) "" then b else mset b "id" (JStr (jc_jti c))))) by (destruct (String.eqb (jc_jti c) ""); reflexivity).
  rewrite I. cbn [bind]. set (d := if String.eqb (jc_jti c) "" then b else _). rewrite D. cbn [bind].
  set (e := match jc_iat c with Some n => _ | None => _ end). rewrite D. eexists. split; [reflexivity|].
  assert (Ca : mget m2 "@context" = mget m1 "@context") by (apply Hm; discriminate).
  assert (Cb : mget b "@context" = mget m1 "@context").
  { rewrite <- Ca. unfold b. destruct (jc_nbf c); [|reflexivity]. rewrite mget_mset. destruct (has_base_context m2 v2_context); reflexivity. }
  assert (Cd : mget d "@context" = mget m1 "@context").
  { rewrite <- Cb. unfold d. destruct (String.eqb (jc_jti c) ""); [reflexivity|]. rewrite mget_mset. reflexivity. }
  assert (Ce : mget e "@context" = mget m1 "@context").
  { rewrite <- Cd. unfold e. destruct (jc_iat c); [|reflexivity]. rewrite mget_mset. destruct (has_base_context d v2_context); reflexivity. }
  rewrite (base_ctx_ext e m1) by assumption. fold (until_name m1).
  assert (Eb : b = match jc_nbf c with Some n => mset m2 (from_name m1) (JStr (te_rfc T n)) | None => m2 end)
    by (unfold b; now rewrite (base_ctx_ext m2 m1)).
  assert (Ee : e = match jc_iat c with Some n => mset d (from_name m1) (JStr (te_rfc T n)) | None => d end)
    by (unfold e; now rewrite (base_ctx_ext d m1)).
  intros k. rewrite Ee. unfold d. rewrite Eb. clear - Hm. unfold first_of. names m1;
    destruct (jc_exp c), (jc_iat c), (jc_nbf c), (String.eqb (jc_jti c) ""); rewrite ?mget_mset;
    repeat match goal with |- context [String.eqb k ?s] => destruct (String.eqb_spec k s); [subst k; try reflexivity; now rewrite ?Hm by discriminate|] end;
    try reflexivity.
Qed.

(** the issuer of a claim set made from a credential *)
Lemma filter_mset_id (o : gomap json) j :
  filter (fun kv => negb (str_in (fst kv) ["id"])) (mset o "id" j) = filter (fun kv => negb (str_in (fst kv) ["id"])) o.
Proof.
  induction o as [|[k v] o IH]; cbn [mset filter fst]; [reflexivity|].
  destruct (String.eqb_spec "id" k) as [<-|Hne]; cbn [filter fst]; [reflexivity|]. now rewrite IH.
Qed.
Lemma issuer_from_set o s rest : s <> "" -> snd (split_obj o ["id"]) = rest ->
  issuer_from (mset o "id" (JStr s)) = Ok {| is_id := s; is_custom := rest |}.
Proof.
  intros Hs Hr. unfold issuer_from. destruct (split_obj (mset o "id" (JStr s)) ["id"]) as [f r] eqn:Es.
  assert (Ef : f = fst (split_obj (mset o "id" (JStr s)) ["id"])) by now rewrite Es.
  assert (Er : r = snd (split_obj (mset o "id" (JStr s)) ["id"])) by now rewrite Es.
  unfold split_obj in Er at 1. cbn [snd] in Er. rewrite filter_mset_id in Er.
  assert (Hr' : r = rest) by (rewrite Er, <- Hr; reflexivity).
  unfold parse_string_fld, fld. rewrite Ef, split_fst by reflexivity. rewrite mget_mset. cbn [String.eqb Ascii.eqb Bool.eqb bind].
  destruct (String.eqb_spec s ""); [contradiction|]. cbn [negb guard bind]. now rewrite Hr'.
Qed.
Lemma no_id_custom o : no_key "id" (snd (split_obj o ["id"])).
Proof.
  unfold no_key, split_obj. cbn [snd]. intros H. apply in_map_iff in H as ((k & v) & Hk & H). apply filter_In in H as [_ H].
  cbn in Hk. subst k. discriminate.
Qed.
Lemma parse_issuer_full m i : parse_issuer (fld m "issuer") = Ok (Some i) ->
  is_id i <> "" /\ exists m2, refine_issuer (Some m) (is_id i) = Ok (Some m2) /\ (forall k, k <> "issuer" -> mget m2 k = mget m k)
    /\ parse_issuer (fld m2 "issuer") = Ok (Some i).
Proof.
  intros H. unfold parse_issuer in H. destruct (fld m "issuer") as [[]|] eqn:Ef; try discriminate; apply fld_Some in Ef.
  - destruct (String.eqb_spec s "") as [|Hs]; [discriminate|]. injection H as <-. cbn [is_id]. split; [assumption|].
    unfold refine_issuer. cbn [oget oset]. rewrite Ef. cbn [bind]. rewrite String.eqb_refl, andb_false_r. eexists. split; [reflexivity|].
    split; [intros k Hk; rewrite mget_mset; destruct (String.eqb_spec k "issuer"); [contradiction|reflexivity]|].
    unfold fld. rewrite mget_mset. cbn. destruct (String.eqb_spec s ""); [contradiction|reflexivity].
  - destruct (issuer_from m0) as [i'| |] eqn:Ei; try discriminate. injection H as ->.
    destruct (issuer_from_in _ _ Ei) as (Hne & Hid & _). split; [assumption|].
    unfold refine_issuer. cbn [oget oset]. rewrite Ef.
    assert (Hp : parse_string_fld m0 "id" = Ok (is_id i)) by (unfold parse_string_fld, fld; now rewrite Hid).
    rewrite Hp. cbn [bind]. rewrite String.eqb_refl, andb_false_r. eexists. split; [reflexivity|].
    split; [intros k Hk; rewrite mget_mset; destruct (String.eqb_spec k "issuer"); [contradiction|reflexivity]|].
    unfold fld. rewrite mget_mset. cbn [String.eqb Ascii.eqb Bool.eqb parse_issuer].
    rewrite (issuer_from_set m0 (is_id i) (is_custom i)) by (try assumption; unfold issuer_from in Ei; destruct (split_obj m0 ["id"]) as [f r];
      apply bind_ok in Ei as (? & _ & Ei); apply bind_ok in Ei as (? & _ & Ei); injection Ei as <-; reflexivity).
    cbn. now destruct i.
Qed.
Lemma parse_issuer_custom v i : parse_issuer v = Ok (Some i) -> no_key "id" (is_custom i).
Proof.
  unfold parse_issuer. destruct v as [[]|]; try discriminate.
  - destruct (String.eqb s ""); [discriminate|]. intros [= <-] [].
  - intros H. destruct (issuer_from m) as [i'| |] eqn:Ei; try discriminate. injection H as ->. unfold issuer_from in Ei.
    destruct (split_obj m ["id"]) as [f r] eqn:Es. apply bind_ok in Ei as (? & _ & Ei). apply bind_ok in Ei as (? & _ & Ei). injection Ei as <-. cbn.
    pose proof (no_id_custom m) as H. now rewrite Es in H.
Qed.
Lemma issuer_min m i : is_id i <> "" -> no_key "id" (is_custom i) ->
  mget m "issuer" = Some (issuer_json {| is_id := ""; is_custom := is_custom i |}) ->
  exists m2, refine_issuer (Some m) (is_id i) = Ok (Some m2) /\ (forall k, k <> "issuer" -> mget m2 k = mget m k)
    /\ parse_issuer (fld m2 "issuer") = Ok (Some i).
Proof.
  intros Hne Hk Hm. unfold refine_issuer. cbn [oget oset]. rewrite Hm. unfold issuer_json. cbn [is_custom is_id].
  destruct (is_custom i) as [|x l] eqn:Ec.
  - cbn [bind]. change (has_prefix "did:" "") with false. rewrite andb_false_r. cbn [andb]. eexists. split; [reflexivity|].
    split; [intros k Hk'; rewrite mget_mset; destruct (String.eqb_spec k "issuer"); [contradiction|reflexivity]|].
    unfold fld. rewrite mget_mset. cbn [String.eqb Ascii.eqb Bool.eqb parse_issuer]. destruct (String.eqb_spec (is_id i) ""); [contradiction|].
    destruct i; cbn in *; now subst.
  - cbn [issuer_to is_id is_custom]. change (String.eqb "" "") with true. cbn match.
    assert (Hn : mget (x :: l) "id" = None) by (now apply mget_None).
    assert (Hp : parse_string_fld (x :: l) "id" = Ok "") by (unfold parse_string_fld, fld; now rewrite Hn).
    cbn [issuer_to is_id is_custom] in *. unfold issuer_to. cbn [is_id is_custom]. change (String.eqb "" "") with true. cbn match. rewrite Hp.
    cbn [bind]. change (has_prefix "did:" "") with false. rewrite andb_false_r. cbn [andb]. eexists. split; [reflexivity|].
    split; [intros k Hk'; rewrite mget_mset; destruct (String.eqb_spec k "issuer"); [contradiction|reflexivity]|].
    unfold fld. rewrite mget_mset. cbn [String.eqb Ascii.eqb Bool.eqb parse_issuer].
    rewrite (issuer_from_set _ (is_id i) (x :: l)); [cbn; destruct i; cbn in *; now subst|assumption|].
    assert (Hs : split_obj (x :: l) ["id"] = ([], x :: l)) by (apply split_custom; intros k [<-|[]]; assumption).
    now rewrite Hs.
Qed.

Definition special : list string := ["issuer"; "id"; "issuanceDate"; "validFrom"; "expirationDate"; "validUntil"].
Lemma mget_copy_except ks : forall m k, mget (copy_except m ks) k = if str_in k ks then None else mget m k.
Proof.
  unfold copy_except. induction ks as [|x ks IH]; intros m k; cbn [fold_left]; [reflexivity|]. rewrite IH, mget_mdel.
  unfold str_in. cbn. destruct (String.eqb k x); cbn [orb]; [match goal with |- (if ?b then _ else _) = _ => now destruct b end|reflexivity].
Qed.
(** the "vc" claim: as the credential, or minimised *)
Lemma new_claims_vc v mi cl : new_jwt_claims v mi = Ok cl -> parse_issuer (fld (cr_json v) "issuer") = Ok (vc_issuer (cr_contents v)) ->
  exists i m1, vc_issuer (cr_contents v) = Some i /\ jc_vc cl = Some m1 /\ jc_alloc cl = true /\ jc_iss cl = is_id i
    /\ jc_jti cl = vc_id (cr_contents v) /\ jc_aud cl = [] /\ jc_sub cl <> ""
    /\ jc_exp cl = o_date (vc_expired (cr_contents v)) /\ jc_nbf cl = o_date (vc_issued (cr_contents v)) /\ jc_iat cl = o_date (vc_issued (cr_contents v))
    /\ (forall k, ~ In k special -> mget m1 k = mget (cr_json v) k)
    /\ (if mi then (forall k, In k special -> k <> "issuer" -> mget m1 k = None) else m1 = cr_json v)
    /\ (NoDup (map fst (cr_json v)) -> NoDup (map fst m1))
    /\ exists m2, refine_issuer (Some m1) (is_id i) = Ok (Some m2) /\ (forall k, k <> "issuer" -> mget m2 k = mget m1 k)
         /\ parse_issuer (fld m2 "issuer") = Ok (Some i) /\ is_id i <> "".
Proof.
  intros H Hi. unfold new_jwt_claims in H. apply bind_ok in H as (sub & Hs & H).
  destruct (vc_issuer (cr_contents v)) as [i|]; [|discriminate]. apply bind_ok in H as (m1 & Hm & H). injection H as <-.
  cbn [jc_vc jc_alloc jc_iss jc_jti jc_aud jc_sub jc_exp jc_nbf jc_iat].
  assert (Hsub : sub <> "").
  { unfold subject_id in Hs. destruct (vc_subject (cr_contents v)) as [|s [|]]; try discriminate.
    destruct (String.eqb_spec (sj_id s) ""); [discriminate|]. now injection Hs as <-. }
  exists i, m1. repeat (split; [solve [auto]|]).
  destruct (parse_issuer_full _ _ Hi) as (Hne & Hfull). destruct mi.
  - unfold minimize in Hm. set (ks := ["expirationDate"; "issuanceDate"; "validUntil"; "validFrom"; "id"]) in Hm.
    assert (Hf : fld (copy_except (cr_json v) ks) "issuer" = fld (cr_json v) "issuer") by (unfold fld; now rewrite mget_copy_except).
    rewrite Hf, Hi in Hm. cbn [bind] in Hm.
    match type of Hm with Ok ?x = Ok ?y => assert (Em : y = x) by congruence end. subst m1. clear Hm.
    split; [|split; [|split]].
    + intros k Hk. rewrite mget_mset, mget_copy_except. destruct (String.eqb_spec k "issuer") as [->|]; [cbn in Hk; tauto|].
      destruct (str_in k ks) eqn:Es; [|reflexivity]. apply str_in_In in Es. exfalso. apply Hk. cbn in Es |- *. tauto.
    + intros k Hk Hn. rewrite mget_mset, mget_copy_except. destruct (String.eqb_spec k "issuer"); [contradiction|].
      assert (Es : str_in k ks = true) by (apply str_in_In; cbn in Hk |- *; intuition congruence). now rewrite Es.
    + intros Hnd. apply mset_nodup. unfold copy_except. clear - Hnd. revert Hnd. generalize (cr_json v). generalize ks.
      induction ks0 as [|x l IH]; cbn [fold_left]; intros g Hg; [assumption|]. apply IH. now apply mdel_nodup.
    + destruct (issuer_min (mset (copy_except (cr_json v) ks) "issuer" (issuer_json {| is_id := ""; is_custom := is_custom i |})) i) as (m2 & H1 & H2 & H3).
      * assumption.
      * eapply parse_issuer_custom, Hi.
      * now rewrite mget_mset.
      * exists m2. auto.
  - injection Hm as <-. split; [reflexivity|]. split; [reflexivity|]. split; [auto|]. destruct Hfull as (m2 & H1 & H2 & H3). exists m2. auto.
Qed.

Lemma sign_round T v mi cl : parse_contents T (cr_json v) false = Ok (cr_contents v) ->
  rfc_ok T (vc_issued (cr_contents v)) -> rfc_ok T (vc_expired (cr_contents v)) ->
  nonzero (vc_issued (cr_contents v)) -> nonzero (vc_expired (cr_contents v)) ->
  new_jwt_claims v mi = Ok cl ->
  exists m' c', refine T cl = Ok (Some m') /\ parse_contents T m' false = Ok c' /\ same_signed (cr_contents v) c'
    /\ forall k, ~ In k special -> mget m' k = mget (cr_json v) k.
Proof.
  intros Hc Hr1 Hr2 Hz1 Hz2 H. pose proof (parse_contents_fields _ _ _ Hc) as (F1 & F2 & F3 & F4 & F5 & F6 & F7 & F8 & F9 & F10 & F11 & F12 & F13 & F14).
  destruct (new_claims_vc _ _ _ H F3) as (i & m1 & Hi & Hv & Hal & His & Hjt & _ & _ & Hex & Hnb & Hia & Hoth & Hsp & _ & m2 & R1 & R2 & R3 & Hne).
  destruct (refine_fwd T cl m1 m2 Hal Hv) as (m' & Hm' & Hg).
  { rewrite His. destruct (String.eqb_spec (is_id i) ""); [contradiction|assumption]. }
  { assumption. }
  rewrite Hex, Hnb, Hia, Hjt in Hg.
  assert (Hff : first_of (o_date (vc_issued (cr_contents v))) (o_date (vc_issued (cr_contents v))) = o_date (vc_issued (cr_contents v)))
    by (now destruct (o_date (vc_issued (cr_contents v)))).
  rewrite Hff in Hg.
  assert (Ho : forall k, ~ In k special -> mget m' k = mget (cr_json v) k).
  { intros k Hk. rewrite Hg. rewrite <- Hoth by assumption. rewrite <- (R2 k) by (intros ->; apply Hk; cbn; tauto).
    assert (k <> until_name m1) by (intros ->; apply Hk; destruct (until_cases m1) as [->| ->]; cbn; tauto).
    assert (k <> from_name m1) by (intros ->; apply Hk; destruct (from_cases m1) as [->| ->]; cbn; tauto).
    repeat match goal with |- context [String.eqb k ?s] => destruct (String.eqb_spec k s); [subst k; exfalso; solve [tauto | apply Hk; cbn; tauto]|] end. reflexivity. }
  assert (Hof : forall k, ~ In k special -> fld m' k = fld (cr_json v) k) by (intros k Hk; unfold fld; now rewrite Ho).
  (* dates *)
  set (b := has_base_context m1 v2_context).
  assert (Hmin : forall k1 k2 t, (In k1 special /\ k1 <> "issuer") -> (In k2 special /\ k2 <> "issuer") ->
      (exists a, parse_time_fld T (cr_json v) k1 = Ok a /\ match a with None => parse_time_fld T (cr_json v) k2 | Some _ => Ok a end = Ok t) ->
      nonzero t -> rfc_ok T t -> k1 <> k2 ->
      (forall k, k = k1 \/ k = k2 -> mget m' k = if String.eqb k (if b then k2 else k1) then match o_date t with Some n => Some (JStr (te_rfc T n)) | None => mget m1 k end else mget m1 k) ->
      exists a b, parse_time_fld T m' k1 = Ok a /\ match a with None => parse_time_fld T m' k2 | Some _ => Ok a end = Ok b /\ same_opt same_second t b).
  { intros k1 k2 t [Hk1 Hk1'] [Hk2 Hk2'] Ht Hz Hr Hk12 Hm. destruct mi.
    - pose proof (Hm k1 (or_introl eq_refl)) as E1. pose proof (Hm k2 (or_intror eq_refl)) as E2.
      rewrite (Hsp k1), (Hsp k2) in * by assumption.
      assert (P : forall y, t = Some y -> exists w, parse_wrapper T (te_rfc T (unix (tw_time y))) = Ok w /\ unix (tw_time w) = unix (tw_time y)).
      { intros y Hy. destruct (Hr y Hy) as (x & Hx & Hu). unfold parse_wrapper. rewrite Hx. eexists. split; [reflexivity|assumption]. }
      assert (N : forall k, mget m' k = None -> parse_time_fld T m' k = Ok None) by (intros k E; unfold parse_time_fld, fld; now rewrite E).
      destruct t as [x|].
      + unfold o_date, numeric_date in E1, E2. rewrite (Hz x eq_refl) in E1, E2. destruct (P x eq_refl) as (w & Hw & Hu).
        assert (S : forall k, mget m' k = Some (JStr (te_rfc T (unix (tw_time x)))) -> parse_time_fld T m' k = Ok (Some w))
          by (intros k E; unfold parse_time_fld, fld; now rewrite E, Hw).
        destruct b.
        * rewrite String.eqb_refl in E2. destruct (String.eqb_spec k1 k2); [contradiction|]. exists None, (Some w).
          rewrite (N k1 E1), (S k2 E2). cbn. unfold same_second. auto.
        * rewrite String.eqb_refl in E1. exists (Some w), (Some w). rewrite (S k1 E1). cbn. unfold same_second. auto.
      + cbn [o_date] in E1, E2. exists None, None. rewrite (N k1), (N k2); [cbn; auto| |].
        * rewrite E2. now destruct (String.eqb k2 _).
        * rewrite E1. now destruct (String.eqb k1 _).
    - subst m1. eapply (date_round T (cr_json v) m' k1 k2 _ b t); eauto. }
  assert (U : until_name m1 = if b then "validUntil" else "expirationDate") by reflexivity.
  assert (Fn : from_name m1 = if b then "validFrom" else "issuanceDate") by reflexivity.
  destruct (Hmin "issuanceDate" "validFrom" (vc_issued (cr_contents v))) as (a1 & b1 & A1 & A2 & A3); try assumption; try discriminate.
  { split; [cbn; tauto|discriminate]. } { split; [cbn; tauto|discriminate]. }
  { intros k Hk. rewrite Hg, U, Fn. destruct Hk as [-> | ->]; destruct b; cbn [String.eqb Ascii.eqb Bool.eqb]; try (apply R2; discriminate); reflexivity. }
  destruct (Hmin "expirationDate" "validUntil" (vc_expired (cr_contents v))) as (a2 & b2 & B1 & B2 & B3); try assumption; try discriminate.
  { split; [cbn; tauto|discriminate]. } { split; [cbn; tauto|discriminate]. }
  { intros k Hk. rewrite Hg, U, Fn. destruct Hk as [-> | ->]; destruct b; cbn [String.eqb Ascii.eqb Bool.eqb]; try (apply R2; discriminate); reflexivity. }
  (* id *)
  assert (Hid : parse_string_fld m' "id" = Ok (vc_id (cr_contents v))).
  { assert (E : mget m' "id" = if String.eqb (vc_id (cr_contents v)) "" then mget m1 "id" else Some (JStr (vc_id (cr_contents v)))).
    { rewrite Hg, U, Fn. destruct b; reflexivity. }
    unfold parse_string_fld, fld. rewrite E. destruct (String.eqb_spec (vc_id (cr_contents v)) "") as [Ez|]; [|reflexivity].
    destruct mi; [rewrite (Hsp "id") by (cbn; try tauto; discriminate); now rewrite Ez|]. subst m1. exact F10. }
  (* issuer *)
  assert (Hiss : parse_issuer (fld m' "issuer") = Ok (Some i)).
  { rewrite <- R3. f_equal. unfold fld. rewrite Hg, U, Fn. destruct b; reflexivity. }
  assert (NS : forall k, str_in k special = false -> ~ In k special) by (intros k Hk; now apply str_in_nIn).
  exists m'. eexists. split; [assumption|]. split.
  - eapply parse_contents_intro; try rewrite Hof by (apply NS; reflexivity); try eassumption.
  - split; [|assumption]. unfold same_signed. cbn. rewrite Hi.
    assert (Hev : vc_evidence (cr_contents v) = fld m' "evidence") by (rewrite F14; symmetry; apply Hof, NS; reflexivity).
    auto 20.
Qed.

(** *** Parsing a token *)
(** [jws_text E tok j ms]: [tok] is a compact JWS (not JSON, no "~") that decodes to [j], whose payload text has members [ms] *)
Definition jws_text (E : venv) (tok : string) (j : jws) (ms : gomap json) : Prop :=
  split_on tilde tok = [tok] /\ ve_members E tok = None /\ is_jws (ve_obj E) tok = true
  /\ de_compact (ve_jwt E) tok = true /\ de_jws (ve_jwt E) tok None = Ok j /\ check_headers (jws_headers j) = Ok tt
  /\ ve_members E (jws_payload j) = Some ms.
Lemma b64_quote s : b64_decode (String quote_char s) = None.
Proof.
  unfold b64_decode. assert (Hs : strip_crlf (String quote_char s) = String quote_char (strip_crlf s)) by reflexivity.
  rewrite Hs. generalize (strip_crlf s) as t. intros t.
  destruct t as [|a [|b [|c t]]]; reflexivity.
Qed.
Lemma is_jws_unquoted f s : is_jws f s = true -> un_quote s = s.
Proof.
  destruct s as [|c s]; [reflexivity|]. unfold un_quote. destruct (Ascii.eqb_spec c quote_char) as [->|]; [|now rewrite andb_false_r].
  intros H. exfalso. unfold is_jws in H.
  assert (Hsp : exists p ps, split_on "." (String quote_char s) = String quote_char p :: ps).
  { cbn [split_on]. change (Ascii.eqb quote_char ".") with false. cbn match. destruct (split_on "." s) as [|p ps] eqn:E; [now apply split_on_nonempty in E|]. eauto. }
  destruct Hsp as (p & ps & Hsp). rewrite Hsp in H. destruct ps as [|b [|d [|]]]; try discriminate. unfold is_valid_json at 1 in H. now rewrite b64_quote in H.
Qed.
Lemma json_parser_jws E o tok j ms c m : jws_text E tok j ms -> unmarshal_claims ms = Ok c -> refine (ve_time E) c = Ok (Some m) ->
  json_parser E o tok =
    let* ct := parse_contents (ve_time E) m false in
    let* ps := parse_ld_proof (fld m "proof") in
    Ok (Some {| cr_json := m; cr_contents := ct; cr_proofs := ps; cr_jwt := Some (envelope tok (jws_headers j)); cr_cwt := None |}).
Proof.
  intros (Hs & Hm & Hi & Hco & Hj & Hh & Hp) Hc Hr. unfold json_parser, unwrap_string. rewrite Hm, (is_jws_unquoted _ _ Hi).
  unfold try_parse_jws. rewrite Hs. cbn [List.length Nat.ltb Nat.leb]. rewrite Hi. cbn [jv_jws jv_jwt jv_discs jv_sd jv_binding].
  unfold decode_cred_jwt, jwt_parse, parse_jwt, map_jws. rewrite Hco. cbn [guard bind]. rewrite Hj. cbn [bind]. rewrite Hh. cbn [bind].
  unfold claims_of. rewrite Hp, Hc. cbn [is_ok guard bind snd]. rewrite Hp, Hc. cbn [bind]. rewrite Hr. cbn [bind fst snd validate_disclosures tk_headers].
  destruct (parse_contents (ve_time E) m false) as [ct| |]; [|reflexivity..]. cbn [bind].
  destruct (parse_ld_proof (fld m "proof")) as [ps| |]; reflexivity.
Qed.
Lemma enveloped_not_json E o tok : ve_members E tok = None -> enveloped_parser E o tok = Ok None.
Proof. intros H. unfold enveloped_parser, parse_json. now rewrite H. Qed.
Lemma parse_credential_jws E o tok j ms c m ct ps i : jws_text E tok j ms -> unmarshal_claims ms = Ok c -> refine (ve_time E) c = Ok (Some m) ->
  parse_contents (ve_time E) m false = Ok ct -> parse_ld_proof (fld m "proof") = Ok ps -> vc_issuer ct = Some i ->
  (co_no_proof o = true \/ exists pc, co_jwt_check o = Some pc /\ pc (jws_headers j) (is_id i) (jws_input j) (jws_sig j) = Ok tt) ->
  (co_no_related o = true \/ ve_related E (vc_related ct) = Ok tt) ->
  parse_credential E o tok = Ok {| cr_json := m; cr_contents := ct; cr_proofs := ps; cr_jwt := Some (envelope tok (jws_headers j)); cr_cwt := None |}.
Proof.
  intros Ht Hc Hr Hct Hps Hi Hp Hrel. unfold parse_credential. cbn [try_parsers].
  pose proof Ht as (_ & Hm & _ & _ & Hj & _). unfold parse_with at 1. rewrite (enveloped_not_json _ _ _ Hm). cbn [bind].
  unfold parse_with at 1. rewrite (json_parser_jws E o tok j ms c m Ht Hc Hr), Hct, Hps. cbn [bind].
  set (v := {| cr_json := m; cr_contents := ct; cr_proofs := ps; cr_jwt := _; cr_cwt := None |}).
  assert (Hck : (if co_no_proof o then Ok v else check_cred_proof E o v) = Ok v).
  { destruct Hp as [->|(pc & Hpc & Hok)]; [reflexivity|]. destruct (co_no_proof o); [reflexivity|].
    unfold check_cred_proof, v. cbn [cr_contents cr_jwt]. rewrite Hi, Hpc. cbn [envelope je_jwt]. unfold check_proof. rewrite Hj. cbn [bind jose_verify].
    now rewrite Hok. }
  rewrite Hck. cbn [bind]. assert (Hrr : (if co_no_related o then Ok tt else ve_related E (vc_related (cr_contents v))) = Ok tt).
  { destruct Hrel as [->|H]; [reflexivity|]. cbn [v cr_contents]. rewrite H. now destruct (co_no_related o). }
  now rewrite Hrr.
Qed.

(** *** CWT *)
Definition hex_char (a : ascii) : bool :=
  let n := nat_of_ascii a in ((48 <=? n)%nat && (n <=? 57)%nat) || ((97 <=? n)%nat && (n <=? 102)%nat).
Fixpoint is_hex (s : string) : bool := match s with "" => true | String a s' => hex_char a && is_hex s' end.
Lemma hex_split sep s : hex_char sep = false -> is_hex s = true -> split_on sep s = [s].
Proof.
  intros Hs. induction s as [|a s IH]; [reflexivity|]. cbn [is_hex split_on]. intros H. apply andb_true_iff in H as [Ha H].
  destruct (Ascii.eqb_spec a sep) as [->|]; [congruence|]. now rewrite IH.
Qed.
Lemma hex_unquoted s : is_hex s = true -> un_quote s = s.
Proof.
  destruct s as [|a s]; [reflexivity|]. cbn [is_hex un_quote]. intros H. apply andb_true_iff in H as [Ha _].
  destruct (Ascii.eqb_spec a quote_char) as [->|]; [discriminate|]. now rewrite andb_false_r.
Qed.
Lemma json_parser_hex E o d : is_hex d = true -> ve_members E d = None -> json_parser E o d = Ok None.
Proof.
  intros Hh Hm. unfold json_parser, unwrap_string. rewrite Hm, hex_unquoted by assumption.
  unfold try_parse_jws. rewrite (hex_split tilde) by (try assumption; reflexivity). cbn [List.length Nat.ltb Nat.leb].
  unfold is_jws at 1. rewrite (hex_split ".") by (try assumption; reflexivity). cbn [jv_jws].
  unfold is_jwt_unsecured. rewrite (hex_split ".") by (try assumption; reflexivity). unfold parse_json. now rewrite Hm.
Qed.
