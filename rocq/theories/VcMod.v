(** Lemmas: modifications keep the JSON object and the contents in step. *)
From Coq Require Import Permutation.
From Verif Require Import GoBase StrLemmas JwtSpec DiSpec VcSpec JwtModel SdSpec SdModel VcModel VcProofs VcView.

Lemma fld_upd m k o k' : fld (upd_json (mdel m "proof") k o) k' =
  if String.eqb k' k then match o with Some j => norm (Some j) | None => None end
  else if String.eqb k' "proof" then None else fld m k'.
Proof.
  rewrite !fld_norm. destruct o; cbn [upd_json].
  - rewrite mget_mset. destruct (String.eqb_spec k' k); [reflexivity|]. rewrite mget_mdel.
    now destruct (String.eqb k' "proof").
  - rewrite mget_mdel. destruct (String.eqb_spec k' k); [reflexivity|]. rewrite mget_mdel.
    now destruct (String.eqb k' "proof").
Qed.
Lemma same_opt_refl {A} (R : A -> A -> Prop) o : (forall x, R x x) -> same_opt R o o.
Proof. intros H. destruct o; cbn; auto. Qed.
Lemma same_time_refl E t : same_time E t t.
Proof. split; reflexivity. Qed.

(** what parse_contents needs of the sixteen members *)
Lemma parse_contents_parts E m sd c : parse_contents E m sd = Ok c ->
  parse_typed_id (fld m "credentialSchema") = Ok (vc_schemas c) /\ decode_type (fld m "type") = Ok (vc_types c)
  /\ parse_issuer (fld m "issuer") = Ok (vc_issuer c)
  /\ decode_context (fld m "@context") = Ok (vc_context c, vc_custom_ctx c)
  /\ parse_typed_id (fld m "termsOfUse") = Ok (vc_terms c) /\ parse_refresh (fld m "refreshService") = Ok (vc_refresh c)
  /\ parse_related E (fld m "relatedResource") = Ok (vc_related c)
  /\ parse_subject (fld m "credentialSubject") = Ok (vc_subject c) /\ parse_sd_alg m (vc_subject c) sd = Ok (vc_sdalg c)
  /\ parse_string_fld m "id" = Ok (vc_id c)
  /\ (let* t := parse_time_fld E m "issuanceDate" in match t with None => parse_time_fld E m "validFrom" | Some _ => Ok t end)
     = Ok (vc_issued c)
  /\ (let* t := parse_time_fld E m "expirationDate" in match t with None => parse_time_fld E m "validUntil" | Some _ => Ok t end)
     = Ok (vc_expired c)
  /\ new_typed_array (fld m "credentialStatus") = Ok (vc_status c) /\ fld m "evidence" = vc_evidence c.
Proof.
  unfold parse_contents. intros H.
  apply bind_ok in H as (schemas & Hsch & H). apply bind_ok in H as (types & Hty & H).
  apply bind_ok in H as (iss & Hiss & H). apply bind_ok in H as ([c1 c2] & Hctx & H).
  apply bind_ok in H as (terms & Hterms & H). apply bind_ok in H as (refr & Hrefr & H).
  apply bind_ok in H as (rel & Hrel & H). apply bind_ok in H as (subs & Hsubs & H).
  apply bind_ok in H as (alg & Halg & H). apply bind_ok in H as (id & Hid & H).
  apply bind_ok in H as (i0 & Hi0 & H). apply bind_ok in H as (i1 & Hi1 & H).
  apply bind_ok in H as (e0 & He0 & H). apply bind_ok in H as (e1 & He1 & H).
  apply bind_ok in H as (sts & Hsts & H). injection H as <-. cbn.
  rewrite Hi0, He0. cbn [bind]. repeat split; assumption.
Qed.
Lemma parts_parse_contents E m sd c :
  parse_typed_id (fld m "credentialSchema") = Ok (vc_schemas c) -> decode_type (fld m "type") = Ok (vc_types c) ->
  parse_issuer (fld m "issuer") = Ok (vc_issuer c) ->
  decode_context (fld m "@context") = Ok (vc_context c, vc_custom_ctx c) ->
  parse_typed_id (fld m "termsOfUse") = Ok (vc_terms c) -> parse_refresh (fld m "refreshService") = Ok (vc_refresh c) ->
  parse_related E (fld m "relatedResource") = Ok (vc_related c) ->
  parse_subject (fld m "credentialSubject") = Ok (vc_subject c) -> parse_sd_alg m (vc_subject c) sd = Ok (vc_sdalg c) ->
  parse_string_fld m "id" = Ok (vc_id c) ->
  (let* t := parse_time_fld E m "issuanceDate" in match t with None => parse_time_fld E m "validFrom" | Some _ => Ok t end)
     = Ok (vc_issued c) ->
  (let* t := parse_time_fld E m "expirationDate" in match t with None => parse_time_fld E m "validUntil" | Some _ => Ok t end)
     = Ok (vc_expired c) ->
  new_typed_array (fld m "credentialStatus") = Ok (vc_status c) -> fld m "evidence" = vc_evidence c ->
  parse_contents E m sd = Ok c.
Proof.
  intros H1 H2 H3 H4 H5 H6 H7 H8 H9 H10 H11 H12 H13 H14. unfold parse_contents.
  rewrite H1, H2, H3, H4, H5, H6, H7, H8. cbn [bind fst snd]. rewrite H9, H10. cbn [bind].
  apply bind_ok in H11 as (i0 & Hi0 & H11). rewrite Hi0. cbn [bind]. rewrite H11. cbn [bind].
  apply bind_ok in H12 as (e0 & He0 & H12). rewrite He0. cbn [bind]. rewrite H12. cbn [bind].
  rewrite H13. cbn [bind]. rewrite H14. now destruct c.
Qed.
Lemma string_fld_ext m m' k : fld m' k = fld m k -> parse_string_fld m' k = parse_string_fld m k.
Proof. unfold parse_string_fld. now intros ->. Qed.
Lemma time_fld_ext E m m' k : fld m' k = fld m k -> parse_time_fld E m' k = parse_time_fld E m k.
Proof. unfold parse_time_fld. now intros ->. Qed.
Lemma sd_alg_ext m m' s sd : fld m' "_sd_alg" = fld m "_sd_alg" -> parse_sd_alg m' s sd = parse_sd_alg m s sd.
Proof. unfold parse_sd_alg, parse_string_fld. now intros ->. Qed.

(** [m'] differs from [m] at [k] only (among the data model members) *)
Definition differs_at (k : string) (m m' : gomap json) : Prop :=
  forall k', k' <> k -> k' <> "proof" -> fld m' k' = fld m k'.
Ltac reparse Hd :=
  match goal with H : parse_contents _ _ _ = Ok _ |- _ =>
    apply parse_contents_parts in H as (P1 & P2 & P3 & P4 & P5 & P6 & P7 & P8 & P9 & P10 & P11 & P12 & P13 & P14)
  end;
  apply parts_parse_contents; cbn [vc_context vc_custom_ctx vc_id vc_types vc_subject vc_issuer vc_issued vc_expired
    vc_status vc_schemas vc_evidence vc_terms vc_refresh vc_sdalg vc_related
    set_id set_issued set_expired set_context set_status set_refresh set_issuer set_subject];
  try (rewrite ?(Hd "credentialSchema"), ?(Hd "type"), ?(Hd "issuer"), ?(Hd "@context"), ?(Hd "termsOfUse"),
    ?(Hd "refreshService"), ?(Hd "relatedResource"), ?(Hd "credentialSubject"), ?(Hd "credentialStatus"),
    ?(Hd "evidence") by discriminate; assumption);
  try (rewrite (sd_alg_ext _ _ _ _ (Hd "_sd_alg" ltac:(discriminate) ltac:(discriminate))); assumption);
  try (rewrite (string_fld_ext _ _ _ (Hd "id" ltac:(discriminate) ltac:(discriminate))); assumption);
  try (rewrite (time_fld_ext _ _ _ _ (Hd "issuanceDate" ltac:(discriminate) ltac:(discriminate))),
         (time_fld_ext _ _ _ _ (Hd "validFrom" ltac:(discriminate) ltac:(discriminate))); assumption);
  try (rewrite (time_fld_ext _ _ _ _ (Hd "expirationDate" ltac:(discriminate) ltac:(discriminate))),
         (time_fld_ext _ _ _ _ (Hd "validUntil" ltac:(discriminate) ltac:(discriminate))); assumption).

Lemma upd_differs m k o : differs_at k m (upd_json (mdel m "proof") k o).
Proof.
  intros k' Hk Hp. rewrite fld_upd. destruct (String.eqb_spec k' k); [contradiction|].
  destruct (String.eqb_spec k' "proof"); [contradiction|reflexivity].
Qed.
Lemma upd_at m k o : fld (upd_json (mdel m "proof") k o) k = norm o.
Proof. rewrite fld_upd, String.eqb_refl. now destruct o. Qed.

Section Re.
Variables (E : tenv) (m : gomap json) (sd : bool) (c : contents).
Hypothesis H : parse_contents E m sd = Ok c.
Lemma re_id s : parse_contents E (upd_json (mdel m "proof") "id" (if String.eqb s "" then None else Some (JStr s))) sd = Ok (set_id c s).
Proof.
  pose proof (upd_differs m "id" (if String.eqb s "" then None else Some (JStr s))) as Hd. revert H; intros H'.
  reparse Hd. unfold parse_string_fld. rewrite upd_at. destruct (String.eqb_spec s "") as [Hs|Hs]; [now rewrite Hs|reflexivity].
Qed.
Lemma re_context l : (l <> [] \/ vc_custom_ctx c <> []) -> (forall j r, vc_custom_ctx c = j :: r -> ~ is_string j) ->
  parse_contents E (upd_json (mdel m "proof") "@context"
     (nonempty (context_json l (vc_custom_ctx c)) (JArr (context_json l (vc_custom_ctx c))))) sd = Ok (set_context c l).
Proof.
  intros H1 H2.
  pose proof (upd_differs m "@context" (nonempty (context_json l (vc_custom_ctx c)) (JArr (context_json l (vc_custom_ctx c))))) as Hd.
  revert H; intros H'. reparse Hd. rewrite upd_at, norm_nonempty by discriminate. now apply context_round.
Qed.
Lemma re_status l : (forall t, In t l -> no_key "id" (ti_custom t) /\ no_key "type" (ti_custom t)) ->
  parse_contents E (upd_json (mdel m "proof") "credentialStatus" (nonempty l (typed_ids_json l))) sd = Ok (set_status c l).
Proof.
  intros H1. pose proof (upd_differs m "credentialStatus" (nonempty l (typed_ids_json l))) as Hd.
  revert H; intros H'. reparse Hd. rewrite upd_at, norm_nonempty by (destruct l as [|? [|]]; discriminate).
  now apply typed_array_round.
Qed.
Lemma re_refresh r : (forall t, r = Some t -> no_key "id" (ti_custom t) /\ no_key "type" (ti_custom t)) ->
  parse_contents E (upd_json (mdel m "proof") "refreshService" (option_map (fun t => JObj (typed_obj t)) r)) sd = Ok (set_refresh c r).
Proof.
  intros H1. pose proof (upd_differs m "refreshService" (option_map (fun t => JObj (typed_obj t)) r)) as Hd.
  revert H; intros H'. reparse Hd. rewrite upd_at, (norm_map (fun t => JObj (typed_obj t))) by discriminate.
  now apply refresh_round.
Qed.
Lemma re_issuer i : (forall x, i = Some x -> is_id x <> "" /\ no_key "id" (is_custom x)) ->
  parse_contents E (upd_json (mdel m "proof") "issuer" (option_map issuer_json i)) sd = Ok (set_issuer c i).
Proof.
  intros H1. pose proof (upd_differs m "issuer" (option_map issuer_json i)) as Hd.
  revert H; intros H'. reparse Hd. rewrite upd_at.
  rewrite norm_map by (intros x; unfold issuer_json; destruct (is_custom x); discriminate).
  destruct i as [x|]; [|reflexivity]. destruct (H1 x eq_refl). now apply issuer_round.
Qed.
Lemma re_subject l : sd = false -> (forall s, In s l -> no_key "id" (sj_custom s)) ->
  parse_contents E (upd_json (mdel m "proof") "credentialSubject" (nonempty l (subjects_json l))) sd = Ok (set_subject c l).
Proof.
  intros Hsd H1. pose proof (upd_differs m "credentialSubject" (nonempty l (subjects_json l))) as Hd.
  revert H; intros H'. reparse Hd.
  - rewrite upd_at, norm_nonempty by (destruct l as [|? [|]]; discriminate). now apply subjects_round.
  - rewrite Hsd in *. exact P9.
Qed.
Lemma time_here k t m' : fld m' k = Some (JStr (format_time E t)) -> good_time E t ->
  parse_time_fld E m' k = Ok (Some {| tw_time := tw_time t; tw_str := tw_text E t |}).
Proof.
  intros Hf Hg. unfold parse_time_fld. rewrite Hf. unfold good_time in Hg.
  assert (Hx : format_time E t = tw_text E t).
  { unfold format_time, tw_text. now destruct (String.eqb (tw_str t) ""). }
  rewrite Hx. unfold parse_wrapper. now rewrite Hg.
Qed.
Lemma text_same t : same_time E {| tw_time := tw_time t; tw_str := tw_text E t |} t.
Proof.
  split; [reflexivity|]. unfold tw_text at 1. cbn [tw_str tw_time].
  destruct (String.eqb_spec (tw_text E t) ""); [|reflexivity].
  unfold tw_text in *. destruct (String.eqb_spec (tw_str t) ""); [reflexivity|contradiction].
Qed.
Definition seen_time (t : twrap) : twrap := {| tw_time := tw_time t; tw_str := tw_text E t |}.
Lemma re_issued t : good_time E t ->
  parse_contents E (upd_json (mdel m "proof") "issuanceDate" (Some (JStr (format_time E t)))) sd
  = Ok (set_issued c (seen_time t)).
Proof.
  intros Hg. pose proof (upd_differs m "issuanceDate" (Some (JStr (format_time E t)))) as Hd.
  revert H; intros H'. reparse Hd. rewrite (time_here _ t); [reflexivity| |assumption].
  now rewrite upd_at.
Qed.
Lemma re_expired t : good_time E t ->
  parse_contents E (upd_json (mdel m "proof") "expirationDate" (Some (JStr (format_time E t)))) sd
  = Ok (set_expired c (seen_time t)).
Proof.
  intros Hg. pose proof (upd_differs m "expirationDate" (Some (JStr (format_time E t)))) as Hd.
  revert H; intros H'. reparse Hd. rewrite (time_here _ t); [reflexivity| |assumption].
  now rewrite upd_at.
Qed.
Lemma re_from t : good_time E t -> absent m "issuanceDate" ->
  parse_contents E (upd_json (mdel m "proof") "validFrom" (Some (JStr (format_time E t)))) sd
  = Ok (set_issued c (seen_time t)).
Proof.
  intros Hg Ha. apply fld_None in Ha. pose proof (upd_differs m "validFrom" (Some (JStr (format_time E t)))) as Hd.
  revert H; intros H'. reparse Hd.
  rewrite (time_fld_ext _ m) by (apply Hd; discriminate). unfold parse_time_fld at 1. rewrite Ha. cbn [bind].
  apply time_here; [now rewrite upd_at|assumption].
Qed.
Lemma re_until t : good_time E t -> absent m "expirationDate" ->
  parse_contents E (upd_json (mdel m "proof") "validUntil" (Some (JStr (format_time E t)))) sd
  = Ok (set_expired c (seen_time t)).
Proof.
  intros Hg Ha. apply fld_None in Ha. pose proof (upd_differs m "validUntil" (Some (JStr (format_time E t)))) as Hd.
  revert H; intros H'. reparse Hd.
  rewrite (time_fld_ext _ m) by (apply Hd; discriminate). unfold parse_time_fld at 1. rewrite Ha. cbn [bind].
  apply time_here; [now rewrite upd_at|assumption].
Qed.
End Re.
Lemma same_contents_refl E c : same_contents E c c.
Proof. unfold same_contents. repeat split; try reflexivity; apply same_opt_refl, same_time_refl. Qed.
