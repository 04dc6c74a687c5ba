(** The wallet side of presentation exchange: properties C253 to C262. *)
From Verif Require Import GoBase JwtModel StatusModel StatusProofs PexSpec ReqSpec ReqModel ReqSearch PexModel PexProofs PexMerge PexMatch VcSpec VcModel VcView PxSpec PxModel PxProps
  WmModel WmSpec WmProofs WmProofs2 WmProofs3 WmProofs4 WmProofs5 WmLink WmProps.

(** ** C253 (refuted): every credential that MatchSubmissionRequirement lists can be submitted.  Without selective disclosure it also lists credentials
    that cannot be limited although the descriptor requires it: CreateVP leaves them out. *)
Definition toy_strict (w : wcons) (c : cred) : res (limited cred) := if cs_limit (wc_base w) then Ok LDrop else Ok (LSame (c_id c)).
Notation run limit load type_ids := (match_submission cred (fun c => c) (wcred "" "") (fun _ => Ok tt) (fun _ c => Ok c) limit c_id string load type_ids toy_jp (fun _ _ => true) (fun _ => None) []).
Notation data limit load type_ids := (presentation_data (fun _ => Ok tt) (fun _ c => Ok c) limit string load type_ids toy_jp (fun _ _ => true) (fun _ => None) []).
Notation any_load := (fun s : string => Ok s).
Notation any_ids := (fun c t : string => Some [c ++ t]).
Definition one_desc (d : wdesc) : wdef := {| wp_id := "PD"; wp_format := None; wp_frame := None; wp_reqs := []; wp_descs := [d] |}.
Theorem C253_listed_but_not_submitted_refuted : exists pd wallet ts m,
  run toy_strict any_load any_ids pd false wallet = Ok (wallet, ts) /\ listed_in ts m /\ md_vcs m = [0%nat] /\
  data toy_strict any_load any_ids pd false "ldp_vp" wallet = Err "credentials do not satisfy requirements".
Proof.
  exists (one_desc (toy_desc "1" [] true "$.degree")), [wcred "u" "degree"]. eexists. eexists. split; [vm_compute; reflexivity|].
  split; [eexists; split; [left; reflexivity|]; apply li_here; left; reflexivity|]. split; [reflexivity|]. vm_compute. reflexivity.
Qed.
(** which credentials the library leaves out like that *)
Theorem C253_left_out : forall jp ord E D txt disclose limit_sd nonce uuid o shown w v,
  vc_limit jp ord E D txt disclose limit_sd nonce uuid o shown w v = Ok LDrop <->
  cs_limit (wc_base w) = true /\ (forall f, In f (cl_fields (limits_of w)) -> cf_pred f = false) /\ ~ PxSpec.sd_jwt v /\ ~ PxSpec.bbs_signed v /\ ~ subject_issued v.
Proof. intros. apply vc_limit_drop. Qed.

(** ** C254 (refuted): a bigger wallet matches at least as much.  The claim format is chosen before the schemas and constraints are looked at. *)
Definition with_proof (t : string) (c : cred) : cred :=
  {| c_id := c_id c; c_issuer := c_issuer c; c_subject_ids := c_subject_ids c; c_proof_types := [Some (JStr t)]; c_jwt := c_jwt c; c_alg := c_alg c;
     c_contexts := c_contexts c; c_types := c_types c; c_src := c_src c |}.
Definition two_formats : wformat :=
  {| wf_six := {| f_ldp := Some ["P1"]; f_ldp_vc := Some ["P2"]; f_ldp_vp := None; f_jwt := None; f_jwt_vc := None; f_jwt_vp := None |}; wf_cwt := false |}.
Theorem C254_more_credentials_fewer_matches_refuted : exists pd c extra ts ts' m m',
  run toy_limit any_load any_ids pd false [c] = Ok ([c], ts) /\ run toy_limit any_load any_ids pd false [c; extra] = Ok ([c; extra], ts') /\
  listed_in ts m /\ md_vcs m = [0%nat] /\ listed_in ts' m' /\ md_id m' = md_id m /\ md_vcs m' = [] /\
  is_ok (data toy_limit any_load any_ids pd false "ldp_vp" [c]) = true /\ is_ok (data toy_limit any_load any_ids pd false "ldp_vp" [c; extra]) = false.
Proof.
  exists {| wp_id := "PD"; wp_format := Some two_formats; wp_frame := None; wp_reqs := []; wp_descs := [toy_desc "1" [] false "$.degree"] |},
    (with_proof "P2" (wcred "u" "degree")), (with_proof "P1" (wcred "v" "license")).
  do 4 eexists. split; [vm_compute; reflexivity|]. split; [vm_compute; reflexivity|].
  split; [eexists; split; [left; reflexivity|]; apply li_here; left; reflexivity|]. split; [reflexivity|].
  split; [eexists; split; [left; reflexivity|]; apply li_here; left; reflexivity|]. split; [reflexivity|]. split; [reflexivity|]. split; vm_compute; reflexivity.
Qed.

(** ** C255: without claim formats, whether a credential matches a descriptor depends on that credential only. *)
Definition fits ctx load type_ids jp_parse validate rfc3339 order (d : wdesc) (c : cred) : Prop :=
  (forall s, wd_schema d = Some s -> schemas_ok ctx load type_ids s c) /\
  (forall w, wd_cons d = Some w -> holds jp_parse validate rfc3339 order w c).
Lemma selects_and {B} (P Q : B -> Prop) : forall l l1 l2, selects P l l1 -> selects Q l1 l2 -> selects (fun b => P b /\ Q b) l l2.
Proof.
  induction l as [|x l IH]; intros l1 l2 H1 H2; inversion H1; subst; [inversion H2; subst; constructor| |].
  - inversion H2; subst; [apply sel_yes; eauto|apply sel_no; [tauto|eauto]].
  - apply sel_no; [tauto|eauto].
Qed.
Lemma selects_all {B} (P : B -> Prop) l : (forall b, P b) -> selects P l l.
Proof. intros H. induction l; constructor; auto. Qed.
Lemma selects_iff {B} (P Q : B -> Prop) l l' : (forall b, P b <-> Q b) -> selects P l l' -> selects Q l l'.
Proof. intros H. induction 1; [constructor|apply sel_yes; [now apply H|assumption]|apply sel_no; [now rewrite <- H|assumption]]. Qed.
Theorem C255_one_by_one : forall B (look : B -> cred) ctx load type_ids jp_parse validate rfc3339 order pd d l fmt l',
  formats_of pd d None -> matching ctx load type_ids jp_parse validate rfc3339 order look pd d l fmt l' ->
  fmt = "" /\ selects (fun b => fits ctx load type_ids jp_parse validate rfc3339 order d (look b)) l l'.
Proof.
  intros B look ctx load type_ids jp_parse validate rfc3339 order pd d l fmt l' Hf (l1 & l2 & H1 & H2 & H3).
  assert (E : fmt = "" /\ l1 = l). { destruct H1 as [(_ & E1 & E2)|(f & Hf' & _)]; [now split|]. now apply (formats_of_det pd d _ _ Hf) in Hf'. }
  destruct E as [-> ->]. split; [reflexivity|]. unfold fits.
  eapply (selects_iff (fun b => (forall s, wd_schema d = Some s -> schemas_ok ctx load type_ids s (look b)) /\ (forall w, wd_cons d = Some w -> holds jp_parse validate rfc3339 order w (look b)))); [tauto|].
  eapply selects_and with (l1 := l2).
  - destruct (wd_schema d) as [s|]; [|subst l2; apply selects_all; discriminate]. eapply selects_iff; [|exact H2]. cbv beta. intros b. split; [intros Hb s' [= <-]; exact Hb|auto].
  - destruct (wd_cons d) as [w|]; [|subst l'; apply selects_all; discriminate]. eapply selects_iff; [|exact H3]. cbv beta. intros b. split; [intros Hb w' [= <-]; exact Hb|auto].
Qed.
Lemma selects_app_inv {B} (P : B -> Prop) : forall l1 l2 l', selects P (l1 ++ l2)%list l' -> exists r1 r2, l' = (r1 ++ r2)%list /\ selects P l1 r1 /\ selects P l2 r2.
Proof.
  induction l1 as [|x l1 IH]; cbn [app]; intros l2 l' H; [exists [], l'; repeat split; [constructor|assumption]|].
  inversion H as [|? ? t Hp Ht|? ? t Hp Ht]; subst; apply IH in Ht as (r1 & r2 & -> & A & C); [exists (x :: r1), r2|exists r1, r2]; repeat split; try assumption; [now apply sel_yes|now apply sel_no].
Qed.
(** so adding credentials to the wallet adds matches and takes none away *)
Theorem C255_bigger_wallet : forall B (look : B -> cred) ctx load type_ids jp_parse validate rfc3339 order pd d l more fmt fmt' l' l'',
  formats_of pd d None -> matching ctx load type_ids jp_parse validate rfc3339 order look pd d l fmt l' ->
  matching ctx load type_ids jp_parse validate rfc3339 order look pd d (l ++ more)%list fmt' l'' -> exists r, l'' = (l' ++ r)%list.
Proof.
  intros B look ctx load type_ids jp_parse validate rfc3339 order pd d l more fmt fmt' l' l'' Hf H1 H2.
  apply C255_one_by_one in H1 as [_ H1]; [|assumption]. apply C255_one_by_one in H2 as [_ H2]; [|assumption].
  apply selects_app_inv in H2 as (r1 & r2 & -> & H2 & _). exists r2. f_equal. clear - H1 H2. revert r1 H2.
  induction H1 as [|x l l' Hp H IH|x l l' Hp H IH]; intros r1 H2; inversion H2; subst; try contradiction; [reflexivity|f_equal; auto|auto].
Qed.
Example C255_example : formats_of toy_pd (toy_desc "1" ["A"] false "$.degree") None /\
  matching string any_load any_ids toy_jp (fun _ _ => true) (fun _ => None) [] (fun c => c) toy_pd (toy_desc "1" ["A"] false "$.degree") toy_wallet "" [wcred "u" "degree"; wcred "w" "degree"].
Proof.
  split; [apply fo_none; intros t (w & Hw & _); discriminate Hw|].
  assert (Hp : plain_cons (wd_cons (toy_desc "1" ["A"] false "$.degree"))) by (split; [constructor; [split; [discriminate|exact I]|constructor]|discriminate]).
  exact (that_match_spec cred (fun c => c) string any_load any_ids toy_jp (fun _ _ => true) (fun _ => None) [] toy_pd (toy_desc "1" ["A"] false "$.degree") toy_wallet Hp).
Qed.

(** ** C256 (refuted): a credential that does not match does no harm.  When a descriptor has schemas, one credential with a context that cannot be loaded makes the whole
    query fail. *)
Definition with_ctx (l : list string) (c : cred) : cred :=
  {| c_id := c_id c; c_issuer := c_issuer c; c_subject_ids := c_subject_ids c; c_proof_types := c_proof_types c; c_jwt := c_jwt c; c_alg := c_alg c;
     c_contexts := l; c_types := c_types c; c_src := c_src c |}.
Definition schema_desc (s : list schema) : wdesc :=
  {| wd_id := "1"; wd_group := []; wd_name := ""; wd_purpose := ""; wd_schema := Some s; wd_cons := None; wd_format := None |}.
Definition some_load (s : string) : res string := if String.eqb s "bad" then Err "load" else Ok s.
Theorem C256_one_bad_credential_refuted : exists pd c bad ts m,
  run toy_limit some_load any_ids pd false [c] = Ok ([c], ts) /\ listed_in ts m /\ md_vcs m = [0%nat] /\
  run toy_limit some_load any_ids pd false [c; bad] = Err "load" /\ data toy_limit some_load any_ids pd false "ldp_vp" [c; bad] = Err "load".
Proof.
  exists (one_desc (schema_desc [{| sc_uri := v1_context ++ "VerifiableCredential"; sc_required := true |}])), (wcred "u" "degree"), (with_ctx [v1_context; "bad"] (wcred "v" "degree")).
  do 2 eexists. split; [vm_compute; reflexivity|]. split; [eexists; split; [left; reflexivity|]; apply li_here; left; reflexivity|]. split; [reflexivity|].
  split; vm_compute; reflexivity.
Qed.

(** ** C257 (refuted): asking what matches leaves the wallet as it is.  With selective disclosure, limiting an SD-JWT credential changes the wallet's own credential (it keeps
    only the disclosures asked for), so a second descriptor, or a second query, no longer finds the rest. *)
Definition sd_cred (members : list string) : cred :=
  {| c_id := "sd"; c_issuer := None; c_subject_ids := []; c_proof_types := []; c_jwt := true; c_alg := Some "EdDSA"; c_contexts := [v1_context]; c_types := ["VerifiableCredential"];
     c_src := Some (("id", JStr "sd") :: map (fun k => (k, JStr "x")) members) |}.
(** limiting keeps the members the fields ask for *)
Definition toy_sd (w : wcons) (c : cred) : res (limited cred) :=
  if cs_limit (wc_base w) then
    Ok (LChange (c_id c) (sd_cred (filter (fun k => existsb (fun f => str_in ("$." ++ k) (fd_paths f)) (cs_fields (wc_base w)))
                                          (match c_src c with Some m => map fst m | None => [] end))))
  else Ok (LSame (c_id c)).
Definition sd_pd (l : list wdesc) : wdef := {| wp_id := "PD"; wp_format := None; wp_frame := None; wp_reqs := []; wp_descs := l |}.
Theorem C257_query_changes_the_wallet_refuted : exists d1 d2 v h ts m,
  run toy_sd any_load any_ids (sd_pd [d1; d2]) true [v] = Ok (h, ts) /\ h <> [v] /\
  (* descriptor 2 is listed without a credential *)
  listed_in ts m /\ md_id m = wd_id d2 /\ md_vcs m = [] /\
  (* although it matches, alone or before the first query *)
  (exists h' ts' m', run toy_sd any_load any_ids (sd_pd [d2]) true [v] = Ok (h', ts') /\ listed_in ts' m' /\ md_id m' = wd_id d2 /\ md_vcs m' = [0%nat]) /\
  (exists ts' m', run toy_sd any_load any_ids (sd_pd [d1; d2]) false [v] = Ok ([v], ts') /\ listed_in ts' m' /\ md_id m' = wd_id d2 /\ md_vcs m' = [0%nat]) /\
  (exists ts' m', run toy_sd any_load any_ids (sd_pd [d1; d2]) false h = Ok (h, ts') /\ listed_in ts' m' /\ md_id m' = wd_id d2 /\ md_vcs m' = []).
Proof.
  exists (toy_desc "1" [] true "$.degree"), (toy_desc "2" [] true "$.license"), (sd_cred ["degree"; "license"]). do 3 eexists. split; [vm_compute; reflexivity|]. split; [discriminate|].
  split; [eexists; split; [left; reflexivity|]; apply li_here; right; left; reflexivity|]. split; [reflexivity|]. split; [reflexivity|]. split; [|split].
  - do 3 eexists. split; [vm_compute; reflexivity|]. split; [eexists; split; [left; reflexivity|]; apply li_here; left; reflexivity|]. split; reflexivity.
  - do 2 eexists. split; [vm_compute; reflexivity|]. split; [eexists; split; [left; reflexivity|]; apply li_here; right; left; reflexivity|]. split; reflexivity.
  - do 2 eexists. split; [vm_compute; reflexivity|]. split; [eexists; split; [left; reflexivity|]; apply li_here; right; left; reflexivity|]. split; reflexivity.
Qed.
(** when the library changes a credential like that *)
Theorem C257_changed_in_place : forall jp ord E D txt disclose limit_sd nonce uuid o shown w v id b,
  vc_limit jp ord E D txt disclose limit_sd nonce uuid o shown w v = Ok (LChange id b) ->
  PxSpec.sd_jwt v /\ cs_limit (wc_base w) = true /\ id = vc_id (cr_contents v) /\ exists m, limit_sd (limits_of w) m v = Ok b.
Proof. intros. eapply vc_limit_change. eassumption. Qed.

(** ** C258 (refuted): what a definition asks for is asked for.  is_holder constraints are accepted and have no effect. *)
Definition with_holder (l : list (list string * bool)) (d : wdesc) : wdesc :=
  {| wd_id := wd_id d; wd_group := wd_group d; wd_name := wd_name d; wd_purpose := wd_purpose d; wd_schema := wd_schema d;
     wd_cons := option_map (fun w => {| wc_holder := l; wc_base := wc_base w; wc_preds := wc_preds w |}) (wd_cons d); wd_format := wd_format d |}.
Theorem C258_is_holder_has_no_effect_refuted : forall B (look : B -> cred) ctx load type_ids jp_parse validate rfc3339 order pd d l r, plain_cons (wd_cons d) ->
  that_match B look ctx load type_ids jp_parse validate rfc3339 order pd d l = r ->
  forall holders, that_match B look ctx load type_ids jp_parse validate rfc3339 order pd (with_holder holders d) l = r.
Proof. intros B look ctx load type_ids jp_parse validate rfc3339 order pd d l r _ <- holders. unfold that_match, with_holder. cbn [wd_format wd_schema wd_cons]. destruct (wd_cons d); reflexivity. Qed.
Example C258_example : exists ts m,
  run toy_limit any_load any_ids (one_desc (with_holder [(["f"], true)] (toy_desc "1" [] false "$.degree"))) false [wcred "u" "degree"] = Ok ([wcred "u" "degree"], ts)
  /\ listed_in ts m /\ md_vcs m = [0%nat].
Proof. do 2 eexists. split; [vm_compute; reflexivity|]. split; [eexists; split; [left; reflexivity|]; apply li_here; left; reflexivity|]. reflexivity. Qed.

(** ** C259 (refuted): an empty list of schemas is no restriction.  It is one nothing satisfies. *)
Theorem C259_empty_schema_list_refuted : forall B (look : B -> cred) ctx load type_ids jp_parse validate rfc3339 order pd d l fmt l',
  wd_schema d = Some [] -> matching ctx load type_ids jp_parse validate rfc3339 order look pd d l fmt l' -> l' = [].
Proof.
  intros B look ctx load type_ids jp_parse validate rfc3339 order pd d l fmt l' Hs (l1 & l2 & _ & H2 & H3). rewrite Hs in H2.
  assert (l2 = []).
  { clear - H2. induction H2 as [|x l l' Hp H IH|x l l' Hp H IH]; [reflexivity| |assumption]. destruct Hp as [_ (s & [] & _)]. }
  subst l2. destruct (wd_cons d); [|assumption]. now inversion H3.
Qed.
Example C259_example : exists ts m, run toy_limit any_load any_ids (one_desc (schema_desc [])) false [wcred "u" "degree"] = Ok ([wcred "u" "degree"], ts)
  /\ listed_in ts m /\ md_vcs m = [].
Proof. do 2 eexists. split; [vm_compute; reflexivity|]. split; [eexists; split; [left; reflexivity|]; apply li_here; left; reflexivity|]. reflexivity. Qed.

(** ** C260: what CreateVP and CreateVPArray make of the selected credentials *)
Definition base_of (b : string) (c : cred) : Prop := (b = v1_context \/ b = v2_context) /\ exists l, c_contexts c = b :: l.
Lemma base_iff b c : get_base_context (c_contexts c) = Ok b <-> base_of b c.
Proof.
  unfold get_base_context, base_of. destruct (c_contexts c) as [|x l]; [split; [discriminate|intros (_ & l & ?); discriminate]|].
  destruct (String.eqb x v1_context || String.eqb x v2_context)%bool eqn:E.
  - split; [intros [= <-]; split; [apply orb_true_iff in E as [E|E]; apply String.eqb_eq in E; auto|eauto]|]. intros (_ & l' & [= <- _]). reflexivity.
  - split; [discriminate|]. intros (Hb & l' & [= -> _]). apply orb_false_iff in E as [E1 E2]. apply String.eqb_neq in E1, E2. tauto.
Qed.
Lemma common_some b : forall l base, base <> "" -> (common_base base l = Ok b <-> base = b /\ Forall (base_of b) l).
Proof.
  induction l as [|c l IH]; intros base Hb; cbn [common_base]; apply String.eqb_neq in Hb as Eb; rewrite Eb.
  - split; [intros [= <-]; auto|]. intros [-> _]. reflexivity.
  - split.
    + intros H. apply bind_ok in H as (x & Hx & H). destruct (String.eqb base x) eqn:Ex; [|discriminate]. apply String.eqb_eq in Ex as <-. apply IH in H as [-> H]; [|assumption].
      split; [reflexivity|]. constructor; [now apply base_iff|assumption].
    + intros [-> H]. inversion H as [|? ? H1 H2]; subst. apply base_iff in H1 as ->. cbn [bind]. rewrite String.eqb_refl. now apply IH.
Qed.
Lemma common_iff b l : common_base "" l = Ok b <-> l <> [] /\ Forall (base_of b) l.
Proof.
  destruct l as [|c l]; cbn [common_base]; [split; [discriminate|intros [H _]; contradiction]|]. cbn [String.eqb]. split.
  - intros H. apply bind_ok in H as (x & Hx & H). split; [discriminate|]. apply base_iff in Hx as Hx'. assert (x <> "") by (destruct Hx' as [[->| ->] _]; discriminate).
    apply common_some in H as [-> H]; [|assumption]. now constructor.
  - intros [_ H]. inversion H as [|? ? H1 H2]; subst. apply base_iff in H1 as Hb. rewrite Hb. cbn [bind]. apply common_some; [destruct H1 as [[->| ->] _]; discriminate|auto].
Qed.
(** a presentation of these credentials *)
Definition presents (id : string) (l : list cred) (v : wvp) : Prop :=
  l <> [] /\ wv_id v = id /\ wv_creds v = l /\ wv_type v = ["VerifiablePresentation"; "PresentationSubmission"] /\
  exists b, Forall (base_of b) l /\ wv_context v = [b; "https://identity.foundation/presentation-exchange/submission/v1"].
Lemma made_iff id l v : make_presentation id l = Ok v <-> presents id l v /\ wv_custom v = [].
Proof.
  unfold make_presentation, presents. split.
  - intros H. apply bind_ok in H as (b & Hb & H). apply common_iff in Hb as [Hl Hb]. injection H as <-. cbn [wv_id wv_creds wv_type wv_context wv_custom].
    split; [|reflexivity]. repeat (split; [assumption || reflexivity|]). exists b. split; [assumption|]. destruct l as [|c l]; [contradiction|]. inversion Hb as [|? ? [[->| ->] _] _]; reflexivity.
  - intros ((Hl & H1 & H2 & H3 & b & Hb & H4) & H5). rewrite (proj2 (common_iff b l) (conj Hl Hb)). cbn [bind]. destruct v as [a1 a2 a3 a4 a5]. cbn in *. subst. f_equal.
    f_equal. destruct l as [|c l]; [contradiction|]. inversion Hb as [|? ? [[->| ->] _] _]; reflexivity.
Qed.
Lemma map_res_iff {X Y} (f : X -> res Y) : forall l r, map_res f l = Ok r <-> Forall2 (fun a b => f a = Ok b) l r.
Proof.
  intros l r. split; [apply map_res_forall2|]. induction 1 as [|x y l r H _ IH]; [reflexivity|]. cbn [map_res]. rewrite H. cbn [bind]. rewrite IH. reflexivity.
Qed.
Theorem C260_create_vp : forall valid frame limit ctx load type_ids jp_parse validate rfc3339 order ids pd fmt creds v,
  create_vp valid frame limit ctx load type_ids jp_parse validate rfc3339 order ids pd fmt creds = Ok v <->
  exists cs maps, presentation_data valid frame limit ctx load type_ids jp_parse validate rfc3339 order pd false fmt creds = Ok (cs, maps) /\
    presents (snd ids) cs v /\ wv_custom v = [("presentation_submission", (fst ids, wp_id pd, maps))].
Proof.
  intros valid frame limit ctx load type_ids jp_parse validate rfc3339 order ids pd fmt creds v. unfold create_vp. split.
  - intros H. apply bind_ok in H as ([cs maps] & Hd & H). apply bind_ok in H as (w & Hw & H). injection H as <-. cbn [fst snd] in *. exists cs, maps. split; [assumption|].
    apply made_iff in Hw as [Hw _]. split; [exact Hw|reflexivity].
  - intros (cs & maps & Hd & Hp & Hc). rewrite Hd. cbn [bind fst snd].
    set (w := {| wv_context := wv_context v; wv_type := wv_type v; wv_id := wv_id v; wv_creds := wv_creds v; wv_custom := [] |}).
    assert (Hw : make_presentation (snd ids) cs = Ok w) by (apply made_iff; split; [exact Hp|reflexivity]).
    rewrite Hw. cbn [bind]. subst w. cbn [wv_context wv_type wv_id wv_creds]. rewrite <- Hc. now destruct v.
Qed.
Theorem C260_create_vp_array : forall valid frame limit ctx load type_ids jp_parse validate rfc3339 order id fresh pd fmt creds vs s,
  create_vp_array valid frame limit ctx load type_ids jp_parse validate rfc3339 order id fresh pd fmt creds = Ok (vs, s) <->
  exists cs maps, presentation_data valid frame limit ctx load type_ids jp_parse validate rfc3339 order pd true fmt creds = Ok (cs, maps) /\
    Forall2 (fun ic v => presents (fresh (fst ic)) [snd ic] v /\ wv_custom v = []) (combine (seq 0 (List.length cs)) cs) vs /\ s = (id, wp_id pd, maps).
Proof.
  intros valid frame limit ctx load type_ids jp_parse validate rfc3339 order id fresh pd fmt creds vs s. unfold create_vp_array.
  assert (F : forall l, Forall2 (fun (ic : nat * cred) v => make_presentation (fresh (fst ic)) [snd ic] = Ok v) l vs <-> Forall2 (fun ic v => presents (fresh (fst ic)) [snd ic] v /\ wv_custom v = []) l vs).
  { intros l. split; intros H; (induction H; constructor; [now apply made_iff|assumption]). }
  split.
  - intros H. apply bind_ok in H as ([cs maps] & Hd & H). apply bind_ok in H as (w & Hw & H). injection H as <- <-. cbn [fst snd] in *. exists cs, maps. split; [assumption|].
    split; [|reflexivity]. apply F. now apply map_res_iff.
  - intros (cs & maps & Hd & Hp & ->). rewrite Hd. cbn [bind fst snd]. apply F, map_res_iff in Hp. rewrite Hp. reflexivity.
Qed.
Notation create limit := (create_vp (fun _ => Ok tt) (fun _ c => Ok c) limit string any_load any_ids toy_jp (fun _ _ => true) (fun _ => None) [] ("S", "V")).
Notation create_array limit := (create_vp_array (fun _ => Ok tt) (fun _ c => Ok c) limit string any_load any_ids toy_jp (fun _ _ => true) (fun _ => None) [] "S" itoa).
Example C260_example : (exists v, create toy_limit toy_pd "ldp_vp" toy_wallet = Ok v /\ wv_context v = [v1_context; submission_context] /\ map c_id (wv_creds v) = ["u"; "w"; "v"])
  /\ exists vs s, create_array toy_limit toy_pd "ldp_vp" toy_wallet = Ok (vs, s) /\ map (fun v => map c_id (wv_creds v)) vs = [["u"]; ["w"]; ["v"]].
Proof. split; [eexists|eexists; eexists]; (split; [vm_compute; reflexivity|]); [split|]; reflexivity. Qed.

(** ** C261 (refuted): CreateVP succeeds whenever the wallet satisfies the definition.  Not when the selected credentials are of both data models (v1 and v2). *)
Theorem C261_mixed_data_models_refuted : exists pd wallet, plain_def pd /\ (forall c, In c wallet -> exists b, base_of b c) /\
  is_ok (data toy_limit any_load any_ids pd false "ldp_vp" wallet) = true /\
  create toy_limit pd "ldp_vp" wallet = Err "credentials have different base contexts" /\
  is_ok (create_array toy_limit pd "ldp_vp" wallet) = true.
Proof.
  exists (sd_pd [toy_desc "1" [] false "$.degree"; toy_desc "3" [] false "$.license"]), [wcred "u" "degree"; with_ctx [v2_context] (wcred "v" "license")].
  split; [intros d [<-|[<-|[]]]; (split; [|discriminate]); (constructor; [|constructor]); (split; [discriminate|exact I])|]. split; [|repeat split; vm_compute; reflexivity].
  intros c [<-|[<-|[]]]; [exists v1_context|exists v2_context]; (split; [auto|exists []; reflexivity]).
Qed.
Print Assumptions C253_listed_but_not_submitted_refuted.
Print Assumptions C253_left_out.
Print Assumptions C254_more_credentials_fewer_matches_refuted.
Print Assumptions C255_one_by_one.
Print Assumptions C255_bigger_wallet.
Print Assumptions C256_one_bad_credential_refuted.
Print Assumptions C257_query_changes_the_wallet_refuted.
Print Assumptions C257_changed_in_place.
Print Assumptions C258_is_holder_has_no_effect_refuted.
Print Assumptions C259_empty_schema_list_refuted.
Print Assumptions C260_create_vp.
Print Assumptions C260_create_vp_array.
Print Assumptions C261_mixed_data_models_refuted.
