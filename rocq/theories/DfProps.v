(** Presentation definitions that ValidateSchema accepts: C272-C276. *)
From Verif Require Import GoBase StatusModel PexSpec ReqSpec ReqModel PexModel PexProofs JsModel JsSchemas WmModel WmSpec DfModel DfSpec DfProofs DfProofs2 DfProofs3.

(** the regular expression "additionalProperties" (a misplaced member of the 1.0 schema's patternProperties) matches no claim format name *)
Definition no_claim_format (re : string -> string -> bool) : Prop :=
  forall k, In k ["jwt"; "jwt_vc"; "jwt_vp"; "ldp"; "ldp_vc"; "ldp_vp"; "cwt_vc"; "cwt_vp"] -> re "additionalProperties" k = false.

(** ** C272: ValidateSchema accepts exactly the definitions that have the shape of Presentation Exchange 1.0 or of 2.0; a nil definition is refused *)
Theorem C272_accepted_iff : forall re fmt ext p, no_claim_format re ->
  (validate_schema re fmt ext (Some p) = Ok tt <-> def_fine (draft07 ext) V1 p \/ def_fine (draft07 ext) V2 p).
Proof. intros re fmt ext p H. exact (validate_schema_ok re fmt ext H p). Qed.
Theorem C272_otherwise_error : forall re fmt ext o,
  validate_schema re fmt ext None = Err "invalid presentation definition" /\
  (validate_schema re fmt ext o = Ok tt \/ validate_schema re fmt ext o = Err "invalid presentation definition").
Proof. intros. split; [reflexivity|apply validate_schema_result]. Qed.

(** ** C273: what the matching functions are given.  [view]: the definition as they read it (WmModel), when no pointer they follow is nil *)
Definition all_some {A B} (f : A -> option B) : list (option A) -> option (list B) :=
  fix go (l : list (option A)) : option (list B) := match l with
  | [] => Some []
  | Some x :: r => match f x, go r with Some y, Some ys => Some (y :: ys) | _, _ => None end
  | None :: _ => None
  end.
Definition view_filter (f : gfilter) : jfilter :=
  {| ft_type := gi_type (gl_item f); ft_format := gi_format (gl_item f); ft_min := gi_min (gl_item f); ft_rest := item_json (gl_item f); ft_allof := map (ptr item_json) (gl_all f) |}.
Definition is_required (o : option string) : bool := match o with Some s => String.eqb s "required" | None => false end.
Definition view_field (f : gfield) : field := {| fd_paths := gd_path f; fd_filter := option_map view_filter (gd_filter f); fd_optional := gd_optional f |}.
Definition view_cons (c : gcons) : option wcons :=
  match all_some (fun h => Some (gh_fields h, is_required (gh_directive h))) (gc_holder c), all_some (fun f => Some f) (gc_fields c) with
  | Some hs, Some fs => Some {| wc_holder := hs; wc_base := {| cs_subject_is_issuer := is_required (gc_issuer c); cs_limit := is_required (gc_limit c); cs_fields := map view_field fs |};
                               wc_preds := map (fun f => is_required (gd_pred f)) fs |}
  | _, _ => None
  end.
Definition view_format (f : gformat) : wformat :=
  {| wf_six := {| f_ldp := gf_ldp f; f_ldp_vc := gf_ldp_vc f; f_ldp_vp := gf_ldp_vp f; f_jwt := gf_jwt f; f_jwt_vc := gf_jwt_vc f; f_jwt_vp := gf_jwt_vp f |};
     wf_cwt := (some_b (gf_cwt_vc f) || some_b (gf_cwt_vp f))%bool |}.
Definition view_desc (d : gdesc) : option wdesc :=
  match all_some (fun s => Some {| sc_uri := gs_uri s; sc_required := gs_required s |}) (ge_schema d),
        match ge_cons d with None => Some None | Some c => option_map Some (view_cons c) end with
  | Some ss, Some c => Some {| wd_id := ge_id d; wd_group := ge_group d; wd_name := ge_name d; wd_purpose := ge_purpose d;
                              wd_schema := match ss with [] => None | _ => Some ss end; wd_cons := c; wd_format := option_map view_format (ge_format d) |}
  | _, _ => None
  end.
Fixpoint view_req (s : gsreq) : option wsreq :=
  match s with
  | GSR name purpose rule count mn mx from nested =>
      match (fix go (l : list (option gsreq)) : option (list wsreq) := match l with
             | [] => Some []
             | Some x :: r => match view_req x, go r with Some y, Some ys => Some (y :: ys) | _, _ => None end
             | None :: _ => None
             end) nested with
      | Some ns => Some (WSR name purpose rule count mn mx from ns)
      | None => None
      end
  end.
Definition view (p : gdef) : option wdef :=
  match all_some view_req (gp_reqs p), all_some view_desc (gp_descs p) with
  | Some rs, Some ds => Some {| wp_id := gp_id p; wp_format := option_map view_format (gp_format p); wp_frame := match gp_frame p with [] => None | m => Some m end;
                               wp_reqs := rs; wp_descs := ds |}
  | _, _ => None
  end.
(** rules, bounds and sources of submission requirements are as documented, at every depth *)
Inductive well_ruled : wsreq -> Prop :=
  wr name purpose rule count mn mx from nested : rule = "all" \/ rule = "pick" -> 0 <= count -> 0 <= mn -> 0 <= mx ->
    (from <> "" /\ nested = []) \/ (from = "" /\ nested <> []) -> Forall well_ruled nested -> well_ruled (WSR name purpose rule count mn mx from nested).

Lemma all_some_ok {A B} (f : A -> option B) (P : A -> Prop) (Q : B -> Prop) l :
  pointers P l -> (forall x, In (Some x) l -> P x -> exists y, f x = Some y /\ Q y) -> exists ys, all_some f l = Some ys /\ Forall Q ys /\ (ys = [] <-> l = []).
Proof.
  intros H. induction H as [|o l (x & -> & Hx) Hl IH]; intros G; [exists []; repeat split; constructor|].
  destruct IH as (ys & E & Hys & _); [intros z Hz; apply G; now right|]. destruct (G x (or_introl eq_refl) Hx) as (y & Ey & Hy).
  exists (y :: ys). cbn. rewrite Ey. fold (all_some f). rewrite E. repeat split; try discriminate. now constructor.
Qed.
Lemma view_req_ok s : sreq_fine s -> exists w, view_req s = Some w /\ well_ruled w.
Proof.
  induction s as [name purpose rule count mn mx from nested IH] using gsreq_ind'. intros H.
  inversion H as [? ? ? ? ? ? ? Hru H1 H2 H3 H4|? ? ? ? ? ? ? Hru H1 H2 H3 H4 H5]; subst.
  - eexists. split; [reflexivity|]. constructor; auto.
  - destruct (all_some_ok view_req sreq_fine well_ruled nested H5 IH) as (ns & E & Hn & Hne).
    exists (WSR name purpose rule count mn mx "" ns). split; [change (match all_some view_req nested with Some ns => Some (WSR name purpose rule count mn mx "" ns) | None => None end = Some (WSR name purpose rule count mn mx "" ns)); now rewrite E|].
    constructor; auto. right. split; [reflexivity|]. tauto.
Qed.
(** a descriptor's constraints: every field has a path; typed: every filter has a type *)
Definition fields_ok (typed : bool) (d : wdesc) : Prop := forall w f, wd_cons d = Some w -> In f (cs_fields (wc_base w)) ->
  fd_paths f <> [] /\ (typed = true -> forall ft, fd_filter f = Some ft -> ft_type ft <> None).
Lemma view_desc_ok meta v d : desc_fine meta v d -> exists w, view_desc d = Some w /\
  (wd_id w = ge_id d /\ wd_id w <> "" /\ fields_ok (match v with V1 => true | V2 => false end) w /\
   match v with V1 => (exists s, wd_schema w = Some s /\ s <> []) /\ wd_format w = None | V2 => wd_schema w = None end).
Proof.
  intros (Hid & _ & Hc & Hv). unfold view_desc.
  assert (Hs : exists ss, all_some (fun s => Some {| sc_uri := gs_uri s; sc_required := gs_required s |}) (ge_schema d) = Some ss /\ (ss = [] <-> ge_schema d = [])).
  { destruct (all_some_ok (fun s => Some {| sc_uri := gs_uri s; sc_required := gs_required s |}) schema_fine (fun _ => True) (ge_schema d)) as (ss & E & _ & Hn).
    - destruct v; [apply Hv|destruct Hv as [-> _]; constructor].
    - intros x _ _. eauto.
    - eauto. }
  destruct Hs as (ss & -> & Hss).
  destruct (ge_cons d) as [c|].
  - cbn in Hc. destruct Hc as (_ & _ & Hh & Hf). unfold view_cons.
    destruct (all_some_ok (fun h => Some (gh_fields h, is_required (gh_directive h))) holder_fine (fun _ => True) (gc_holder c) Hh ltac:(eauto)) as (hs & -> & _ & _).
    destruct (all_some_ok (fun f => Some f) (field_fine meta v) (field_fine meta v) (gc_fields c) Hf ltac:(eauto)) as (fs & -> & Hfs & _).
    eexists. split; [reflexivity|]. cbn. split; [reflexivity|]. split; [exact Hid|]. split.
    + intros w f [= <-] Hin. cbn in Hin. apply in_map_iff in Hin as (g & <- & Hg). rewrite Forall_forall in Hfs. destruct (Hfs g Hg) as (Hp & Hfl & _ & _).
      split; [exact Hp|]. intros Ht ft. cbn. destruct (gd_filter g) as [gf|]; [|discriminate]. cbn. intros [= <-]. cbn. destruct v; [|discriminate]. apply Hfl.
    + destruct v; [|destruct Hv as [Hv1 _]; destruct ss; [reflexivity|exfalso; destruct Hss as [_ Hss]; specialize (Hss Hv1); discriminate]].
      destruct Hv as (Hv1 & _ & Hv2). split; [|now rewrite Hv2]. destruct ss as [|x ss]; [exfalso; apply Hv1; tauto|]. eexists. split; [reflexivity|discriminate].
  - eexists. split; [reflexivity|]. cbn. split; [reflexivity|]. split; [exact Hid|]. split; [intros w f; discriminate|].
    destruct v; [|destruct Hv as [Hv1 _]; destruct ss; [reflexivity|exfalso; destruct Hss as [_ Hss]; specialize (Hss Hv1); discriminate]].
    destruct Hv as (Hv1 & _ & Hv2). split; [|now rewrite Hv2]. destruct ss as [|x ss]; [exfalso; apply Hv1; tauto|]. eexists. split; [reflexivity|discriminate].
Qed.
Lemma view_ok meta v p : def_fine meta v p -> exists w, view p = Some w /\ wp_descs w <> [] /\ Forall well_ruled (wp_reqs w) /\
  Forall (fun d => wd_id d <> "" /\ fields_ok (match v with V1 => true | V2 => false end) d /\
    match v with V1 => (exists s, wd_schema d = Some s /\ s <> []) /\ wd_format d = None | V2 => wd_schema d = None end) (wp_descs w) /\
  (forall f, (wp_format w = Some f \/ exists d, In d (wp_descs w) /\ wd_format d = Some f) -> wf_cwt f = false).
Proof.
  intros (Hid & Hl & Hfm & Hfr & Hr & Hne & Hd). unfold view.
  destruct (all_some_ok view_req sreq_fine well_ruled (gp_reqs p) Hr ltac:(intros x _; apply view_req_ok)) as (rs & -> & Hrs & _).
  assert (Hcwt : forall o f, given (format_fine v) o -> option_map view_format o = Some f -> wf_cwt f = false).
  { intros [g|] f Hg; [|discriminate]. intros [= <-]. destruct Hg as (E1 & E2 & _). cbn. now rewrite E1, E2. }
  destruct (all_some_ok view_desc (desc_fine meta v) (fun d => (wd_id d <> "" /\ fields_ok (match v with V1 => true | V2 => false end) d /\
    match v with V1 => (exists s, wd_schema d = Some s /\ s <> []) /\ wd_format d = None | V2 => wd_schema d = None end) /\
    (forall f, wd_format d = Some f -> wf_cwt f = false)) (gp_descs p) Hd) as (ds & E & Hds & Hdn).
  { intros x _ Hx. destruct (view_desc_ok _ _ _ Hx) as (w & Ew & _ & H1 & H2 & H3). exists w. split; [exact Ew|]. split; [auto|].
    intros f Hf. unfold view_desc in Ew. destruct (all_some _ (ge_schema x)); [|discriminate]. destruct (match ge_cons x with None => Some None | Some c => option_map Some (view_cons c) end); [|discriminate].
    injection Ew as <-. cbn in Hf. apply (Hcwt (ge_format x)); [|exact Hf]. destruct Hx as (_ & _ & _ & Hx). destruct v; [destruct Hx as (_ & _ & ->); exact I|apply Hx]. }
  rewrite E. eexists. split; [reflexivity|]. cbn. split; [tauto|]. split; [exact Hrs|]. split.
  - eapply Forall_impl; [|exact Hds]. intros d [H _]. exact H.
  - intros f [Hf|(d & Hin & Hf)]; [now apply (Hcwt (gp_format p))|]. rewrite Forall_forall in Hds. destruct (Hds d Hin) as [_ H]. now apply H.
Qed.

(** An accepted definition can be read without meeting a nil pointer; it has descriptors, all with an id; every field has a path; every submission requirement, at any
    depth, is well formed; no claim format is a CBOR one; the descriptors all have schemas (1.0: and typed filters, no formats) or none has (2.0). *)
Theorem C273_accepted_definitions_can_be_matched : forall re fmt ext p, no_claim_format re -> validate_schema re fmt ext (Some p) = Ok tt ->
  exists w, view p = Some w /\ wp_descs w <> [] /\ Forall well_ruled (wp_reqs w) /\
    Forall (fun d => wd_id d <> "" /\ fields_ok false d) (wp_descs w) /\
    (forall f, (wp_format w = Some f \/ exists d, In d (wp_descs w) /\ wd_format d = Some f) -> wf_cwt f = false) /\
    (Forall (fun d => (exists s, wd_schema d = Some s /\ s <> []) /\ wd_format d = None /\ fields_ok true d) (wp_descs w) \/ Forall (fun d => wd_schema d = None) (wp_descs w)).
Proof.
  intros re fmt ext p Hre H. apply C272_accepted_iff in H; [|assumption]. destruct H as [H|H]; apply view_ok in H as (w & Ew & Hne & Hr & Hd & Hf); exists w; (split; [exact Ew|]); (split; [exact Hne|]); (split; [exact Hr|]); (split; [|split; [exact Hf|]]).
  - eapply Forall_impl; [|exact Hd]. intros d (H1 & H2 & _). split; [exact H1|]. intros c f Hc Hf'. destruct (H2 c f Hc Hf') as [Hp _]. split; [exact Hp|discriminate].
  - left. eapply Forall_impl; [|exact Hd]. intros d (_ & H2 & H3 & H4). auto.
  - eapply Forall_impl; [|exact Hd]. intros d (H1 & H2 & _). auto.
  - right. eapply Forall_impl; [|exact Hd]. intros d (_ & _ & H3). exact H3.
Qed.
(** accepted 1.0 definitions meet the condition of C249-C252 when their constraints have fields and no filter has allOf *)
Theorem C273_plain : forall re fmt ext p w, no_claim_format re -> validate_schema re fmt ext (Some p) = Ok tt -> view p = Some w ->
  (exists d, In d (wp_descs w) /\ wd_schema d <> None) ->
  (forall d c, In d (wp_descs w) -> wd_cons d = Some c -> cs_fields (wc_base c) <> [] /\ forall f ft, In f (cs_fields (wc_base c)) -> fd_filter f = Some ft -> ft_allof ft = []) ->
  plain_def w.
Proof.
  intros re fmt ext p w Hre H Ew (d0 & Hin0 & Hs0) Hc. destruct (C273_accepted_definitions_can_be_matched re fmt ext p Hre H) as (w' & Ew' & _ & _ & _ & _ & Hv).
  rewrite Ew in Ew'. injection Ew' as <-. destruct Hv as [Hv|Hv]; [|exfalso; rewrite Forall_forall in Hv; specialize (Hv d0 Hin0); congruence].
  intros d Hin. unfold plain_cons. destruct (wd_cons d) as [c|] eqn:Ec; [|exact I]. destruct (Hc d c Hin Ec) as [Hne Hall]. split; [|exact Hne].
  rewrite Forall_forall in Hv. destruct (Hv d Hin) as (_ & _ & Hok). apply Forall_forall. intros f Hf. destruct (Hok c f Ec Hf) as [Hp Ht]. split; [exact Hp|].
  destruct (fd_filter f) as [ft|] eqn:Eft; [|exact I]. split; [apply Ht; auto|]. now apply (Hall f).
Qed.

(** ** A definition of each version *)
Definition no_formats : gformat := {| gf_jwt := None; gf_jwt_vc := None; gf_jwt_vp := None; gf_ldp := None; gf_ldp_vc := None; gf_ldp_vp := None; gf_cwt_vc := None; gf_cwt_vp := None |}.
Definition typed_filter (t : string) : gfilter :=
  {| gl_item := {| gi_type := Some t; gi_format := ""; gi_pattern := ""; gi_min := None; gi_max := None; gi_min_len := 0; gi_max_len := 0; gi_xmin := None; gi_xmax := None;
                   gi_const := Some (JStr "A"); gi_enum := []; gi_not := []; gi_contains := [] |}; gl_all := [] |}.
Definition a_field (pred : option string) (optional : bool) : gfield :=
  {| gd_path := ["$.degree"]; gd_id := "f"; gd_purpose := ""; gd_filter := Some (typed_filter "string"); gd_pred := pred; gd_retain := false; gd_optional := optional |}.
Definition a_cons (f : gfield) : gcons := {| gc_limit := Some "required"; gc_issuer := None; gc_holder := [Some {| gh_fields := ["f"]; gh_directive := Some "required" |}]; gc_fields := [Some f] |}.
Definition a_desc (id : string) (groups : list string) (meta : gomap json) (schema : list (option gschema)) (f : gfield) (fm : option gformat) : gdesc :=
  {| ge_id := id; ge_group := groups; ge_name := ""; ge_purpose := ""; ge_meta := meta; ge_schema := schema; ge_cons := Some (a_cons f); ge_format := fm |}.
Definition a_def (locale : string) (fm : option gformat) (frame : gomap json) (reqs : list (option gsreq)) (ds : list (option gdesc)) : gdef :=
  {| gp_id := "PD"; gp_name := ""; gp_purpose := ""; gp_locale := locale; gp_format := fm; gp_frame := frame; gp_reqs := reqs; gp_descs := ds |}.
Definition uri_schema : list (option gschema) := [Some {| gs_uri := "https://www.w3.org/TR/vc-data-model/#types"; gs_required := true |}].
Definition nested_req (mn mx : Z) (g : string) : gsreq := GSR "" "" "all" 0 0 0 "" [Some (GSR "" "" "pick" 1 mn mx g [])].
Definition def_v1 : gdef := a_def "" None [] [Some (nested_req 0 0 "A")] [Some (a_desc "1" ["A"] [] uri_schema (a_field None false) None)].
Definition def_v2 : gdef := a_def "" (Some no_formats) [("@type", JStr "VerifiableCredential")] [] [Some (a_desc "1" [] [] [] (a_field None true) None)].
Ltac fine := repeat first [ discriminate | reflexivity | assumption | exact I | progress cbn [given] | split | constructor | (eexists; split; [reflexivity|]) | (intros; exfalso; congruence) | lia ].
Lemma def_v1_fine meta : def_fine meta V1 def_v1.
Proof.
  unfold def_fine, def_v1, a_def. cbn. repeat split; try discriminate; try exact I.
  - apply Forall_cons; [|constructor]. eexists. split; [reflexivity|]. apply sf_nested; auto; try lia; try discriminate.
    apply Forall_cons; [|constructor]. eexists. split; [reflexivity|]. apply sf_group; auto; try lia; try discriminate.
  - apply Forall_cons; [|constructor]. eexists. split; [reflexivity|]. unfold desc_fine, a_desc. cbn. repeat split; try discriminate; try (now left); try exact I.
    + apply Forall_cons; [|constructor]. eexists. split; [reflexivity|]. split; [discriminate|]. exists "required". split; [reflexivity|now left].
    + apply Forall_cons; [|constructor]. eexists. split; [reflexivity|]. unfold field_fine, filter_fine. cbn. repeat split; try discriminate; try congruence; try exact I; try apply Forall_nil.
      right. eauto.
    + apply Forall_cons; [|constructor]. eexists. split; [reflexivity|]. discriminate.
Qed.
Lemma def_v2_fine (meta : json -> Prop) : meta (filter_json (typed_filter "string")) -> def_fine meta V2 def_v2.
Proof.
  intros Hm. unfold def_fine, def_v2, a_def. cbn. repeat split; try discriminate; try exact I.
  - constructor.
  - apply Forall_cons; [|constructor]. eexists. split; [reflexivity|]. unfold desc_fine, a_desc. cbn. repeat split; try discriminate; try (now left); try exact I.
    + apply Forall_cons; [|constructor]. eexists. split; [reflexivity|]. split; [discriminate|]. exists "required". split; [reflexivity|now left].
    + apply Forall_cons; [|constructor]. eexists. split; [reflexivity|]. unfold field_fine, filter_fine. cbn. repeat split; try discriminate; try congruence; try exact I; try assumption.
Qed.
Definition no_re (p s : string) : bool := false.
Definition any_ext (r : string) (j : json) : bool := true.
Lemma no_re_ok : no_claim_format no_re.
Proof. intros k _. reflexivity. Qed.
Example C272_example : validate_schema no_re no_re any_ext (Some def_v1) = Ok tt /\ validate_schema no_re no_re any_ext (Some def_v2) = Ok tt.
Proof. split; (apply C272_accepted_iff; [exact no_re_ok|]); [left; apply def_v1_fine|right; apply def_v2_fine; reflexivity]. Qed.
Example C273_example : exists w, validate_schema no_re no_re any_ext (Some def_v1) = Ok tt /\ view def_v1 = Some w /\ plain_def w.
Proof.
  destruct C272_example as [H _]. eexists. split; [exact H|]. split; [reflexivity|]. eapply C273_plain; [exact no_re_ok|exact H|reflexivity| |].
  - eexists. split; [left; reflexivity|]. discriminate.
  - intros d c [<-|[]] [= <-]. cbn. split; [discriminate|]. intros f ft [<-|[]] [= <-]. reflexivity.
Qed.
(** a definition with is_holder is accepted (see C258: it has no effect) *)
Example C258_accepted_example : validate_schema no_re no_re any_ext (Some def_v1) = Ok tt /\
  exists d c h, In (Some d) (gp_descs def_v1) /\ ge_cons d = Some c /\ In (Some h) (gc_holder c) /\ gh_directive h = Some "required".
Proof. split; [apply C272_example|]. do 3 eexists. split; [left; reflexivity|]. split; [reflexivity|]. split; [left; reflexivity|reflexivity]. Qed.

(** ** C274 (refuted): what the definition types can express can be asked for.  CBOR claim formats, locale, metadata of a descriptor, an optional predicate field:
    refused, whatever the rest of the definition *)
Theorem C274_refused_refuted : forall re fmt ext p, no_claim_format re ->
  (exists f, (gp_format p = Some f \/ exists d, In (Some d) (gp_descs p) /\ ge_format d = Some f) /\ (gf_cwt_vc f <> None \/ gf_cwt_vp f <> None))
  \/ gp_locale p <> ""
  \/ (exists d, In (Some d) (gp_descs p) /\ ge_meta d <> [])
  \/ (exists d c f, In (Some d) (gp_descs p) /\ ge_cons d = Some c /\ In (Some f) (gc_fields c) /\ gd_pred f <> None /\ gd_optional f = true) ->
  validate_schema re fmt ext (Some p) = Err "invalid presentation definition".
Proof.
  intros re fmt ext p Hre H. destruct (validate_schema_result re fmt ext (Some p)) as [E|E]; [exfalso|exact E]. apply C272_accepted_iff in E; [|assumption].
  assert (G : exists v, def_fine (draft07 ext) v p) by (destruct E; eauto). clear E. destruct G as (v & _ & Hl & Hfm & _ & _ & _ & Hd).
  assert (HD : forall d, In (Some d) (gp_descs p) -> desc_fine (draft07 ext) v d).
  { intros d Hin. unfold pointers in Hd. rewrite Forall_forall in Hd. destruct (Hd _ Hin) as (x & [= <-] & Hx). exact Hx. }
  destruct H as [(f & [Hf|(d & Hin & Hf)] & Hc)|[H|[(d & Hin & Hm)|(d & c & f & Hin & Hc & Hf & Hp & Ho)]]].
  - rewrite Hf in Hfm. destruct Hfm as (H1 & H2 & _). destruct Hc; contradiction.
  - destruct (HD d Hin) as (_ & _ & _ & Hv). rewrite Hf in Hv. destruct v; [destruct Hv as (_ & _ & Hv); discriminate|]. destruct Hv as (_ & H1 & H2 & _). destruct Hc; contradiction.
  - contradiction.
  - destruct (HD d Hin) as (_ & H & _). contradiction.
  - destruct (HD d Hin) as (_ & _ & H & _). rewrite Hc in H. destruct H as (_ & _ & _ & H). unfold pointers in H. rewrite Forall_forall in H. destruct (H _ Hf) as (x & [= <-] & Hx).
    destruct Hx as (_ & _ & Hx & _). destruct (Hx Hp) as (_ & _ & Hx'). congruence.
Qed.
Definition cwt_formats : gformat := {| gf_jwt := None; gf_jwt_vc := None; gf_jwt_vp := None; gf_ldp := None; gf_ldp_vc := None; gf_ldp_vp := None; gf_cwt_vc := Some ["ES256"]; gf_cwt_vp := None |}.
Example C274_example : forall l, validate_schema no_re no_re any_ext (Some (a_def "" (Some cwt_formats) [] [] l)) = Err "invalid presentation definition".
Proof. intros l. apply C274_refused_refuted; [exact no_re_ok|]. left. exists cwt_formats. split; [now left|]. left. discriminate. Qed.

(** ** C275 (refuted): the features can be combined.  A definition with one descriptor that has schemas and a frame, formats of a descriptor, a descriptor without schemas,
    or a field marked optional or intent_to_retain, is refused *)
Theorem C275_not_combined_refuted : forall re fmt ext p d, no_claim_format re -> In (Some d) (gp_descs p) -> ge_schema d <> [] ->
  gp_frame p <> [] \/ (exists e, In (Some e) (gp_descs p) /\ (ge_schema e = [] \/ ge_format e <> None))
  \/ (exists e c f, In (Some e) (gp_descs p) /\ ge_cons e = Some c /\ In (Some f) (gc_fields c) /\ (gd_optional f = true \/ gd_retain f = true)) ->
  validate_schema re fmt ext (Some p) = Err "invalid presentation definition".
Proof.
  intros re fmt ext p d Hre Hin Hs H. destruct (validate_schema_result re fmt ext (Some p)) as [E|E]; [exfalso|exact E]. apply C272_accepted_iff in E; [|assumption].
  assert (HD : forall v, def_fine (draft07 ext) v p -> forall d, In (Some d) (gp_descs p) -> desc_fine (draft07 ext) v d).
  { intros v (_ & _ & _ & _ & _ & _ & Hd) e He. unfold pointers in Hd. rewrite Forall_forall in Hd. destruct (Hd _ He) as (x & [= <-] & Hx). exact Hx. }
  destruct E as [E|E].
  - destruct H as [H|[(e & He & H)|(e & c & f & He & Hc & Hf & H)]].
    + destruct E as (_ & _ & _ & Hfr & _). specialize (Hfr eq_refl). contradiction.
    + destruct (HD V1 E e He) as (_ & _ & _ & H1 & _ & H2). destruct H; contradiction.
    + destruct (HD V1 E e He) as (_ & _ & H1 & _). rewrite Hc in H1. destruct H1 as (_ & _ & _ & H1). unfold pointers in H1. rewrite Forall_forall in H1.
      destruct (H1 _ Hf) as (x & [= <-] & Hx). destruct Hx as (_ & _ & _ & Hx). destruct (Hx eq_refl) as [H2 H3]. destruct H; congruence.
  - destruct (HD V2 E d Hin) as (_ & _ & _ & H1 & _). contradiction.
Qed.
Example C275_example : validate_schema no_re no_re any_ext (Some (a_def "" None [("@type", JStr "T")] [] [Some (a_desc "1" [] [] uri_schema (a_field None false) None)])) = Err "invalid presentation definition".
Proof. eapply C275_not_combined_refuted; [exact no_re_ok|left; reflexivity|discriminate|]. left. discriminate. Qed.

(** ** C276 (refuted): an accepted definition is consistent.  Descriptors with the same id, requirements for a group no descriptor is in, bounds nothing can meet and
    is_holder constraints for fields that do not exist are accepted *)
Definition odd_def : gdef := a_def "" None [] [Some (nested_req 3 1 "B")]
  [Some (a_desc "1" ["A"] [] uri_schema (a_field None false) None); Some (a_desc "1" ["A"] [] uri_schema (a_field None false) None)].
Lemma odd_accepted re fmt ext : no_claim_format re -> validate_schema re fmt ext (Some odd_def) = Ok tt.
Proof.
  intros Hre. apply C272_accepted_iff; [assumption|]. left. pose proof (def_v1_fine (draft07 ext)) as (_ & _ & _ & _ & _ & _ & Hd). inversion Hd as [|? ? Hx _]; subst.
  unfold def_fine. split; [discriminate|]. split; [reflexivity|]. split; [exact I|]. split; [reflexivity|]. split; [|split; [discriminate|]].
  - apply Forall_cons; [|constructor]. eexists. split; [reflexivity|]. apply sf_nested; auto; try lia; try discriminate.
      apply Forall_cons; [|constructor]. eexists. split; [reflexivity|]. apply sf_group; auto; try lia; try discriminate.
  - apply Forall_cons; [exact Hx|apply Forall_cons; [exact Hx|constructor]].
Qed.
Theorem C276_inconsistent_accepted_refuted : forall re fmt ext, no_claim_format re -> exists p, validate_schema re fmt ext (Some p) = Ok tt /\
  exists w, view p = Some w /\ ~ NoDup (map wd_id (wp_descs w)) /\ (exists s, In s (wp_reqs w) /\ empty_group (wp_descs w) s) /\
    exists name purpose rule n1 n2 n3 nested name' purpose' count mn mx from, wp_reqs w = [WSR name purpose rule n1 n2 n3 "" (WSR name' purpose' "pick" count mn mx from [] :: nested)] /\ mx < mn /\ 0 < mx.
Proof.
  intros re fmt ext Hre. exists odd_def. split; [now apply odd_accepted|].
  eexists. split; [reflexivity|]. split; [|split].
  - cbn. intros H. inversion H as [|? ? Hn _]; subst. apply Hn. now left.
  - eexists. split; [left; reflexivity|]. eapply eg_in; [left; reflexivity|]. apply eg_here; [discriminate|]. intros d [<-|[<-|[]]] [E|[]]; discriminate E.
  - repeat eexists; lia.
Qed.
Example C276_example : validate_schema no_re no_re any_ext (Some odd_def) = Ok tt.
Proof. exact (odd_accepted _ _ _ no_re_ok). Qed.

Print Assumptions C272_accepted_iff.
Print Assumptions C272_otherwise_error.
Print Assumptions C273_accepted_definitions_can_be_matched.
Print Assumptions C273_plain.
Print Assumptions C274_refused_refuted.
Print Assumptions C275_not_combined_refuted.
Print Assumptions C276_inconsistent_accepted_refuted.
