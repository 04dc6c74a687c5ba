(** Formats of 2.0, descriptors, submission requirements, whole definitions. *)
From Verif Require Import GoBase StatusModel PexModel JsModel JsSchemas JsProofs JsDesc DfModel DfSpec DfProofs DfProofs2.

Lemma gsreq_ind' (P : gsreq -> Prop) : (forall name purpose rule count mn mx from nested, (forall x, In (Some x) nested -> P x) -> P (GSR name purpose rule count mn mx from nested)) ->
  forall s, P s.
Proof.
  intros H. fix IH 1. intros [name purpose rule count mn mx from nested]. apply H.
  induction nested as [|o l IHl]; [intros x []|]. intros x [E|Hx]; [|now apply IHl]. destruct o as [y|]; [|discriminate E]. injection E as <-. apply IH.
Qed.
Lemma sreq_json_eq name purpose rule count mn mx from nested : sreq_json (GSR name purpose rule count mn mx from nested) = JObj (fields
    [("name", om_str name); ("purpose", om_str purpose); ("rule", om_str rule); ("count", om_int count); ("min", om_int mn); ("max", om_int mx);
     ("from", om_str from); ("from_nested", om_list (ptr sreq_json) nested)]).
Proof. reflexivity. Qed.
Lemma depth_In x l : In x l -> (depth x < depth (JArr l))%nat.
Proof.
  intros H. cbn. apply Nat.lt_succ_r. induction l as [|y l IH]; [destruct H|]. cbn. destruct H as [->|H]; [lia|]. specialize (IH H). lia.
Qed.
Lemma depth_member k x m : In (k, x) m -> (depth x < depth (JObj m))%nat.
Proof.
  intros H. cbn. apply Nat.lt_succ_r. induction m as [|y l IH]; [destruct H|]. cbn. destruct H as [->|H]; [cbn; lia|]. specialize (IH H). lia.
Qed.
Lemma in_fields k x l : In (k, Some x) l -> In (k, x) (fields l).
Proof. intros H. unfold fields. apply in_flat_map. exists (k, Some x). split; [assumption|now left]. Qed.
Lemma depth_list {A} (f : A -> json) k l fs x : In (k, om_list (ptr f) l) fs -> In (Some x) l -> (depth (f x) + 2 <= depth (JObj (fields fs)))%nat.
Proof.
  intros Hf Hx. assert (E : om_list (ptr f) l = Some (JArr (map (ptr f) l))) by (destruct l; [destruct Hx|reflexivity]).
  rewrite E in Hf. apply in_fields in Hf. apply depth_member in Hf.
  assert (H : (depth (f x) < depth (JArr (map (ptr f) l)))%nat); [|lia]. apply depth_In. apply in_map_iff. now exists (Some x).
Qed.
Section Req.
  Variable re fmt : string -> string -> bool.
  Variable ext : string -> json -> bool.
  Variable root : json.
  Variable r : string.
  Notation ev := (ev re fmt ext root).
  Definition sreq_schema : json :=
    let common := [("name", JObj [("type", JStr "string")]);
      ("purpose", JObj [("type", JStr "string")]); ("rule", JObj [("type", JStr "string"); ("enum", JArr [JStr "all"; JStr "pick"])]);
      ("count", JObj [("type", JStr "integer"); ("minimum", jnum 1)]); ("min", JObj [("type", JStr "integer"); ("minimum", jnum 0)]);
      ("max", JObj [("type", JStr "integer"); ("minimum", jnum 0)])] in
    JObj [("type", JStr "object"); ("oneOf", JArr [
      JObj [("properties", JObj (common ++ [("from", JObj [("type", JStr "string")])])%list); ("required", JArr [JStr "rule"; JStr "from"]); ("additionalProperties", JBool false)];
      JObj [("properties", JObj (common ++ [("from_nested", JObj [("type", JStr "array"); ("minItems", jnum 1); ("items", JObj [("$ref", JStr r)])])])%list);
            ("required", JArr [JStr "rule"; JStr "from_nested"]); ("additionalProperties", JBool false)]])].
  Hypothesis Hr : resolve root r = Some sreq_schema.
  Lemma ev_null n : ev n sreq_schema JNull = false.
  Proof. destruct n; reflexivity. Qed.
  Lemma sreq_ok s : forall n, (2 * depth (sreq_json s) + 4 <= n)%nat -> ev n sreq_schema (sreq_json s) = true <-> sreq_fine s.
  Proof.
    induction s as [name purpose rule count mn mx from nested IH] using gsreq_ind'. intros n Hn.
    assert (Hd : forall x, In (Some x) nested -> (depth (sreq_json x) + 2 <= depth (sreq_json (GSR name purpose rule count mn mx from nested)))%nat).
    { intros x Hx. rewrite sreq_json_eq. eapply depth_list; [|exact Hx]. do 7 right. left. reflexivity. }
    destruct n as [|[|[|[|n]]]]; try lia.
    assert (Hi : given (fun x => ev (S (S n)) (JObj [("type", JStr "array"); ("minItems", jnum 1); ("items", JObj [("$ref", JStr r)])]) x = true) (om_list (ptr sreq_json) nested) <->
                 pointers sreq_fine nested).
    { rewrite om_list_given.
      assert (E : nested <> [] -> ev (S (S n)) (JObj [("type", JStr "array"); ("minItems", jnum 1); ("items", JObj [("$ref", JStr r)])]) (JArr (map (ptr sreq_json) nested))
                = ev (S (S n)) (JObj [("type", JStr "array"); ("items", JObj [("$ref", JStr r)])]) (JArr (map (ptr sreq_json) nested))).
      { intros Hne. rewrite !ev_S. kws. rewrite !andb_true_r. rewrite map_length.
        assert (Hq : Qle_bool (inject_Z 1) (inject_Z (Z.of_nat (List.length nested))) = true).
        { destruct nested; [contradiction|]. cbn [List.length]. apply Qle_bool_iff. unfold Qle. cbn. lia. }
        unfold jnum. now rewrite Hq, andb_true_r. }
      assert (Hc : nested = [] \/ nested <> []) by (destruct nested; [now left|right; discriminate]). destruct Hc as [->|Hne]; [split; [constructor|congruence]|].
      rewrite <- (ev_arr re fmt ext root sreq_json sreq_fine (S n) (JObj [("$ref", JStr r)]) nested [("$ref", JStr r)] eq_refl).
      - rewrite (E Hne). split; auto.
      - intros x Hx. rewrite ev_S. cbn [mget String.eqb Ascii.eqb Bool.eqb]. rewrite Hr. apply IH; [assumption|]. specialize (Hd x Hx). lia.
      - rewrite ev_S. cbn [mget String.eqb Ascii.eqb Bool.eqb]. rewrite Hr. apply ev_null. }
    clear IH Hn Hd. rewrite sreq_json_eq. unfold sreq_schema. cbn [app]. rewrite ev_S. kws. rewrite ?andb_true_r, ?andb_true_l, ?andb_true_iff, free_members.
    erewrite one_of2; [|objs; reflexivity|objs; reflexivity|].
    - rewrite Hi, om_list_eq, om_str_eq. clear Hi Hr. split.
      + intros [[H|H] _].
        * destruct H as ([[Hru|[]] [Hfr|[]]] & _ & _ & H1 & H2 & H3 & H4 & _ & -> & _). specialize (H1 Hru). apply sf_group; auto; lia.
        * destruct H as ([[Hru|[]] [Hne|[]]] & _ & _ & H1 & H2 & H3 & H4 & -> & H5 & _). specialize (H1 Hru). apply sf_nested; auto; lia.
      + intros H. inversion H as [? ? ? ? ? ? ? Hru H1 H2 H3 H4|? ? ? ? ? ? ? Hru H1 H2 H3 H4 H5]; subst; (split; [|reflexivity]);
          assert (rule <> "") by (destruct Hru; subst; discriminate).
        * left. repeat split; auto; lia.
        * right. repeat split; auto; lia.
    - rewrite om_list_eq, om_str_eq. clear. intros [([_ [Hf|[]]] & _) (_ & _ & _ & _ & _ & _ & _ & E & _)]. contradiction.
  Qed.
End Req.

Lemma fmt_nonempty (l : list (option (list string))) : Forall (given (fun l => l <> [])) l <-> (forall x, In (Some x) l -> x <> []).
Proof. rewrite Forall_forall. split; [intros H x Hx; apply (H _ Hx)|intros H [x|] Hx; cbn; auto]. Qed.

Section Ev.
  Variable re fmt : string -> string -> bool.
  Variable ext : string -> json -> bool.
  Notation ev1 := (ev re fmt ext def1).
  Notation ev2 := (ev re fmt ext def2).
  Lemma alg2 n l : ev2 (S (S (S n))) (JObj [("type", JStr "object"); ("additionalProperties", JBool false);
    ("properties", JObj [("alg", JObj [("type", JStr "array"); ("minItems", jnum 1); ("items", JObj [("type", JStr "string")])])])]) (alg_json l) = true <-> True.
  Proof. unfold alg_json. objs. tauto. Qed.
  Lemma pt2 n l : ev2 (S (S (S n))) (JObj [("type", JStr "object"); ("additionalProperties", JBool false);
    ("properties", JObj [("proof_type", JObj [("type", JStr "array"); ("minItems", jnum 1); ("items", JObj [("type", JStr "string")])])])]) (proof_type_json l) = true <-> True.
  Proof. unfold proof_type_json. objs. tauto. Qed.
  Lemma format2 n s f : mget (obj_members (mget (obj_members (Some def2_d_input_descriptor)) "properties")) "format" = Some s ->
    ev2 (S (S (S (S n)))) s (format_json f) = true <-> format_fine V2 f.
  Proof.
    intros [= <-]. unfold format_json. rewrite ev_S. kws. rewrite ?andb_true_r, ?andb_true_l. rewrite forallb_fields.
    unfold member_ok. cbn [filter allf fst snd mget].
    repeat match goal with |- context [matches re ?p ?k] => let b := eval vm_compute in (matches re p k) in change (matches re p k) with b end.
    cbn [forallb snd andb]. rewrite !g_none, !om_ptr_eq.
    Ltac gopt2 f lem := match goal with |- context [given ?P (om_ptr f ?o)] =>
      let H := fresh in assert (H : given P (om_ptr f o) <-> given (fun _ => True) o) by
        (rewrite om_ptr_given; apply given_iff; let x := fresh in intros x _; cbn beta; rewrite ?andb_true_r; apply lem); rewrite H; clear H end.
    do 3 gopt2 alg_json alg2. do 3 gopt2 proof_type_json pt2.
    assert (G : forall o : option (list string), given (fun _ => True) o <-> True) by (intros [?|]; cbn; tauto). rewrite !G.
    unfold format_fine. split; [intros H; repeat split; try tauto; discriminate|tauto].
  Qed.
  Hypothesis re_add : forall k, In k ["jwt"; "jwt_vc"; "jwt_vp"; "ldp"; "ldp_vc"; "ldp_vp"; "cwt_vc"; "cwt_vp"] -> re "additionalProperties" k = false.
  Lemma desc1 n d : ev1 (11 + n) def1_d_input_descriptors (desc_json d) = true <-> desc_fine (draft07 ext) V1 d.
  Proof.
    unfold def1_d_input_descriptors, desc_json. cbn [plus]. objs.
    match goal with |- context [given ?P (om_ptr cons_json ?o)] =>
      assert (H : given P (om_ptr cons_json o) <-> given (cons_fine (draft07 ext) V1) o) by
        (rewrite om_ptr_given; apply given_iff; intros c _; apply (cons1 re fmt ext (1 + n)); reflexivity); rewrite H; clear H end.
    match goal with |- context [given ?P (om_list (ptr schema_json) ?o)] =>
      assert (H : given P (om_list (ptr schema_json) o) <-> pointers schema_fine o) end.
    { apply g_arr; [|reflexivity]. intros x _. rewrite (ref1 re fmt ext _ _ def1_d_schema) by reflexivity. apply schema1. }
    rewrite H, om_ptr_eq, om_map_eq. unfold desc_fine. tauto.
  Qed.
  Lemma desc2 n d : ev2 (11 + n) def2_d_input_descriptor (desc_json d) = true <-> desc_fine (draft07 ext) V2 d.
  Proof.
    unfold def2_d_input_descriptor, desc_json. cbn [plus]. objs.
    match goal with |- context [given ?P (om_ptr cons_json ?o)] =>
      assert (H : given P (om_ptr cons_json o) <-> given (cons_fine (draft07 ext) V2) o) by
        (rewrite om_ptr_given; apply given_iff; intros c _; apply (cons2 re fmt ext (1 + n)); reflexivity); rewrite H; clear H end.
    match goal with |- context [given ?P (om_ptr format_json ?o)] =>
      assert (H : given P (om_ptr format_json o) <-> given (format_fine V2) o) by
        (rewrite om_ptr_given; apply given_iff; intros c _; apply format2; reflexivity); rewrite H; clear H end.
    rewrite om_list_eq, om_map_eq. unfold desc_fine. tauto.
  Qed.
  Definition depth_reqs (p : gdef) (n : nat) : Prop := forall s, In (Some s) (gp_reqs p) -> (2 * depth (sreq_json s) + 4 <= n)%nat.
  Lemma ref_null1 n r s : resolve def1 r = Some s -> ev1 n s JNull = false -> ev1 (S n) (JObj [("$ref", JStr r)]) JNull = false.
  Proof. intros E H. now rewrite (ref1 re fmt ext n r s). Qed.
  Lemma ref_null2 n r s : resolve def2 r = Some s -> ev2 n s JNull = false -> ev2 (S n) (JObj [("$ref", JStr r)]) JNull = false.
  Proof. intros E H. now rewrite (ref2 re fmt ext n r s). Qed.
  Lemma pdef1 n p : (forall s, In (Some s) (gp_reqs p) -> (2 * depth (sreq_json s) + 4 <= 11 + n)%nat) ->
    ev1 (14 + n) def1_p_presentation_definition (def_json p) = true <-> def_fine (draft07 ext) V1 p.
  Proof.
    intros Hd. unfold def1_p_presentation_definition, def_json. cbn [plus]. objs.
    match goal with |- context [given ?P (om_ptr format_json ?o)] =>
      assert (H : given P (om_ptr format_json o) <-> given (format_fine V1) o) by
        (rewrite om_ptr_given; apply given_iff; intros c _; rewrite (ref1 re fmt ext _ _ def1_d_format) by reflexivity; apply format1; assumption); rewrite H; clear H end.
    match goal with |- context [given ?P (om_list (ptr sreq_json) ?o)] => assert (H : given P (om_list (ptr sreq_json) o) <-> pointers sreq_fine o) end.
    { apply g_arr; [|reflexivity]. intros x Hx. rewrite (ref1 re fmt ext _ _ def1_d_submission_requirements) by reflexivity.
      apply (sreq_ok re fmt ext def1 "#/definitions/submission_requirements" eq_refl). specialize (Hd x Hx). lia. }
    rewrite H. clear H.
    match goal with |- context [given ?P (om_list (ptr desc_json) ?o)] => assert (H : given P (om_list (ptr desc_json) o) <-> pointers (desc_fine (draft07 ext) V1) o) end.
    { apply g_arr; [|reflexivity]. intros x _. rewrite (ref1 re fmt ext _ _ def1_d_input_descriptors) by reflexivity. apply (desc1 n). }
    rewrite H. clear H. rewrite om_map_eq, om_str_eq. unfold def_fine. tauto.
  Qed.
  Lemma pdef2 n p : (forall s, In (Some s) (gp_reqs p) -> (2 * depth (sreq_json s) + 4 <= 11 + n)%nat) ->
    ev2 (14 + n) def2_d_presentation_definition (def_json p) = true <-> def_fine (draft07 ext) V2 p.
  Proof.
    intros Hd. unfold def2_d_presentation_definition, def_json. cbn [plus]. objs.
    match goal with |- context [given ?P (om_ptr format_json ?o)] =>
      assert (H : given P (om_ptr format_json o) <-> given (format_fine V2) o) by
        (rewrite om_ptr_given; apply given_iff; intros c _; apply format2; reflexivity); rewrite H; clear H end.
    match goal with |- context [given ?P (om_list (ptr sreq_json) ?o)] => assert (H : given P (om_list (ptr sreq_json) o) <-> pointers sreq_fine o) end.
    { apply g_arr; [|reflexivity]. intros x Hx. rewrite (ref2 re fmt ext _ _ def2_d_submission_requirement) by reflexivity.
      apply (sreq_ok re fmt ext def2 "#/definitions/submission_requirement" eq_refl). specialize (Hd x Hx). lia. }
    rewrite H. clear H.
    match goal with |- context [given ?P (om_list (ptr desc_json) ?o)] => assert (H : given P (om_list (ptr desc_json) o) <-> pointers (desc_fine (draft07 ext) V2) o) end.
    { apply g_arr; [|reflexivity]. intros x _. rewrite (ref2 re fmt ext _ _ def2_d_input_descriptor) by reflexivity. apply (desc2 n). }
    rewrite H. clear H.
    match goal with |- context [given ?P (om_map ?o)] => assert (H : given P (om_map o) <-> True) end.
    { rewrite om_map_given. split; auto. intros _ _. rewrite ev_S. kws. rewrite ?andb_true_r. apply forallb_forall. intros x _. reflexivity. }
    rewrite H. clear H. rewrite om_str_eq. unfold def_fine. split; [intros H; repeat split; try tauto; discriminate|tauto].
  Qed.
  Lemma top1 n d : ev1 (S n) def1 (JObj [("presentation_definition", d)]) = true <-> ev1 n def1_p_presentation_definition d = true.
  Proof. unfold def1 at 2. rewrite ev_S. generalize (ev1 n). intros f. kws. unfold member_ok. cbn [filter forallb fst snd mget String.eqb Ascii.eqb Bool.eqb obj_members andb]. rewrite ?andb_true_r. apply iff_refl. Qed.
  Lemma top2 n d : ev2 (S n) def2 (JObj [("presentation_definition", d)]) = true <-> ev2 n def2_p_presentation_definition d = true.
  Proof. unfold def2 at 2. rewrite ev_S. generalize (ev2 n). intros f. kws. unfold member_ok. cbn [filter forallb fst snd mget String.eqb Ascii.eqb Bool.eqb obj_members andb]. rewrite ?andb_true_r. apply iff_refl. Qed.
  Lemma fuel_reqs p : exists m, (20 + 10 * depth (JObj [("presentation_definition", def_json p)]) = 17 + m)%nat /\ forall s, In (Some s) (gp_reqs p) -> (2 * depth (sreq_json s) + 4 <= 11 + m)%nat.
  Proof.
    set (doc := JObj [("presentation_definition", def_json p)]).
    exists (3 + 10 * depth doc)%nat. split; [lia|]. intros s Hs.
    assert (H : (depth (sreq_json s) + 2 <= depth (def_json p))%nat) by (unfold def_json; eapply depth_list; [|exact Hs]; do 6 right; left; reflexivity).
    assert (H' : (depth (def_json p) < depth doc)%nat) by (apply (depth_member "presentation_definition"); left; reflexivity). clearbody doc. lia.
  Qed.
  Lemma valid1 p : js_valid re fmt ext def1 (JObj [("presentation_definition", def_json p)]) = true <-> def_fine (draft07 ext) V1 p.
  Proof.
    destruct (fuel_reqs p) as (m & Em & Hd). unfold js_valid. rewrite Em. change (17 + m)%nat with (S (16 + m)). rewrite top1. apply (pdef1 (2 + m)).
    intros s Hs. specialize (Hd s Hs). lia.
  Qed.
  Lemma valid2 p : js_valid re fmt ext def2 (JObj [("presentation_definition", def_json p)]) = true <-> def_fine (draft07 ext) V2 p.
  Proof.
    destruct (fuel_reqs p) as (m & Em & Hd). unfold js_valid. rewrite Em. change (17 + m)%nat with (S (S (15 + m))). rewrite top2.
    unfold def2_p_presentation_definition. rewrite (ref2 re fmt ext _ _ def2_d_presentation_definition) by reflexivity. apply (pdef2 (1 + m)).
    intros s Hs. specialize (Hd s Hs). lia.
  Qed.
  Lemma validate_schema_ok p : validate_schema re fmt ext (Some p) = Ok tt <-> def_fine (draft07 ext) V1 p \/ def_fine (draft07 ext) V2 p.
  Proof.
    rewrite <- valid1, <- valid2. unfold validate_schema. cbn [ptr].
    generalize (js_valid re fmt ext def1 (JObj [("presentation_definition", def_json p)])) (js_valid re fmt ext def2 (JObj [("presentation_definition", def_json p)])).
    intros [|] [|]; cbn; intuition discriminate.
  Qed.
  Lemma validate_schema_result o : validate_schema re fmt ext o = Ok tt \/ validate_schema re fmt ext o = Err "invalid presentation definition".
  Proof. unfold validate_schema. destruct (js_valid re fmt ext def1 _); [now left|]. destruct (js_valid re fmt ext def2 _); cbn; auto. Qed.
End Ev.
