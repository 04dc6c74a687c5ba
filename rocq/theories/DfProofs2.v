(** The structures, one by one, against the schemas of both versions. *)
From Verif Require Import GoBase StatusModel PexModel JsModel JsSchemas JsProofs JsDesc DfModel DfSpec DfProofs.

Ltac mem := unfold member_ok, member_simple; cbn [filter mget String.eqb Ascii.eqb Bool.eqb fst snd forallb andb obj_members].
Ltac objs := rewrite ev_S; kws; rewrite ?andb_true_r, ?andb_true_l, ?andb_true_iff, ?forallb_simple, ?mhas_hasf;
  cbn [allf fst snd hasf String.eqb Ascii.eqb Bool.eqb]; mem;
  rewrite ?g_true, ?g_none, ?g_str, ?g_pstr, ?g_bool, ?g_int, ?g_min, ?g_ns, ?g_enum, ?g_rule, ?g_strs, ?g_strs1, ?g_nss, ?g_not,
    ?om_str_none, ?om_list_none, ?om_ptr_none.

Lemma om_ptr_eq {A} (f : A -> json) o : om_ptr f o = None <-> o = None.
Proof. destruct o; cbn; split; congruence. Qed.
Section Ev.
  Variable re fmt : string -> string -> bool.
  Variable ext : string -> json -> bool.
  Notation ev1 := (ev re fmt ext def1).
  Notation ev2 := (ev re fmt ext def2).
  Lemma schema1 n s : ev1 (S (S n)) def1_d_schema (schema_json s) = true <-> schema_fine s.
  Proof. unfold def1_d_schema, schema_json. objs. unfold schema_fine. tauto. Qed.
  Lemma filter1 n f : ev1 (S (S (S n))) def1_d_filter (filter_json f) = true <-> filter_fine (draft07 ext) V1 f.
  Proof. unfold def1_d_filter, filter_json, item_fields. cbn [app]. objs. unfold filter_fine. tauto. Qed.
  Lemma alg1 n l : ev1 (S (S (S n))) (JObj [("type", JStr "object");
    ("properties", JObj [("alg", JObj [("type", JStr "array"); ("minItems", jnum 1); ("items", JObj [("type", JStr "string")])])]);
    ("required", JArr [JStr "alg"]); ("additionalProperties", JBool false)]) (alg_json l) = true <-> l <> [].
  Proof. unfold alg_json. objs. tauto. Qed.
  Lemma pt1 n l : ev1 (S (S (S n))) (JObj [("type", JStr "object");
    ("properties", JObj [("proof_type", JObj [("type", JStr "array"); ("minItems", jnum 1); ("items", JObj [("type", JStr "string")])])]);
    ("required", JArr [JStr "proof_type"]); ("additionalProperties", JBool false)]) (proof_type_json l) = true <-> l <> [].
  Proof. unfold proof_type_json. objs. tauto. Qed.
  Lemma one_of2 v A B d (PA PB : Prop) : (v A d = true <-> PA) -> (v B d = true <-> PB) -> ~ (PA /\ PB) ->
    Nat.eqb (count_valid v [A; B] d) 1 = true <-> PA \/ PB.
  Proof. intros HA HB HN. cbn. rewrite <- HA, <- HB in *. destruct (v A d), (v B d); cbn; intuition congruence. Qed.
  Variable re_add : forall k, In k ["jwt"; "jwt_vc"; "jwt_vp"; "ldp"; "ldp_vc"; "ldp_vp"; "cwt_vc"; "cwt_vp"] -> re "additionalProperties" k = false.
  Lemma add_none k : In k ["jwt"; "jwt_vc"; "jwt_vp"; "ldp"; "ldp_vc"; "ldp_vp"; "cwt_vc"; "cwt_vp"] -> matches re "additionalProperties" k = false.
  Proof. intros H. change (re "additionalProperties" k = false). now apply re_add. Qed.
  Lemma format1 n f : ev1 (S (S (S (S n)))) def1_d_format (format_json f) = true <-> format_fine V1 f.
  Proof.
    unfold def1_d_format, format_json. rewrite ev_S. kws. rewrite ?andb_true_r, ?andb_true_l. rewrite forallb_fields.
    unfold member_ok. cbn [filter allf fst snd mget].
    rewrite !add_none by (cbn; tauto).
    repeat match goal with |- context [matches re ?p ?k] => let b := eval vm_compute in (matches re p k) in change (matches re p k) with b end.
    cbn [forallb snd andb]. rewrite !g_none.
    Ltac gopt f lem := match goal with |- context [given ?P (om_ptr f ?o)] =>
      let H := fresh in assert (H : given P (om_ptr f o) <-> given (fun l => l <> []) o) by
        (rewrite om_ptr_given; apply given_iff; let x := fresh in intros x _; cbn beta; rewrite ?andb_true_r; apply lem); rewrite H; clear H end.
    do 3 gopt alg_json alg1. do 3 gopt proof_type_json pt1. unfold format_fine. rewrite <- !(om_ptr_eq alg_json).
    assert (E : forall l : list (option (list string)), Forall (given (fun l => l <> [])) l <-> (forall x, In (Some x) l -> x <> [])).
    { intros l. rewrite Forall_forall. split; [intros H x Hx; apply (H _ Hx)|intros H [x|] Hx; cbn; auto]. }
    rewrite <- E, !fa_cons, fa_nil. tauto.
  Qed.
  Lemma free_members v m : forallb (fun kv => member_ok re v [] [] None (fst kv) (snd kv)) m = true.
  Proof. apply forallb_forall. intros [k x] _. reflexivity. Qed.
  Lemma om_bool_eq b : om_bool b = None <-> b = false.
  Proof. destruct b; cbn; split; congruence. Qed.
  Lemma om_str_eq s : om_str s = None <-> s = "".
  Proof. unfold om_str. destruct (String.eqb_spec s ""); split; congruence. Qed.
  Lemma om_map_eq m : om_map m = None <-> m = [].
  Proof. destruct m; cbn; split; congruence. Qed.
  Lemma om_list_eq {A} (g : A -> json) l : om_list g l = None <-> l = [].
  Proof. destruct l; cbn; split; congruence. Qed.
  (** references *)
  Lemma ref1 n r s d : resolve def1 r = Some s -> ev1 (S n) (JObj [("$ref", JStr r)]) d = ev1 n s d.
  Proof. intros E. rewrite ev_S. cbn [mget String.eqb Ascii.eqb Bool.eqb]. now rewrite E. Qed.
  Lemma ref2 n r s d : resolve def2 r = Some s -> ev2 (S n) (JObj [("$ref", JStr r)]) d = ev2 n s d.
  Proof. intros E. rewrite ev_S. cbn [mget String.eqb Ascii.eqb Bool.eqb]. now rewrite E. Qed.
  Lemma gfilter1 n o : given (fun x => ev1 (4 + n) (JObj [("$ref", JStr "#/definitions/filter")]) x = true) (om_ptr filter_json o) <->
    given (filter_fine (draft07 ext) V1) o.
  Proof. rewrite om_ptr_given. apply given_iff. intros f _. cbn [plus]. rewrite (ref1 _ _ def1_d_filter) by reflexivity. apply filter1. Qed.
  Lemma gfilter2 n o : given (fun x => ev2 (S n) (JObj [("$ref", JStr "http://json-schema.org/draft-07/schema#")]) x = true) (om_ptr filter_json o) <->
    given (filter_fine (draft07 ext) V2) o.
  Proof. rewrite om_ptr_given. apply given_iff. intros f _. reflexivity. Qed.
  Ltac fieldt := cbn [given] in *; intuition (try congruence; try discriminate).
  Lemma field1 n f : ev1 (6 + n) def1_d_field (field_json f) = true <-> field_fine (draft07 ext) V1 f.
  Proof.
    unfold def1_d_field, field_json. cbn [plus]. rewrite ev_S. kws. rewrite ?andb_true_r, ?andb_true_l, ?andb_true_iff, free_members.
    erewrite one_of2; [|objs; reflexivity|objs; reflexivity|].
    - rewrite !(gfilter1 n), !om_ptr_eq, !om_bool_eq. unfold field_fine. destruct (gd_pred f); fieldt.
    - rewrite !om_ptr_eq. intuition.
  Qed.
  Lemma field2 n f : ev2 (6 + n) def2_d_field (field_json f) = true <-> field_fine (draft07 ext) V2 f.
  Proof.
    unfold def2_d_field, field_json. cbn [plus]. rewrite ev_S. kws. rewrite ?andb_true_r, ?andb_true_l, ?andb_true_iff, free_members.
    erewrite one_of2; [|objs; reflexivity|objs; reflexivity|].
    - rewrite !gfilter2, !om_ptr_eq, !om_bool_eq. unfold field_fine. destruct (gd_pred f); fieldt.
    - rewrite !om_ptr_eq. intuition.
  Qed.
  Definition holder_schema1 : gomap json := [("type", JStr "object");
    ("properties", JObj [("field_id", JObj [("type", JStr "array"); ("items", JObj [("type", JStr "string")])]);
    ("directive", JObj [("type", JStr "string"); ("enum", JArr [JStr "required"; JStr "preferred"])])]); ("required", JArr [JStr "field_id";
    JStr "directive"]); ("additionalProperties", JBool false)].
  Definition holder_schema2 : gomap json := [("type", JStr "object"); ("additionalProperties", JBool false);
    ("properties", JObj [("field_id", JObj [("type", JStr "array"); ("items", JObj [("type", JStr "string")])]);
    ("directive", JObj [("type", JStr "string"); ("enum", JArr [JStr "required"; JStr "preferred"])])]); ("required", JArr [JStr "field_id";
    JStr "directive"])].
  Lemma pref_ex o : o <> None /\ given preference o <-> exists d, o = Some d /\ preference d.
  Proof. destruct o as [d|]; cbn; split; [intros [_ H]; eauto|intros (x & [= <-] & H); split; [discriminate|assumption]|intros [H _]; congruence|intros (x & H & _); discriminate]. Qed.
  Lemma holder1 n h : ev1 (3 + n) (JObj holder_schema1) (holder_json h) = true <-> holder_fine h.
  Proof. unfold holder_schema1, holder_json. cbn [plus]. objs. unfold holder_fine. rewrite <- pref_ex. tauto. Qed.
  Lemma holder2 n h : ev2 (3 + n) (JObj holder_schema2) (holder_json h) = true <-> holder_fine h.
  Proof. unfold holder_schema2, holder_json. cbn [plus]. objs. unfold holder_fine. rewrite <- pref_ex. tauto. Qed.
  Lemma gholder1 n l : given (fun x => ev1 (4 + n) (JObj [("type", JStr "array"); ("items", JObj holder_schema1)]) x = true) (om_list (ptr holder_json) l) <-> pointers holder_fine l.
  Proof. apply g_arr; [intros x _; apply (holder1 n)|reflexivity]. Qed.
  Lemma gholder2 n l : given (fun x => ev2 (4 + n) (JObj [("type", JStr "array"); ("items", JObj holder_schema2)]) x = true) (om_list (ptr holder_json) l) <-> pointers holder_fine l.
  Proof. apply g_arr; [intros x _; apply (holder2 n)|reflexivity]. Qed.
  Lemma gfield1 n l : given (fun x => ev1 (8 + n) (JObj [("type", JStr "array"); ("items", JObj [("$ref", JStr "#/definitions/field")])]) x = true) (om_list (ptr field_json) l) <->
    pointers (field_fine (draft07 ext) V1) l.
  Proof. apply g_arr; [intros x _; cbn [plus]; rewrite (ref1 _ _ def1_d_field) by reflexivity; apply (field1 n)|reflexivity]. Qed.
  Lemma gfield2 n l : given (fun x => ev2 (8 + n) (JObj [("type", JStr "array"); ("items", JObj [("$ref", JStr "#/definitions/field")])]) x = true) (om_list (ptr field_json) l) <->
    pointers (field_fine (draft07 ext) V2) l.
  Proof. apply g_arr; [intros x _; cbn [plus]; rewrite (ref2 _ _ def2_d_field) by reflexivity; apply (field2 n)|reflexivity]. Qed.
  Lemma cons1 n s c : mget (obj_members (mget (obj_members (Some def1_d_input_descriptors)) "properties")) "constraints" = Some s ->
    ev1 (9 + n) s (cons_json c) = true <-> cons_fine (draft07 ext) V1 c.
  Proof.
    intros [= <-]. unfold cons_json. cbn [plus]. objs. rewrite (gholder1 (4 + n)), (gfield1 n). unfold cons_fine. tauto.
  Qed.
  Lemma cons2 n s c : mget (obj_members (mget (obj_members (Some def2_d_input_descriptor)) "properties")) "constraints" = Some s ->
    ev2 (9 + n) s (cons_json c) = true <-> cons_fine (draft07 ext) V2 c.
  Proof.
    intros [= <-]. unfold cons_json. cbn [plus]. objs. rewrite (gholder2 (4 + n)), (gfield2 n). unfold cons_fine. tauto.
  Qed.
End Ev.
