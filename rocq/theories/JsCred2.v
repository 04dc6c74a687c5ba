(** What the embedded schemas of data model 2.0 and of presentations accept. *)
From Verif Require Import GoBase StatusModel SdSpec JsModel JsSpec JsSchemas JsProofs JsDesc JsCred.

(** an open object, from the descriptions of its members *)
Ltac obj kk keys flds := eapply desc_iff; [eapply desc_object with (k := kk) (ks := keys) (fs := flds); [plain|auto|cbn; nodups|fs2]|].

Section Common2.
  Variable re fmt : string -> string -> bool.
  Variable ext : string -> json -> bool.
  Variable root : json.
  Notation Desc := (Desc re fmt ext root).
  Lemma desc_v2_types : Desc 2 (JObj [("oneOf", JArr [JObj [("type", JStr "string")]; JObj [("type", JStr "array"); ("minItems", jnum 1)]])]) v2_type.
  Proof. apply desc_one2; [apply desc_str|apply desc_min1|]. intros d [s ->] (l & E & _). discriminate. Qed.
  Lemma desc_one_or_more k s P : Desc k (JObj s) P -> (forall l, P (JArr l) -> False) ->
    Desc (S (S k)) (JObj [("oneOf", JArr [JObj s; JObj [("type", JStr "array"); ("items", JObj s); ("minItems", jnum 1)]])]) (one_or_more P).
  Proof.
    intros H Hx. apply desc_one2; [eapply desc_weak; [apply H|lia]|apply desc_items1, H|]. intros d Hp (l & -> & _). eauto.
  Qed.
  Lemma desc_subject : Desc 2 (JObj [("type", JStr "object"); ("properties", JObj [("id", JObj [("type", JStr "string")])]); ("minProperties", jnum 1)]) v2_subject.
  Proof.
    start n d Hw. jst. destruct d as [| | | | |m]; try nope. kws. change (jnum 1) with (JNum (inject_Z 1)). cbv iota.
    rewrite ?andb_true_r, andb_true_iff, (at_least_1 ext root). unfold v2_subject, object.
    cbn [obj_members].
    rewrite (open_members re (ev re fmt ext root n) [("id", JObj [("type", JStr "string")])] m (proj1 (proj1 (wf_obj m) Hw)) ltac:(cbn; nodups) None) by now left.
    rewrite Forall_cons_iff. cbn [fst snd].
    assert (E : member m "id" (fun x => ev re fmt ext root n (JObj [("type", JStr "string")]) x = true) <-> member m "id" is_str).
    { apply member_iff. intros x Hx. apply (desc_str re fmt ext root n x); [lia|]. eapply wf_mget; eauto. }
    rewrite E. split; [intros [G1 [G2 _]]; now exists m|intros (x & X & G1 & G2); injection X as <-; auto].
  Qed.
  Lemma desc_v2_issuer : Desc 3 cred2_p_issuer v2_issuer.
  Proof.
    apply desc_one2; [wk desc_str| |].
    - obj 0%nat ["id"] [("id", is_str)].
      + apply desc_str.
      + intros d _. apply object_iff. intros m _. rewrite !required_iff. cbn.
        split; [intros (H & H1 & _); auto 6|intros (H1 & H2); repeat split; auto; intros k [<-|[]]; auto].
    - intros d [s ->] (l & E & _). discriminate.
  Qed.
  Lemma desc_v2_method : Desc 4 (JObj [("oneOf", JArr [JObj [("type", JStr "string")];
    JObj [("type", JStr "array"); ("minItems", jnum 1); ("items", JObj [("type", JStr "object");
    ("properties", JObj [("id", JObj [("type", JStr "string")]); ("type", JObj [("type", JStr "string")]);
    ("controller", JObj [("type", JStr "string")])]); ("required", JArr [JStr "id"; JStr "type"; JStr "controller"]);
    ("additionalProperties", JBool true)])]])]) v2_method.
  Proof.
    apply desc_one2; [wk desc_str| |].
    - apply desc_items1'. obj 0%nat ["id"; "type"; "controller"] [("id", is_str); ("type", is_str); ("controller", is_str)].
      + apply desc_str.
      + apply desc_str.
      + apply desc_str.
      + intros d _. apply object_iff. intros m _. rewrite !required_iff. cbn.
        split; [intros (H & H1 & H2 & H3 & _); auto 9|intros ((H1 & H2) & (H3 & H4) & H5 & H6); repeat split; auto; intros k [<-|[<-|[<-|[]]]]; auto].
    - intros d [s ->] (l & E & _). discriminate.
  Qed.
  Section Typed.
    Variable t : json.
    Hypothesis Ht : Desc 3 t v2_type.
    Lemma desc_v2_typed_id : Desc 4 (JObj [("type", JStr "object"); ("properties", JObj [("id", JObj [("type", JStr "string")]); ("type", t)]);
      ("required", JArr [JStr "id"; JStr "type"]); ("additionalProperties", JBool true)]) v2_typed_id.
    Proof.
      obj 2%nat ["id"; "type"] [("id", is_str); ("type", v2_type)].
      - wk desc_str.
      - apply Ht.
      - intros d _. apply object_iff. intros m _. rewrite !required_iff. cbn.
        split; [intros (H & H1 & H2 & _); auto 6|intros ((H1 & H2) & H3 & H4); repeat split; auto; intros k [<-|[<-|[]]]; auto].
    Qed.
    Lemma desc_v2_typed : Desc 4 (JObj [("type", JStr "object"); ("properties", JObj [("id", JObj [("type", JStr "string")]); ("type", t)]);
      ("required", JArr [JStr "type"]); ("additionalProperties", JBool true)]) v2_typed.
    Proof.
      obj 2%nat ["type"] [("id", is_str); ("type", v2_type)].
      - wk desc_str.
      - apply Ht.
      - intros d _. apply object_iff. intros m _. rewrite !required_iff. cbn.
        split; [intros (H & H1 & H2 & _); auto 6|intros (H1 & H3 & H4); repeat split; auto; intros k [<-|[]]; auto].
    Qed.
  End Typed.
  Lemma desc_time : Desc 1 (JObj [("type", JStr "string"); ("pattern", JStr v2_time)]) (text_matching re v2_time).
  Proof. apply desc_pattern. reflexivity. Qed.
  Lemma d2_context : Desc 2 cred2_p_context v2_contexts.
  Proof.
    eapply desc_iff; [eapply desc_contains1; [apply desc_const'|now right]|]. intros d _. apply array_iff. intros l _. apply some_eq.
  Qed.
End Common2.

Section V2.
  Variable re fmt : string -> string -> bool.
  Variable ext : string -> json -> bool.
  Variable req : list string.
  Notation Desc := (Desc re fmt ext (cred2 req)).
  Lemma d2_type_ref : Desc 3 (JObj [("$ref", JStr "#/$defs/type")]) v2_type.
  Proof. eapply desc_ref; [reflexivity|apply desc_v2_types]. Qed.
  Lemma not_arr_typed_id l : v2_typed_id (JArr l) -> False. Proof. intros (m & E & _). discriminate. Qed.
  Lemma not_arr_typed l : v2_typed (JArr l) -> False. Proof. intros (m & E & _). discriminate. Qed.
  Lemma not_arr_subject l : v2_subject (JArr l) -> False. Proof. intros (m & E & _). discriminate. Qed.
  Lemma not_arr_proof c l : v2_proof c (JArr l) -> False. Proof. intros (m & E & _). discriminate. Qed.
  Lemma d2_proof : Desc 6 cred2_d_proof (v2_proof v2_created).
  Proof.
    obj 4%nat ["type"; "proofPurpose"; "verificationMethod"] [("type", v2_type); ("proofPurpose", is_str); ("verificationMethod", v2_method); ("created", is_str);
      ("domain", is_str); ("challenge", is_str); ("proofValue", is_str)].
    - wk d2_type_ref.
    - wk desc_str.
    - wk desc_v2_method.
    - wk desc_str.
    - wk desc_str.
    - wk desc_str.
    - wk desc_str.
    - intros d _. apply object_iff. intros m _. unfold v2_created. rewrite !required_iff. cbn.
      split; [intros (H & H1 & H2 & H3 & H4 & H5 & H6 & H7 & _); repeat split; auto 9
             |intros ((H1 & H2) & (H3 & H4) & (H5 & H6) & H7 & H8 & H9 & H10); repeat split; auto; intros k [<-|[<-|[<-|[]]]]; auto].
  Qed.
  Lemma d2_proof_ref : Desc 7 (JObj [("$ref", JStr "#/$defs/proof")]) (v2_proof v2_created).
  Proof. eapply desc_ref; [reflexivity|apply d2_proof]. Qed.
  Lemma d2_chain_ref : Desc 9 (JObj [("$ref", JStr "#/$defs/proofChain")]) (array (nonempty (each (v2_proof v2_created)))).
  Proof. eapply desc_ref; [reflexivity|apply desc_items1, d2_proof_ref]. Qed.
  Lemma cred2_accepts m n : wf_json (JObj m) -> (12 <= n)%nat ->
    ev re fmt ext (cred2 req) n (cred2 req) (JObj m) = true <-> v2_credential re req m.
  Proof.
    intros Hw Hn. destruct n as [|n]; [lia|].
    eapply iff_trans; [eapply (top_members re fmt ext (cred2 req) 8 n _ ("@context" :: req) _
      [("@context", v2_contexts); ("id", is_str); ("type", typed "VerifiableCredential"); ("issuer", v2_issuer);
       ("validFrom", text_matching re v2_time); ("validUntil", text_matching re v2_time);
       ("credentialSubject", one_or_more v2_subject); ("credentialStatus", one_or_more v2_typed_id); ("credentialSchema", one_or_more v2_typed_id);
       ("refreshService", one_or_more v2_typed_id); ("termsOfUse", one_or_more v2_typed); ("evidence", one_or_more v2_typed);
       ("proof", one_or_more (v2_proof v2_created)); ("proofChain", array (nonempty (each (v2_proof v2_created))))] (Some (JBool true)) m)|].
    - repeat split; try reflexivity; left; reflexivity.
    - now right.
    - cbn. nodups.
    - fs2.
      + wk d2_context.
      + wk desc_str.
      + wk desc_v2_type.
      + wk desc_v2_issuer.
      + wk desc_time.
      + wk desc_time.
      + eapply desc_weak; [eapply desc_one_or_more; [eapply desc_ref; [reflexivity|apply desc_subject]|apply not_arr_subject]|lia].
      + eapply desc_weak; [eapply desc_one_or_more; [eapply desc_ref; [reflexivity|apply desc_v2_typed_id, d2_type_ref]|apply not_arr_typed_id]|lia].
      + eapply desc_weak; [eapply desc_one_or_more; [eapply desc_ref; [reflexivity|apply desc_v2_typed_id, d2_type_ref]|apply not_arr_typed_id]|lia].
      + eapply desc_weak; [eapply desc_one_or_more; [eapply desc_ref; [reflexivity|apply desc_v2_typed_id, d2_type_ref]|apply not_arr_typed_id]|lia].
      + eapply desc_weak; [eapply desc_one_or_more; [eapply desc_ref; [reflexivity|apply desc_v2_typed, d2_type_ref]|apply not_arr_typed]|lia].
      + eapply desc_weak; [eapply desc_one_or_more; [eapply desc_ref; [reflexivity|apply desc_v2_typed, d2_type_ref]|apply not_arr_typed]|lia].
      + eapply desc_weak; [eapply desc_one_or_more; [apply d2_proof_ref|apply not_arr_proof]|lia].
      + wk d2_chain_ref.
    - lia.
    - assumption.
    - cbn [members fst snd]. split.
      + intros (Hk & H1 & H2 & H3 & H4 & H5 & H6 & H7 & H8 & H9 & H10 & H11 & H12 & H13 & H14 & _).
        constructor; auto; [apply Hk; now left|intros k Hi; apply Hk; now right].
      + intros []. repeat split; auto. intros k [<-|Hk]; auto.
  Qed.
End V2.

Section P1.
  Variable re fmt : string -> string -> bool.
  Variable ext : string -> json -> bool.
  Notation Desc := (Desc re fmt ext pres1).
  Lemma e1_context : Desc 4 pres1_p_context v1_contexts.
  Proof.
    apply desc_one2; [eapply desc_iff; [wk desc_const|]|eapply desc_weak; [apply desc_ctx_list; [apply desc_obj_or_str1|lia]|lia]|].
    - intros d _. unfold v1_uri. split; congruence.
    - intros d -> (l & E & _). discriminate.
  Qed.
  Lemma e1_proof_ref : Desc 3 (JObj [("$ref", JStr "#/definitions/proof")]) v1_proof.
  Proof. eapply desc_ref; [reflexivity|apply desc_proof_obj]. Qed.
  Lemma e1_first k s P : Desc k (JObj s) P -> Desc (S k) (JObj [("type", JStr "array"); ("items", JArr [JObj s])])
    (array (fun l => l = [] \/ exists p r, l = p :: r /\ P p)).
  Proof.
    intros H. start n d Hw. jst. destruct d as [| | | |l|]; try nope. kws. rewrite ?andb_true_r.
    transitivity (l = [] \/ exists p r, l = p :: r /\ P p).
    - destruct l as [|y r]; [cbn; intuition|]. change (tuple_items ?v [?c] ?z (y :: r)) with (v c y && tuple_items v [] z r)%bool.
      assert (E : tuple_items (ev re fmt ext pres1 n) [] None r = true) by (destruct r; reflexivity). rewrite E, andb_true_r.
      rewrite (H n y ltac:(lia)); [|apply wf_arr in Hw; now inversion Hw].
      split; [intros G; right; eauto|intros [G|(p & r' & G & Hp)]; [discriminate|injection G as -> ->; assumption]].
    - split; [intros G; now exists l|intros (l' & E & G); injection E as <-; assumption].
  Qed.
  Lemma pres1_accepts m n : wf_json (JObj m) -> (12 <= n)%nat -> ev re fmt ext pres1 n pres1 (JObj m) = true <-> v1_presentation fmt m.
  Proof.
    intros Hw Hn. destruct n as [|n]; [lia|].
    eapply iff_trans; [eapply (top_members re fmt ext pres1 8 n _ ["@context"; "type"] _
      [("@context", v1_contexts); ("id", is_str); ("type", typed "VerifiablePresentation");
       ("verifiableCredential", or_null (fun d => array (fun _ => True) d \/ is_obj d \/ is_str d));
       ("proof", fun d => v1_proof d \/ array (fun l => l = [] \/ exists p r, l = p :: r /\ v1_proof p) d);
       ("refreshService", v1_typed_id fmt)] None m)|].
    - repeat split; try reflexivity; [right; reflexivity|left; reflexivity].
    - now left.
    - cbn. nodups.
    - fs2.
      + wk e1_context.
      + wk desc_str.
      + wk (desc_v1_type re fmt ext pres1 "^VerifiablePresentation$" "VerifiablePresentation" eq_refl).
      + wk desc_vcs.
      + eapply desc_weak; [eapply desc_iff; [apply desc_any with (k := 4%nat); apply Forall2_cons; [apply e1_first, e1_proof_ref|apply Forall2_cons; [wk e1_proof_ref|apply Forall2_nil]]|]|lia].
        intros d _. rewrite !Exists_cons, Exists_nil. tauto.
      + eapply desc_weak; [eapply desc_ref; [reflexivity|apply desc_typed_obj]|lia].
    - lia.
    - assumption.
    - cbn [members fst snd]. split.
      + intros (Hk & H1 & H2 & H3 & H4 & H5 & H6 & _). constructor; auto; apply Hk; cbn; auto.
      + intros []. repeat split; auto. intros k [<-|[<-|[]]]; auto.
  Qed.
End P1.

Section P2.
  Variable re fmt : string -> string -> bool.
  Variable ext : string -> json -> bool.
  Notation Desc := (Desc re fmt ext pres2).
  Notation p2_proof := (v2_proof (fun m => required m "created" (text_matching re v2_time))).
  Lemma e2_proof : Desc 6 pres2_d_proof p2_proof.
  Proof.
    obj 4%nat ["type"; "proofPurpose"; "verificationMethod"; "created"] [("type", v2_type); ("proofPurpose", is_str); ("verificationMethod", v2_method);
      ("created", text_matching re v2_time); ("domain", is_str); ("challenge", is_str); ("proofValue", is_str)].
    - wk desc_v2_types.
    - wk desc_str.
    - wk desc_v2_method.
    - wk desc_time.
    - wk desc_str.
    - wk desc_str.
    - wk desc_str.
    - intros d _. apply object_iff. intros m _. rewrite !required_iff. cbn [members fst snd].
      split; [intros (H & H1 & H2 & H3 & H4 & H5 & H6 & H7 & _); repeat split; auto; apply H; cbn; auto
             |intros ((H1 & H2) & (H3 & H4) & (H5 & H6) & (H7 & H7') & H8 & H9 & H10); repeat split; auto; intros k [<-|[<-|[<-|[<-|[]]]]]; auto].
  Qed.
  Lemma e2_proof_ref : Desc 7 (JObj [("$ref", JStr "#/$defs/proof")]) p2_proof.
  Proof. eapply desc_ref; [reflexivity|apply e2_proof]. Qed.
  Lemma pres2_accepts m n : wf_json (JObj m) -> (12 <= n)%nat -> ev re fmt ext pres2 n pres2 (JObj m) = true <-> v2_presentation re m.
  Proof.
    intros Hw Hn. destruct n as [|n]; [lia|].
    eapply iff_trans; [eapply (top_members re fmt ext pres2 8 n _ ["@context"; "type"] _
      [("@context", v2_contexts); ("id", is_str); ("type", typed "VerifiablePresentation");
       ("verifiableCredential", or_null (fun d => array (fun _ => True) d \/ is_obj d \/ is_str d));
       ("proof", one_or_more p2_proof); ("proofChain", array (nonempty (each p2_proof)))] (Some (JBool true)) m)|].
    - repeat split; try reflexivity; left; reflexivity.
    - now right.
    - cbn. nodups.
    - fs2.
      + wk d2_context.
      + wk desc_str.
      + wk desc_v2_type.
      + wk desc_vcs.
      + eapply desc_weak; [eapply desc_one_or_more; [apply e2_proof_ref|apply not_arr_proof]|lia].
      + eapply desc_ref; [reflexivity|apply desc_items1, e2_proof_ref].
    - lia.
    - assumption.
    - cbn [members fst snd]. split.
      + intros (Hk & H1 & H2 & H3 & H4 & H5 & H6 & _). constructor; auto; apply Hk; cbn; auto.
      + intros []. repeat split; auto. intros k [<-|[<-|[]]]; auto.
  Qed.
End P2.
