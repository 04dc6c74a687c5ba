(** What the embedded credential and presentation schemas accept. *)
From Verif Require Import GoBase StatusModel SdSpec JsModel JsSpec JsSchemas JsProofs JsDesc.

Ltac plain := repeat split; try reflexivity; try (left; reflexivity); try (right; split; reflexivity).
Ltac fs2 := repeat (apply Forall2_cons; [split; [reflexivity|cbn [snd]]|]); [..|apply Forall2_nil].
Ltac wk H := eapply desc_weak; [apply H|lia].

Section Common.
  Variable re fmt : string -> string -> bool.
  Variable ext : string -> json -> bool.
  Variable root : json.
  Notation Desc := (Desc re fmt ext root).
  Lemma desc_str_or_list : Desc 3 (JObj [("anyOf", JArr [JObj [("type", JStr "string")]; JObj [("type", JStr "array"); ("items", JObj [("type", JStr "string")])]])])
    (fun d => is_str d \/ array (each is_str) d).
  Proof.
    eapply desc_iff; [apply desc_any with (k := 2%nat); apply Forall2_cons; [wk desc_str|apply Forall2_cons; [apply desc_items, desc_str|apply Forall2_nil]]|].
    intros d _. rewrite !Exists_cons, Exists_nil. tauto.
  Qed.
  Definition typed_fields : list (string * (json -> Prop)) := [("id", uri fmt); ("type", fun d => is_str d \/ array (each is_str) d)].
  Lemma desc_typed_obj : Desc 4 (JObj [("type", JStr "object"); ("required", JArr [JStr "id"; JStr "type"]);
      ("properties", JObj [("id", JObj [("type", JStr "string"); ("format", JStr "uri")]);
       ("type", JObj [("anyOf", JArr [JObj [("type", JStr "string")]; JObj [("type", JStr "array"); ("items", JObj [("type", JStr "string")])]])])])])
    (v1_typed_id fmt).
  Proof.
    eapply desc_iff; [eapply desc_object with (k := 2%nat) (ks := ["id"; "type"]) (fs := typed_fields)|].
    - plain.
    - now left.
    - cbn. nodups.
    - unfold typed_fields. fs2; [wk desc_uri|apply desc_str_or_list].
    - intros d _. unfold v1_typed_id. apply object_iff. intros m _. rewrite !required_iff. cbn.
      split; [intros (H & H1 & H2 & _); auto 6|intros ((H1 & H2) & H3 & H4); repeat split; auto; intros k [<-|[<-|[]]]; auto].
  Qed.
  Lemma desc_proof_obj : Desc 2 (JObj [("type", JStr "object"); ("required", JArr [JStr "type"]); ("properties", JObj [("type", JObj [("type", JStr "string")])])]) v1_proof.
  Proof.
    eapply desc_iff; [eapply desc_object with (k := 0%nat) (ks := ["type"]) (fs := [("type", is_str)])|].
    - plain.
    - now left.
    - cbn. nodups.
    - fs2. apply desc_str.
    - intros d _. unfold v1_proof. apply object_iff. intros m _. rewrite !required_iff. cbn.
      split; [intros (H & H1 & _); auto 6|intros (H1 & H2); repeat split; auto; intros k [<-|[]]; auto].
  Qed.
  Lemma desc_issuer_obj : Desc 2 (JObj [("type", JStr "object"); ("required", JArr [JStr "id"]); ("properties", JObj [("id", JObj [("type", JStr "string"); ("format", JStr "uri")])])])
    (object (fun m => required m "id" (uri fmt))).
  Proof.
    eapply desc_iff; [eapply desc_object with (k := 0%nat) (ks := ["id"]) (fs := [("id", uri fmt)])|].
    - plain.
    - now left.
    - cbn. nodups.
    - fs2. apply desc_uri.
    - intros d _. apply object_iff. intros m _. rewrite !required_iff. cbn.
      split; [intros (H & H1 & _); auto 6|intros (H1 & H2); repeat split; auto; intros k [<-|[]]; auto].
  Qed.
  (** the list form of @context *)
  Lemma desc_ctx_list k x a P : Desc k (JObj a) P -> (1 <= k)%nat ->
    Desc (S k) (JObj [("type", JStr "array"); ("items", JArr [JObj [("type", JStr "string"); ("const", JStr x)]]); ("uniqueItems", JBool true); ("additionalItems", JObj a)])
      (array (fun l => l = [] \/ exists r, l = JStr x :: r /\ each P r /\ distinct l)).
  Proof.
    intros Ha Hk n d Hn Hw. destruct n as [|n]; [lia|]. jst. destruct d as [| | | |l|]; try nope. kws. rewrite ?andb_true_r, ?andb_true_l.
    rewrite andb_true_iff, (all_distinct_iff l) by now apply wf_arr.
    transitivity (l = [] \/ exists r, l = JStr x :: r /\ each P r /\ distinct l).
    - destruct l as [|y r].
      + cbn [tuple_items]. split; [now left|]. intros _. split; [reflexivity|constructor].
      + change (tuple_items ?v [?c] ?z (y :: r)) with (v c y && tuple_items v [] z r)%bool. rewrite andb_true_iff. assert (Hr : wf_json (JArr r)) by (apply wf_arr; apply wf_arr in Hw; now inversion Hw).
        assert (E : tuple_items (ev re fmt ext root n) [] (Some (JObj a)) r = forallb (ev re fmt ext root n (JObj a)) r) by (destruct r; reflexivity).
        rewrite E, (forallb_desc re fmt ext root k n _ P r Ha ltac:(lia) Hr). clear E.
        rewrite (desc_const re fmt ext root x n y ltac:(lia)); [|apply wf_arr in Hw; now inversion Hw].
        split; [intros [[<- H1] H2]; right; now exists r|intros [H|(r' & H & H1 & H2)]; [discriminate|]]. injection H as -> ->. auto.
    - split; [intros H; now exists l|intros (l' & E & H); injection E as <-; assumption].
  Qed.
  Lemma desc_obj_or_str : Desc 2 (JObj [("anyOf", JArr [JObj [("type", JStr "object")]; JObj [("type", JStr "string")]])]) (fun x => is_obj x \/ is_str x).
  Proof.
    eapply desc_iff; [apply desc_any with (k := 1%nat); apply Forall2_cons; [apply desc_anyobj|apply Forall2_cons; [apply desc_str|apply Forall2_nil]]|].
    intros d _. rewrite !Exists_cons, Exists_nil. tauto.
  Qed.
  Lemma desc_obj_or_str1 : Desc 2 (JObj [("oneOf", JArr [JObj [("type", JStr "object")]; JObj [("type", JStr "string")]])]) (fun x => is_obj x \/ is_str x).
  Proof. apply desc_one2; [apply desc_anyobj|apply desc_str|]. intros d [m ->] [s E]. discriminate. Qed.
  Lemma desc_v1_type p x : literals (split_on "|" p) = Some [x] ->
    Desc 3 (JObj [("oneOf", JArr [JObj [("type", JStr "array"); ("minItems", jnum 1); ("contains", JObj [("type", JStr "string"); ("pattern", JStr p)])];
                                  JObj [("type", JStr "string"); ("pattern", JStr p)]])]) (typed x).
  Proof.
    intros Hp. eapply desc_typed_by; [| |reflexivity].
    - eapply desc_iff; [eapply desc_contains1; [apply (desc_lit re fmt ext root p x Hp)|now left]|]. intros d _. apply array_iff. intros l _. apply some_eq.
    - wk (desc_lit re fmt ext root p x Hp).
  Qed.
  Lemma desc_v2_type x :
    Desc 3 (JObj [("oneOf", JArr [JObj [("type", JStr "array"); ("contains", JObj [("const", JStr x)])]; JObj [("type", JStr "string"); ("enum", JArr [JStr x])]])]) (typed x).
  Proof.
    eapply desc_typed_by; [| |reflexivity].
    - eapply desc_iff; [eapply desc_contains; [apply desc_const'|reflexivity]|]. intros d _. apply array_iff. intros l _. apply some_eq.
    - eapply desc_iff; [wk (desc_enum re fmt ext root [x])|]. intros d _. unfold one_of. cbn. split; [intros (s & -> & [<-|[]]); reflexivity|intros <-; eauto].
  Qed.
  Lemma desc_arr_obj_str : Desc 2 (JObj [("anyOf", JArr [JObj [("type", JStr "array")]; JObj [("type", JStr "object")]; JObj [("type", JStr "string")]])])
    (fun d => array (fun _ => True) d \/ is_obj d \/ is_str d).
  Proof.
    eapply desc_iff; [apply desc_any with (k := 1%nat); apply Forall2_cons; [apply desc_anyarr|apply Forall2_cons; [apply desc_anyobj|apply Forall2_cons; [apply desc_str|apply Forall2_nil]]]|].
    intros d _. rewrite !Exists_cons, Exists_nil. tauto.
  Qed.
  Lemma desc_vcs : Desc 2 (JObj [("anyOf", JArr [JObj [("type", JStr "array")]; JObj [("type", JStr "object")]; JObj [("type", JStr "string")]; JObj [("type", JStr "null")]])])
    (or_null (fun d => array (fun _ => True) d \/ is_obj d \/ is_str d)).
  Proof.
    eapply desc_iff; [apply desc_any with (k := 1%nat); apply Forall2_cons; [apply desc_anyarr|apply Forall2_cons; [apply desc_anyobj|apply Forall2_cons; [apply desc_str|apply Forall2_cons; [apply desc_null|apply Forall2_nil]]]]|].
    intros d _. rewrite !Exists_cons, Exists_nil. unfold or_null. split; [intros [H|[H|[H|[H|[]]]]]|intros [H|[H|[H|H]]]]; auto 6.
  Qed.
End Common.

(** ** Data model 1.1 *)
Section V1.
  Variable re fmt : string -> string -> bool.
  Variable ext : string -> json -> bool.
  Variable req : list string.
  Notation Desc := (Desc re fmt ext (cred1 req)).
  Lemma d1_typed : Desc 5 cred1_d_typedID (or_null (v1_typed_id fmt)).
  Proof.
    eapply desc_iff; [apply desc_any with (k := 4%nat); apply Forall2_cons; [wk desc_null|apply Forall2_cons; [apply desc_typed_obj|apply Forall2_nil]]|].
    intros d _. rewrite !Exists_cons, Exists_nil. unfold or_null. intuition congruence.
  Qed.
  Lemma d1_typed_ref : Desc 6 (JObj [("$ref", JStr "#/definitions/typedID")]) (or_null (v1_typed_id fmt)).
  Proof. eapply desc_ref; [reflexivity|apply d1_typed]. Qed.
  Lemma d1_typeds : Desc 8 cred1_d_typedIDs (or_null (fun d => v1_typed_id fmt d \/ array (each (or_null (v1_typed_id fmt))) d)).
  Proof.
    eapply desc_iff; [apply desc_any with (k := 7%nat); apply Forall2_cons; [wk d1_typed_ref|apply Forall2_cons; [apply desc_items, d1_typed_ref|apply Forall2_cons; [wk desc_null|apply Forall2_nil]]]|].
    intros d _. rewrite !Exists_cons, Exists_nil. unfold or_null at 1 3. intuition congruence.
  Qed.
  Lemma d1_typeds_ref : Desc 9 (JObj [("$ref", JStr "#/definitions/typedIDs")]) (or_null (fun d => v1_typed_id fmt d \/ array (each (or_null (v1_typed_id fmt))) d)).
  Proof. eapply desc_ref; [reflexivity|apply d1_typeds]. Qed.
  Lemma d1_proof_ref : Desc 3 (JObj [("$ref", JStr "#/definitions/proof")]) v1_proof.
  Proof. eapply desc_ref; [reflexivity|apply desc_proof_obj]. Qed.
  Lemma d1_proofs : Desc 5 cred1_p_proof (or_null (fun d => v1_proof d \/ array (each v1_proof) d)).
  Proof.
    eapply desc_iff; [apply desc_any with (k := 4%nat); apply Forall2_cons; [wk d1_proof_ref|apply Forall2_cons; [apply desc_items, d1_proof_ref|apply Forall2_cons; [wk desc_null|apply Forall2_nil]]]|].
    intros d _. rewrite !Exists_cons, Exists_nil. unfold or_null. intuition congruence.
  Qed.
  Lemma d1_context : Desc 4 cred1_p_context v1_contexts.
  Proof.
    eapply desc_iff; [apply desc_any with (k := 3%nat); apply Forall2_cons; [wk desc_const|apply Forall2_cons; [apply desc_ctx_list; [apply desc_obj_or_str|lia]|apply Forall2_nil]]|].
    intros d _. rewrite !Exists_cons, Exists_nil. unfold v1_contexts, v1_uri. intuition congruence.
  Qed.
  Lemma d1_issuer : Desc 3 cred1_p_issuer (v1_issuer fmt).
  Proof.
    eapply desc_iff; [apply desc_any with (k := 2%nat); apply Forall2_cons; [wk desc_uri|apply Forall2_cons; [apply desc_issuer_obj|apply Forall2_nil]]|].
    intros d _. rewrite !Exists_cons, Exists_nil. unfold v1_issuer. tauto.
  Qed.
  Lemma cred1_accepts m n : wf_json (JObj m) -> (12 <= n)%nat ->
    ev re fmt ext (cred1 req) n (cred1 req) (JObj m) = true <-> v1_credential fmt req m.
  Proof.
    intros Hw Hn. destruct n as [|n]; [lia|].
    eapply iff_trans; [eapply (top_members re fmt ext (cred1 req) 8 n _ ("@context" :: req) _
      [("@context", v1_contexts); ("id", is_str); ("type", typed "VerifiableCredential");
       ("credentialSubject", fun d => array (fun _ => True) d \/ is_obj d \/ is_str d);
       ("issuer", v1_issuer fmt); ("issuanceDate", date_time fmt); ("proof", or_null (fun d => v1_proof d \/ array (each v1_proof) d));
       ("expirationDate", or_null (date_time fmt)); ("credentialStatus", or_null (v1_typed_id fmt));
       ("credentialSchema", or_null (fun d => v1_typed_id fmt d \/ array (each (or_null (v1_typed_id fmt))) d));
       ("evidence", or_null (fun d => v1_typed_id fmt d \/ array (each (or_null (v1_typed_id fmt))) d));
       ("refreshService", or_null (v1_typed_id fmt))] None m)|].
    - repeat split; try reflexivity; [right; reflexivity|left; reflexivity].
    - now left.
    - cbn. nodups.
    - fs2.
      + wk d1_context.
      + wk desc_str.
      + wk (desc_v1_type re fmt ext (cred1 req) "^VerifiableCredential$" "VerifiableCredential" eq_refl).
      + wk desc_arr_obj_str.
      + wk d1_issuer.
      + wk desc_date.
      + wk d1_proofs.
      + wk desc_date_null.
      + wk d1_typed_ref.
      + wk d1_typeds_ref.
      + wk d1_typeds_ref.
      + wk d1_typed_ref.
    - lia.
    - assumption.
    - cbn [members fst snd]. split.
      + intros (Hk & H1 & H2 & H3 & H4 & H5 & H6 & H7 & H8 & H9 & H10 & H11 & H12 & _). constructor; auto; [apply Hk; now left|intros k Hi; apply Hk; now right].
      + intros []. repeat split; auto. intros k [<-|Hk]; auto.
  Qed.
End V1.
