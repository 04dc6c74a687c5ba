(** Credentials made with CreateCredential pass the default schemas. *)
From Verif Require Import GoBase StatusModel PexModel StrLemmas JwtSpec DiSpec VcSpec SdSpec JwtModel SdModel DiModel VcModel VcProofs
  JsModel JsSpec JsProofs.

(** ** What the caller has to supply *)
Definition v1_members : list string := ["@context"; "id"; "type"; "credentialSubject"; "issuer"; "issuanceDate"; "proof"; "expirationDate"; "credentialStatus";
  "credentialSchema"; "evidence"; "refreshService"].
Record good_v1 (fmt : string -> string -> bool) (E : tenv) (c : contents) (custom : gomap json) (ps : list (gomap json)) : Prop := {
  g1_context : exists r, vc_context c = v1_uri :: r /\ NoDup (vc_context c);
  g1_custom_context : each is_obj (vc_custom_ctx c) /\ distinct (vc_custom_ctx c);
  g1_types : In "VerifiableCredential" (vc_types c);
  g1_subject : vc_subject c <> [];
  g1_issuer : exists i, vc_issuer c = Some i /\ is_id i <> "" /\ fmt "uri" (is_id i) = true;
  g1_issued : exists t, vc_issued c = Some t /\ fmt "date-time" (tw_text E t) = true;
  g1_expired : forall t, vc_expired c = Some t -> fmt "date-time" (tw_text E t) = true;
  g1_status : vc_status c = [] \/ exists t, vc_status c = [t];
  g1_typed : forall t, In t (vc_status c) \/ In t (vc_schemas c) \/ vc_refresh c = Some t -> fmt "uri" (ti_id t) = true;
  g1_evidence : forall e, vc_evidence c = Some e -> or_null (fun d => v1_typed_id fmt d \/ array (each (v1_typed_id fmt)) d) e;
  g1_proofs : forall p, In p ps -> required p "type" is_str;
  g1_extra : forall k, In k (map fst custom) -> ~ In k v1_members }.
Definition v2_members : list string := ["@context"; "id"; "type"; "credentialSubject"; "issuer"; "validFrom"; "validUntil"; "credentialStatus";
  "credentialSchema"; "refreshService"; "termsOfUse"; "evidence"; "proof"; "proofChain"].
Record good_v2 (re : string -> string -> bool) (E : tenv) (c : contents) (custom : gomap json) (ps : list (gomap json)) : Prop := {
  g2_context : exists r, vc_context c = v2_uri :: r;
  g2_types : In "VerifiableCredential" (vc_types c);
  g2_subject : vc_subject c <> [] /\ forall s, In s (vc_subject c) -> (sj_id s <> "" \/ sj_custom s <> []) /\ no_key "id" (sj_custom s);
  g2_issuer : exists i, vc_issuer c = Some i /\ is_id i <> "";
  g2_dates : forall t, vc_issued c = Some t \/ vc_expired c = Some t -> re v2_time (tw_text E t) = true;
  g2_evidence : forall e, vc_evidence c = Some e -> one_or_more v2_typed e;
  g2_proofs : forall p, In p ps -> v2_proof v2_created (JObj p);
  g2_extra : forall k, In k (map fst custom) -> ~ In k v2_members }.

Lemma made_member E c ps custom ks k : (forall k, In k (map fst custom) -> ~ In k ks) -> In k ks ->
  mget (cr_json (create_with_proofs E c custom ps)) k = VcProofs.member E c ps k.
Proof.
  intros Hx Hk. cbn [create_with_proofs cr_json]. rewrite mget_add_custom, serialize_member. destruct (VcProofs.member E c ps k); [reflexivity|].
  destruct (mget custom k) eqn:E1; [|reflexivity]. exfalso. apply (Hx k); [|assumption]. apply mget_In in E1. change k with (fst (k, j)). now apply in_map.
Qed.

Lemma typed_made fmt t : fmt "uri" (ti_id t) = true -> v1_typed_id fmt (JObj (typed_obj t)).
Proof.
  intros H. exists (typed_obj t). split; [reflexivity|]. unfold typed_obj, required. rewrite !mget_mset. cbn. split.
  - eexists. split; [reflexivity|]. exists (ti_id t). auto.
  - eexists. split; [reflexivity|]. left. now eexists.
Qed.
Lemma typed2_made t : v2_typed_id (JObj (typed_obj t)) /\ v2_typed (JObj (typed_obj t)).
Proof.
  split; exists (typed_obj t); (split; [reflexivity|]); unfold typed_obj, required, JsSpec.member; rewrite !mget_mset; cbn; (split; [|eexists; split; [reflexivity|left; now eexists]]).
  - eexists. split; [reflexivity|]. now eexists.
  - intros x [= <-]. now eexists.
Qed.
Lemma typeds_made fmt l : l <> [] -> (forall t, In t l -> fmt "uri" (ti_id t) = true) ->
  v1_typed_id fmt (typed_ids_json l) \/ array (each (or_null (v1_typed_id fmt))) (typed_ids_json l).
Proof.
  intros Hn H. destruct l as [|t [|u l]]; [congruence| |].
  - left. apply typed_made, H. now left.
  - right. eexists. split; [reflexivity|]. intros x Hx. apply in_map_iff in Hx as (y & <- & Hy). right. now apply typed_made, H.
Qed.
Lemma typeds2_made (P : json -> Prop) l : (forall t, In t l -> P (JObj (typed_obj t))) -> l <> [] -> one_or_more P (typed_ids_json l).
Proof.
  intros HP Hn. destruct l as [|t [|u l]]; [congruence| |].
  - left. apply HP. now left.
  - right. eexists. split; [reflexivity|]. split; [discriminate|]. intros x Hx. apply in_map_iff in Hx as (y & <- & Hy). now apply HP.
Qed.
Lemma types_made l : In "VerifiableCredential" l -> typed "VerifiableCredential" (types_json l).
Proof.
  intros H. destruct l as [|t [|u l]]; [destruct H| |].
  - destruct H as [->|[]]. now left.
  - right. eexists. split; [reflexivity|]. now apply in_map.
Qed.
Lemma time_text E t : format_time E t = tw_text E t.
Proof. unfold format_time, tw_text. now destruct (String.eqb (tw_str t) ""). Qed.
Lemma distinct_app l k : distinct l -> distinct k -> (forall x y, In x l -> In y k -> ~ jeq x y) -> distinct (l ++ k)%list.
Proof.
  intros Hl Hk H. induction Hl as [|x l Hx Hl IH]; cbn; [assumption|]. constructor.
  - apply Forall_app. split; [assumption|]. apply Forall_forall. intros y Hy. apply H; [now left|assumption].
  - apply IH. intros a b Ha Hb. apply H; [now right|assumption].
Qed.
Lemma distinct_strs l : NoDup l -> distinct (map JStr l).
Proof.
  induction 1 as [|x l Hx Hl IH]; cbn; constructor; [|assumption]. apply Forall_forall. intros y Hy. apply in_map_iff in Hy as (z & <- & Hz).
  intros Hj. inversion Hj; subst; contradiction.
Qed.
Lemma member_nonempty {A} (l : list A) v x : VcModel.nonempty l v = Some x -> l <> [] /\ x = v.
Proof. destruct l; [discriminate|]. intros [= <-]. split; [discriminate|reflexivity]. Qed.
Lemma issuer_made i : is_id i <> "" -> issuer_json i = JStr (is_id i) \/ exists m, issuer_json i = JObj m /\ mget m "id" = Some (JStr (is_id i)).
Proof.
  intros Hn. unfold issuer_json. destruct (is_custom i) eqn:Ec; [now left|right]. eexists. split; [reflexivity|]. unfold issuer_to.
  destruct (String.eqb_spec (is_id i) ""); [contradiction|]. rewrite mget_mset. reflexivity.
Qed.

(** what member [k] is, for the members of each model *)
Ltac slot c k := unfold VcProofs.member, members; destruct (v2 c) eqn:?; cbn [mget String.eqb Ascii.eqb Bool.eqb].
Section Made1.
  Variable fmt : string -> string -> bool.
  Variable E : tenv.
  Variable c : contents.
  Variable custom : gomap json.
  Variable ps : list (gomap json).
  Hypothesis G : good_v1 fmt E c custom ps.
  Notation J := (cr_json (create_with_proofs E c custom ps)).
  Lemma v2_no : v2 c = false.
  Proof. destruct (g1_context _ _ _ _ _ G) as (r & Hr & _). unfold v2, is_base_context. rewrite Hr. reflexivity. Qed.
  Lemma made1 k : In k v1_members -> mget J k = VcProofs.member E c ps k.
  Proof. intros H. apply (made_member E c ps custom v1_members); [apply (g1_extra _ _ _ _ _ G)|assumption]. Qed.
  Ltac get k := unfold JsSpec.member, has; rewrite (made1 k) by (cbn; tauto); unfold VcProofs.member, members; rewrite v2_no; cbn [mget String.eqb Ascii.eqb Bool.eqb].
  Lemma created_v1 : v1_credential fmt ["type"; "credentialSubject"; "issuer"; "issuanceDate"] J.
  Proof.
    pose proof (g1_context _ _ _ _ _ G) as (r & Hr & Hnd). pose proof (g1_custom_context _ _ _ _ _ G) as (Hc1 & Hc2).
    pose proof (g1_issuer _ _ _ _ _ G) as (i & Hi & Hin & Hiu). pose proof (g1_issued _ _ _ _ _ G) as (ti & Ht & Htf).
    assert (Hctx : context_json (vc_context c) (vc_custom_ctx c) = JStr v1_uri :: (map JStr r ++ vc_custom_ctx c)%list) by (unfold context_json; now rewrite Hr).
    constructor.
    - get "@context". rewrite Hctx. cbn. eauto.
    - intros k [<-|[<-|[<-|[<-|[]]]]].
      + get "type". pose proof (g1_types _ _ _ _ _ G) as H. destruct (vc_types c); [destruct H|cbn; eauto].
      + get "credentialSubject". pose proof (g1_subject _ _ _ _ _ G) as H. destruct (vc_subject c); [congruence|cbn; eauto].
      + get "issuer". rewrite Hi. cbn. eauto.
      + get "issuanceDate". rewrite Ht. cbn. eauto.
    - get "@context". intros x Hx. apply member_nonempty in Hx as [_ ->]. right. eexists. split; [reflexivity|]. right.
      exists (map JStr r ++ vc_custom_ctx c)%list. split; [assumption|]. split.
      + intros x Hx. apply in_app_iff in Hx as [Hx|Hx]; [right|left; now apply Hc1]. apply in_map_iff in Hx as (s & <- & _). now eexists.
      + unfold context_json. apply distinct_app; [now apply distinct_strs|assumption|]. intros x y Hx Hy Hj. apply in_map_iff in Hx as (s & <- & _).
        apply Hc1 in Hy as (m & ->). inversion Hj.
    - get "id". intros x Hx. destruct (String.eqb (vc_id c) ""); [discriminate|]. injection Hx as <-. now eexists.
    - get "type". intros x Hx. apply member_nonempty in Hx as [_ ->]. apply types_made, (g1_types _ _ _ _ _ G).
    - get "credentialSubject". intros x Hx. apply member_nonempty in Hx as [Hn ->]. destruct (vc_subject c) as [|s [|u l]]; [congruence| |]; cbn [subjects_json].
      + right. left. now eexists.
      + left. now eexists.
    - get "issuer". rewrite Hi. intros x [= <-]. destruct (issuer_made i Hin) as [->|(m & -> & Hm)].
      + left. now exists (is_id i).
      + right. exists m. split; [reflexivity|]. exists (JStr (is_id i)). split; [assumption|]. now exists (is_id i).
    - get "issuanceDate". rewrite Ht. intros x [= <-]. rewrite time_text. now exists (tw_text E ti).
    - get "proof". intros x Hx. apply member_nonempty in Hx as [Hn ->]. right. pose proof (g1_proofs _ _ _ _ _ G) as Hp.
      destruct ps as [|p [|q l]]; [congruence| |]; cbn [proofs_to_raw].
      + left. exists p. split; [reflexivity|]. apply Hp. now left.
      + right. eexists. split; [reflexivity|]. intros y Hy. apply in_map_iff in Hy as (z & <- & Hz). exists z. split; [reflexivity|]. now apply Hp.
    - get "expirationDate". intros x Hx. destruct (vc_expired c) as [t|] eqn:He; [|discriminate]. injection Hx as <-. right. rewrite time_text.
      exists (tw_text E t). split; [reflexivity|]. now apply (g1_expired _ _ _ _ _ G).
    - get "credentialStatus". intros x Hx. apply member_nonempty in Hx as [Hn ->]. right. pose proof (g1_typed _ _ _ _ _ G) as Hp.
      destruct (g1_status _ _ _ _ _ G) as [He|(t & He)]; [congruence|]. rewrite He in *. cbn [typed_ids_json]. apply typed_made, Hp. left. now left.
    - get "credentialSchema". intros x Hx. apply member_nonempty in Hx as [Hn ->]. right. apply typeds_made; [assumption|].
      intros t Hit. apply (g1_typed _ _ _ _ _ G). auto.
    - get "evidence". intros x Hx. destruct (g1_evidence _ _ _ _ _ G x Hx) as [->|[H|(l & -> & H)]]; [now left|right; now left|right; right].
      exists l. split; [reflexivity|]. intros y Hy. right. now apply H.
    - get "refreshService". intros x Hx. destruct (vc_refresh c) as [t|] eqn:He; [|discriminate]. injection Hx as <-. right. apply typed_made, (g1_typed _ _ _ _ _ G). auto.
  Qed.
End Made1.
Section Made2.
  Variable re : string -> string -> bool.
  Variable E : tenv.
  Variable c : contents.
  Variable custom : gomap json.
  Variable ps : list (gomap json).
  Hypothesis G : good_v2 re E c custom ps.
  Notation J := (cr_json (create_with_proofs E c custom ps)).
  Lemma v2_yes : v2 c = true.
  Proof. destruct (g2_context _ _ _ _ _ G) as (r & Hr). unfold v2, is_base_context. rewrite Hr. reflexivity. Qed.
  Lemma made2 k : In k v2_members -> mget J k = VcProofs.member E c ps k.
  Proof. intros H. apply (made_member E c ps custom v2_members); [apply (g2_extra _ _ _ _ _ G)|assumption]. Qed.
  Ltac get k := unfold JsSpec.member, has; rewrite (made2 k) by (cbn; tauto); unfold VcProofs.member, members; rewrite v2_yes; cbn [mget String.eqb Ascii.eqb Bool.eqb].
  Lemma subject2_made s : (sj_id s <> "" \/ sj_custom s <> []) -> no_key "id" (sj_custom s) -> v2_subject (JObj (subject_to s)).
  Proof.
    intros Hn Hk. eexists. split; [reflexivity|]. unfold subject_to. destruct (String.eqb_spec (sj_id s) "") as [Ez|Ez].
    - split; [destruct Hn; [contradiction|assumption]|]. intros x Hx. exfalso. apply Hk. apply mget_In in Hx. change "id" with (fst ("id", x)). now apply in_map.
    - split.
      + intros E0. apply (f_equal (fun m => mget m "id")) in E0. rewrite mget_mset in E0. discriminate E0.
      + intros x. rewrite mget_mset. cbn. intros [= <-]. now eexists.
  Qed.
  Lemma created_v2 : v2_credential re ["type"; "credentialSubject"; "issuer"] J.
  Proof.
    pose proof (g2_context _ _ _ _ _ G) as (r & Hr). pose proof (g2_issuer _ _ _ _ _ G) as (i & Hi & Hin).
    assert (Hctx : context_json (vc_context c) (vc_custom_ctx c) = JStr v2_uri :: (map JStr r ++ vc_custom_ctx c)%list) by (unfold context_json; now rewrite Hr).
    constructor.
    - get "@context". rewrite Hctx. cbn. eauto.
    - intros k [<-|[<-|[<-|[]]]].
      + get "type". pose proof (g2_types _ _ _ _ _ G) as H. destruct (vc_types c); [destruct H|cbn; eauto].
      + get "credentialSubject". pose proof (g2_subject _ _ _ _ _ G) as [H _]. destruct (vc_subject c); [congruence|cbn; eauto].
      + get "issuer". rewrite Hi. cbn. eauto.
    - get "@context". intros x Hx. apply member_nonempty in Hx as [_ ->]. rewrite Hctx. eexists. split; [reflexivity|]. now left.
    - get "id". intros x Hx. destruct (String.eqb (vc_id c) ""); [discriminate|]. injection Hx as <-. now eexists.
    - get "type". intros x Hx. apply member_nonempty in Hx as [_ ->]. apply types_made, (g2_types _ _ _ _ _ G).
    - get "credentialSubject". intros x Hx. apply member_nonempty in Hx as [Hn ->]. pose proof (g2_subject _ _ _ _ _ G) as [_ H].
      destruct (vc_subject c) as [|s [|u l]]; [congruence| |]; cbn [subjects_json].
      + left. apply subject2_made; apply H; now left.
      + right. eexists. split; [reflexivity|]. split; [discriminate|]. intros x Hx. apply in_map_iff in Hx as (y & <- & Hy). apply subject2_made; now apply H.
    - get "issuer". rewrite Hi. intros x [= <-]. destruct (issuer_made i Hin) as [->|(m & -> & Hm)].
      + left. now eexists.
      + right. exists m. split; [reflexivity|]. exists (JStr (is_id i)). split; [assumption|]. now eexists.
    - get "validFrom". intros x Hx. destruct (vc_issued c) as [t|] eqn:He; [|discriminate]. injection Hx as <-. rewrite time_text.
      exists (tw_text E t). split; [reflexivity|]. apply (g2_dates _ _ _ _ _ G). auto.
    - get "validUntil". intros x Hx. destruct (vc_expired c) as [t|] eqn:He; [|discriminate]. injection Hx as <-. rewrite time_text.
      exists (tw_text E t). split; [reflexivity|]. apply (g2_dates _ _ _ _ _ G). auto.
    - get "credentialStatus". intros x Hx. apply member_nonempty in Hx as [Hn ->]. apply typeds2_made; [|assumption]. intros t _. apply typed2_made.
    - get "credentialSchema". intros x Hx. apply member_nonempty in Hx as [Hn ->]. apply typeds2_made; [|assumption]. intros t _. apply typed2_made.
    - get "refreshService". intros x Hx. destruct (vc_refresh c) as [t|] eqn:He; [|discriminate]. injection Hx as <-. left. apply typed2_made.
    - get "termsOfUse". intros x Hx. apply member_nonempty in Hx as [Hn ->]. apply typeds2_made; [|assumption]. intros t _. apply typed2_made.
    - get "evidence". apply (g2_evidence _ _ _ _ _ G).
    - get "proof". intros x Hx. apply member_nonempty in Hx as [Hn ->]. pose proof (g2_proofs _ _ _ _ _ G) as Hp.
      destruct ps as [|p [|q l]]; [congruence| |]; cbn [proofs_to_raw].
      + left. apply Hp. now left.
      + right. eexists. split; [reflexivity|]. split; [discriminate|]. intros y Hy. apply in_map_iff in Hy as (z & <- & Hz). now apply Hp.
    - get "proofChain". discriminate.
  Qed.
End Made2.
