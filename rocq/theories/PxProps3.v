(** Limited disclosure: what does not hold (C240-C248). *)
From Verif Require Import GoBase StrLemmas PexSpec PexModel PexCompact PexLimit StatusModel PxSpec JwtSpec DiSpec VcSpec JwtModel SdSpec SdModel SdParse DiModel
  VcModel VcJwt VcText VcParse VcSign ResSpec ResModel BbsModel PxModel PxProofs PxProofs2 PxFrame VcProps VcProps5 PxProps PxProps2.

Local Notation evaluator := (list string -> json -> res (list (list pkey))).
(** ** C240 (refuted)  What a limited credential says about a subject was said about that subject. *)
Definition two_subjects : gomap json := [("id", JStr "urn:1");
  ("credentialSubject", JArr [JObj [("id", JStr "did:a")]; JObj [("id", JStr "did:b"); ("degree", JStr "PhD")]])].
Definition two_list : list subject := [{| sj_id := "did:a"; sj_custom := [] |}; {| sj_id := "did:b"; sj_custom := [("degree", JStr "PhD")] |}].
Theorem C240_claims_stay_with_their_subject_refuted : ~ forall (jp : evaluator) (src : gomap json) subs fs d,
  all_plain jp (JObj src) fs -> (forall i f ks, request jp (JObj src) fs i f ks -> located (JObj src) ks) ->
  map_res (fun j => match j with JObj m => subject_from m | _ => Err "x" end) (match mget src "credentialSubject" with Some (JArr l) => l | _ => [] end) = Ok subs ->
  cut_fields jp (JObj src) (template src subs) fs = Ok d ->
  forall n s k x, look d ["credentialSubject"; itoa n; "id"] = Some (JStr s) -> look d ["credentialSubject"; itoa n; k] = Some x ->
    exists n', look (JObj src) ["credentialSubject"; itoa n'; "id"] = Some (JStr s) /\ look (JObj src) ["credentialSubject"; itoa n'; k] = Some x.
Proof.
  intros H. specialize (H (known [("$.credentialSubject[1].degree", [[N "credentialSubject"; KIdx 1; N "degree"]])]) two_subjects two_list [ask "$.credentialSubject[1].degree"]).
  specialize (H (match cut_fields (known [("$.credentialSubject[1].degree", [[N "credentialSubject"; KIdx 1; N "degree"]])]) (JObj two_subjects) (template two_subjects two_list) [ask "$.credentialSubject[1].degree"] with Ok d => d | _ => JNull end)).
  destruct (H) with (n := 0%nat) (s := "did:a") (k := "degree") (x := JStr "PhD") as (n' & A & B).
  - intros i f ks Hq. requests Hq. apply plain_path_by. reflexivity.
  - intros i f ks Hq. requests Hq. apply located_by. reflexivity.
  - reflexivity.
  - vm_compute. reflexivity.
  - vm_compute. reflexivity.
  - vm_compute. reflexivity.
  - cbn [look mget] in A, B. unfold two_subjects in A, B. cbn [mget String.eqb Ascii.eqb] in A, B. cbv [mget String.eqb Ascii.eqb Bool.eqb] in A, B.
    rewrite index_itoa in A, B. destruct n' as [|[|n']]; vm_compute in A, B; try discriminate. destruct n'; discriminate.
Qed.
Print Assumptions C240_claims_stay_with_their_subject_refuted.

(** ** C241 (refuted)  Two fields that select different elements of one array are both answered. *)
Definition jobs_src : json := JObj [("credentialSubject", JObj [("id", JStr "did:a"); ("jobs", JArr [JObj [("title", JStr "a")]; JObj [("title", JStr "b")]])])].
Definition jobs_jp : evaluator := known [("$.credentialSubject.jobs[0].title", [[N "credentialSubject"; N "jobs"; KIdx 0; N "title"]]);
  ("$.credentialSubject.jobs[1].title", [[N "credentialSubject"; N "jobs"; KIdx 1; N "title"]])].
Definition jobs_fields : list cfield := [ask "$.credentialSubject.jobs[0].title"; ask "$.credentialSubject.jobs[1].title"].
Theorem C241_fields_of_one_array_refuted : ~ forall (jp : evaluator) src fs raw subs d,
  all_plain jp src fs -> separate_values jp src fs -> (forall i f ks, request jp src fs i f ks -> located src ks) ->
  cut_fields jp src (template raw subs) fs = Ok d ->
  forall i f ks, request jp src fs i f ks -> ~ schema_path (steps ks) -> exists rank, look d (moved rank ks) = Some (told src f ks).
Proof.
  intros H. specialize (H jobs_jp jobs_src jobs_fields [] [{| sj_id := "did:a"; sj_custom := [("x", JNull)] |}]
    (match cut_fields jobs_jp jobs_src (template [] [{| sj_id := "did:a"; sj_custom := [("x", JNull)] |}]) jobs_fields with Ok d => d | _ => JNull end)).
  destruct (H) with (i := 0%nat) (f := ask "$.credentialSubject.jobs[0].title") (ks := [N "credentialSubject"; N "jobs"; KIdx 0; N "title"]) as (rank & A).
  - intros i f ks Hq. requests Hq; (apply plain_path_by; reflexivity).
  - intros i j f g p q H1 H2. requests H1; requests H2; (right; split; reflexivity) || (left; apart_tac).
  - intros i f ks Hq. requests Hq; (apply located_by; reflexivity).
  - vm_compute. reflexivity.
  - split; [reflexivity|]. eexists. split; [vm_compute; reflexivity|]. now left.
  - intros Hs. unfold schema_path in Hs. apply contains_sub in Hs. vm_compute in Hs. discriminate Hs.
  - cbn [moved steps renumber map key_str N app] in A. set (n := rank _ _) in A.
    match type of A with look ?d _ = _ => let d' := eval vm_compute in d in change d with d' in A end.
    cbn [look] in A. change (mget _ "credentialSubject") with (Some (JObj [("jobs", JArr [JObj [("title", JStr "b")]]); ("id", JStr "did:a")])) in A.
    cbn [look] in A. change (mget _ "jobs") with (Some (JArr [JObj [("title", JStr "b")]])) in A. cbn [look] in A. rewrite index_itoa in A.
    destruct n as [|n]; cbn [nth_error] in A; [vm_compute in A; discriminate A|destruct n; discriminate A].
Qed.
Print Assumptions C241_fields_of_one_array_refuted.

(** ** C242 (refuted)  The value a predicate is about is not handed over. *)
Theorem C242_predicate_hides_the_value_refuted : ~ forall (jp : evaluator) src fs d i f ks,
  all_plain jp src fs -> separate_arrays jp src fs -> separate_values jp src fs -> (forall i f ks, request jp src fs i f ks -> located src ks) ->
  cut_fields jp src src fs = Ok d ->
  request jp src fs i f ks -> cf_pred f = true -> ~ schema_path (steps ks) -> look src (steps ks) <> Some (JBool true) -> look d (steps ks) <> look src (steps ks).
Proof.
  intros H.
  apply (H (known [("$.a[1]", [[N "a"; KIdx 1]])]) (JObj [("a", JArr [JStr "x"; JStr "secret"])]) [{| cf_paths := ["$.a[1]"]; cf_pred := true |}]
    (JObj [("a", JArr [JBool true; JStr "secret"])]) 0%nat {| cf_paths := ["$.a[1]"]; cf_pred := true |} [N "a"; KIdx 1]).
  - intros i f ks Hq. requests Hq; (apply plain_path_by; reflexivity).
  - intros i j f g p v w r s Hn H1 H2. apply known_request in H1, H2. vm_compute in H1, H2. destruct H1 as [H1|[]]; injection H1 as E1 _ _. destruct H2 as [H2|[]]; injection H2 as E2 _ _. congruence.
  - intros i j f g p q H1 H2. requests H1; requests H2; (right; split; reflexivity) || (left; apart_tac).
  - intros i f ks Hq. requests Hq; (apply located_by; reflexivity).
  - vm_compute. reflexivity.
  - split; [reflexivity|]. eexists. split; [vm_compute; reflexivity|]. now left.
  - reflexivity.
  - intros Hs. unfold schema_path in Hs. apply contains_sub in Hs. vm_compute in Hs. discriminate Hs.
  - vm_compute. discriminate.
  - vm_compute. reflexivity.
Qed.
Print Assumptions C242_predicate_hides_the_value_refuted.

(** ** C243 (refuted)  Members whose names contain dots are handed over when they are asked for. *)
Theorem C243_dotted_names_refuted : ~ forall (jp : evaluator) src fs raw subs d i f ks,
  separate_arrays jp src fs -> separate_values jp src fs -> (forall i f ks, request jp src fs i f ks -> located src ks) ->
  cut_fields jp src (template raw subs) fs = Ok d ->
  request jp src fs i f ks -> ~ schema_path (steps ks) -> exists rank, look d (moved rank ks) = Some (told src f ks).
Proof.
  intros H.
  destruct (H (known [("$.credentialSubject['schema.org']", [[N "credentialSubject"; N "schema.org"]])])
    (JObj [("credentialSubject", JObj [("id", JStr "did:a"); ("schema.org", JStr "v")])]) [ask "$.credentialSubject['schema.org']"] [] [{| sj_id := "did:a"; sj_custom := [("x", JNull)] |}]
    (match cut_fields (known [("$.credentialSubject['schema.org']", [[N "credentialSubject"; N "schema.org"]])])
      (JObj [("credentialSubject", JObj [("id", JStr "did:a"); ("schema.org", JStr "v")])]) (template [] [{| sj_id := "did:a"; sj_custom := [("x", JNull)] |}])
      [ask "$.credentialSubject['schema.org']"] with Ok d => d | _ => JNull end) 0%nat (ask "$.credentialSubject['schema.org']") [N "credentialSubject"; N "schema.org"]) as (rank & A).
  - intros i j f g p v w r s Hn H1 H2. apply known_request in H1, H2. vm_compute in H1, H2. destruct H1 as [H1|[]]; injection H1 as E1 _ _. destruct H2 as [H2|[]]; injection H2 as E2 _ _. congruence.
  - intros i j f g p q H1 H2. requests H1; requests H2; (right; split; reflexivity) || (left; apart_tac).
  - intros i f ks Hq. requests Hq; (apply located_by; reflexivity).
  - vm_compute. reflexivity.
  - split; [reflexivity|]. eexists. split; [vm_compute; reflexivity|]. now left.
  - intros Hs. unfold schema_path in Hs. apply contains_sub in Hs. vm_compute in Hs. discriminate Hs.
  - vm_compute in A. discriminate A.
Qed.
Print Assumptions C243_dotted_names_refuted.

(** ** C244 (refuted)  Of the alternative paths of a field only the first that has a value is disclosed. *)
Theorem C244_first_alternative_only_refuted : ~ forall (jp : evaluator) src p1 p2 ks1 ks2 raw subs d,
  jp [p1] src = Ok [ks1] -> jp [p2] src = Ok [ks2] -> jp [p1; p2] src = Ok [ks1; ks2] -> located src ks1 -> located src ks2 -> plain_path ks1 -> plain_path ks2 -> apart ks1 ks2 ->
  cut_fields jp src (template raw subs) [{| cf_paths := [p1; p2]; cf_pred := false |}] = Ok d ->
  look (template raw subs) (steps ks2) = None -> look d (steps ks2) = None.
Proof.
  intros H.
  specialize (H px_jp (JObj px_src) "$.credentialSubject.email" "$.credentialSubject.degree.name" [N "credentialSubject"; N "email"] [N "credentialSubject"; N "degree"; N "name"]
    px_src (vc_subject px_contents) (match cut_fields px_jp (JObj px_src) (template px_src (vc_subject px_contents)) [{| cf_paths := ["$.credentialSubject.email"; "$.credentialSubject.degree.name"]; cf_pred := false |}] with Ok d => d | _ => JNull end)).
  assert (A : look (match cut_fields px_jp (JObj px_src) (template px_src (vc_subject px_contents)) [{| cf_paths := ["$.credentialSubject.email"; "$.credentialSubject.degree.name"]; cf_pred := false |}] with Ok d => d | _ => JNull end)
    (steps [N "credentialSubject"; N "degree"; N "name"]) = None).
  { apply H; try reflexivity; try (apply located_by; vm_compute; reflexivity); try (apply plain_path_by; reflexivity). apart_tac. }
  vm_compute in A. discriminate A.
Qed.
Print Assumptions C244_first_alternative_only_refuted.

(** ** C245 (refuted)  Only paths of the member "credentialSchema" are withheld. *)
Theorem C245_only_schemas_are_withheld_refuted : ~ forall (jp : evaluator) src fs raw subs d i f ks,
  all_plain jp src fs -> separate_arrays jp src fs -> separate_values jp src fs -> (forall i f ks, request jp src fs i f ks -> located src ks) ->
  cut_fields jp src (template raw subs) fs = Ok d ->
  request jp src fs i f ks -> ~ In "credentialSchema" (steps ks) -> exists rank, look d (moved rank ks) = Some (told src f ks).
Proof.
  intros H.
  destruct (H (known [("$.credentialSubject.credentialSchemaVersion", [[N "credentialSubject"; N "credentialSchemaVersion"]])])
    (JObj [("credentialSubject", JObj [("id", JStr "did:a"); ("credentialSchemaVersion", JStr "v")])]) [ask "$.credentialSubject.credentialSchemaVersion"] [] [{| sj_id := "did:a"; sj_custom := [("x", JNull)] |}]
    (template [] [{| sj_id := "did:a"; sj_custom := [("x", JNull)] |}]) 0%nat (ask "$.credentialSubject.credentialSchemaVersion") [N "credentialSubject"; N "credentialSchemaVersion"]) as (rank & A).
  - intros i f ks Hq. requests Hq; (apply plain_path_by; reflexivity).
  - intros i j f g p v w r s Hn H1 H2. apply known_request in H1, H2. vm_compute in H1, H2. destruct H1 as [H1|[]]; injection H1 as E1 _ _. destruct H2 as [H2|[]]; injection H2 as E2 _ _. congruence.
  - intros i j f g p q H1 H2. requests H1; requests H2; (right; split; reflexivity) || (left; apart_tac).
  - intros i f ks Hq. requests Hq; (apply located_by; reflexivity).
  - vm_compute. reflexivity.
  - split; [reflexivity|]. eexists. split; [vm_compute; reflexivity|]. now left.
  - cbn. intuition discriminate.
  - vm_compute in A. discriminate A.
Qed.
Print Assumptions C245_only_schemas_are_withheld_refuted.

(** ** C246 (refuted)  A BBS+ credential can be limited to values inside arrays. *)
Definition bbs_arrays : climits := {| cl_limit := true; cl_fields := [ask "$.credentialSubject.jobs[1:].title"] |}.
Theorem C246_bbs_array_elements_refuted : ~ forall (jp : evaluator) ord E txt disclose nonce o c src raw subs v,
  bbs_signed v -> cl_limit c = true -> (forall f, In f (cl_fields c) -> cf_pred f = false) -> (forall l, Permutation (ord l) l) ->
  (forall f, In f (cl_fields c) -> exists found, jp (cf_paths f) src = Ok found /\ ~ In [] found) ->
  (forall i f ks, request jp src (cl_fields c) i f ks -> plain_path ks /\ located src ks) ->
  separate_arrays jp src (cl_fields c) -> separate_values jp src (cl_fields c) ->
  (forall v frame n, exists w, disclose v frame n = Ok w) ->
  exists w, create_new jp ord E txt disclose nonce o c src (template raw subs) v = Ok w.
Proof.
  intros H.
  destruct (H px_jp (fun l => l) px_env (fun _ => ex_text) show_frame "n" toyO bbs_arrays (JObj bbs_src) bbs_src (vc_subject px_contents) bbs_cred) as (w & A).
  - now apply is_bbs.
  - reflexivity.
  - intros f [<-|[]]. reflexivity.
  - intros l. apply Permutation_refl.
  - intros f [<-|[]]. eexists. split; [vm_compute; reflexivity|]. cbn. intuition discriminate.
  - intros i f ks Hq. requests Hq; (split; [apply plain_path_by; reflexivity|apply located_by; vm_compute; reflexivity]).
  - intros i j f g p v w r s Hn H1 H2. apply known_request in H1, H2. vm_compute in H1, H2.
    destruct H1 as [H1|[H1|[]]]; injection H1 as E1 _ _; (destruct H2 as [H2|[H2|[]]]; injection H2 as E2 _ _; congruence).
  - intros i j f g p q H1 H2. requests H1; requests H2; (right; split; reflexivity) || (left; apart_tac).
  - intros v frame n. eexists. reflexivity.
  - vm_compute in A. discriminate A.
Qed.
Print Assumptions C246_bbs_array_elements_refuted.

(** ** C247 (refuted)  The members of the frame of a BBS+ derivation are members of the credential (or "@explicit"). *)
Theorem C247_frame_members_refuted : ~ forall (jp : evaluator) ord E txt nonce o c src subs v w,
  bbs_signed v -> cl_limit c = true -> (forall f, In f (cl_fields c) -> cf_pred f = false) -> (forall l, Permutation (ord l) l) ->
  (forall i f ks, request jp (JObj src) (cl_fields c) i f ks -> plain_path ks /\ located (JObj src) ks) ->
  create_new jp ord E txt show_frame nonce o c (JObj src) (template src subs) v = Ok w ->
  forall k x, mget (cr_json w) k = Some x -> k = "@explicit" \/ mhas src k = true.
Proof.
  intros H.
  set (jp := known [("$.expirationDate", [[N "expirationDate"]])]).
  specialize (H jp (fun l => l) px_env (fun _ => ex_text) "n" toyO {| cl_limit := true; cl_fields := [ask "$.expirationDate"] |} bbs_src (vc_subject px_contents) bbs_cred).
  destruct (create_new jp (fun l => l) px_env (fun _ => ex_text) show_frame "n" toyO {| cl_limit := true; cl_fields := [ask "$.expirationDate"] |} (JObj bbs_src) (template bbs_src (vc_subject px_contents)) bbs_cred) as [w| |] eqn:Ew;
    [|vm_compute in Ew; discriminate|vm_compute in Ew; discriminate].
  destruct (H w) with (k := "") (x := JObj [("@explicit", JBool true)]) as [A|A].
  - now apply is_bbs.
  - reflexivity.
  - intros f [<-|[]]. reflexivity.
  - intros l. apply Permutation_refl.
  - intros i f ks Hq. requests Hq. split; [apply plain_path_by; reflexivity|apply located_by; vm_compute; reflexivity].
  - reflexivity.
  - vm_compute in Ew. injection Ew as <-. vm_compute. reflexivity.
  - discriminate A.
  - vm_compute in A. discriminate A.
Qed.
Print Assumptions C247_frame_members_refuted.

(** ** C248 (refuted)  A credential whose claims were replaced by predicates does not carry the proof of the original. *)
Theorem C248_no_stale_proof_refuted : ~ forall (jp : evaluator) ord E D txt disclose limit_sd nonce uuid o r ws w,
  limit_one jp ord E D txt disclose limit_sd nonce uuid o r = Ok ws -> In w ws ->
  cr_proofs (wr_cred w) <> [] -> cr_proofs (wr_cred w) = cr_proofs (fr_cred r) ->
  mget (to_raw_json (wr_cred w)) "credentialSubject" = mget (to_raw_json (fr_cred r)) "credentialSubject".
Proof.
  intros H. specialize (H px_jp (fun l => l) pa_env us_senv (fun _ => ex_text) no_disclose no_sd "n" "u" toyO {| fr_cred := bbs_cred; fr_src := bbs_src; fr_limits := Some pa_limits |}).
  fold pa_result in H. destruct pa_result as [[|w ws]| |] eqn:Er; try (vm_compute in Er; discriminate).
  specialize (H (w :: ws)%list w eq_refl (or_introl eq_refl)). vm_compute in Er. injection Er as Ew _. rewrite <- Ew in H. vm_compute in H.
  discriminate H; [discriminate|reflexivity].
Qed.
Print Assumptions C248_no_stale_proof_refuted.
