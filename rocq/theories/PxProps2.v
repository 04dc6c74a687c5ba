(** Limited disclosure: examples for C234-C238, and what does not hold. *)
From Verif Require Import GoBase StrLemmas PexSpec PexModel PexCompact PexLimit StatusModel PxSpec JwtSpec DiSpec VcSpec JwtModel SdSpec SdModel SdParse DiModel
  VcModel VcJwt VcText VcParse VcSign ResSpec ResModel BbsModel PxModel PxProofs PxProofs2 PxFrame VcProps VcProps5 PxProps.

(** ** Examples *)
(** An evaluator that knows some paths. *)
Definition known (t : gomap (list (list pkey))) : list string -> json -> res (list (list pkey)) :=
  fun ps _ => Ok (List.concat (map (fun p => match mget t p with Some l => l | None => [] end) ps)).
Definition N := KName.
Definition ask (p : string) : cfield := {| cf_paths := [p]; cf_pred := false |}.
Definition px_contents : contents := {|
  vc_context := [v1_context]; vc_custom_ctx := []; vc_id := "urn:1"; vc_types := ["VerifiableCredential"];
  vc_subject := [{| sj_id := "did:s"; sj_custom := [("degree", JObj [("type", JStr "B"); ("name", JStr "Math")]); ("email", JStr "m");
     ("jobs", JArr [JObj [("title", JStr "a")]; JObj [("title", JStr "b"); ("pay", JStr "9")]; JObj [("title", JStr "c")]])] |}];
  vc_issuer := Some {| is_id := "did:s"; is_custom := [] |};
  vc_issued := Some {| tw_time := of_unix 7; tw_str := "" |}; vc_expired := Some {| tw_time := of_unix 12; tw_str := "T012" |};
  vc_status := []; vc_schemas := []; vc_evidence := None; vc_terms := []; vc_refresh := None; vc_sdalg := None; vc_related := [] |}.
Definition px_cred : credential := create_credential toyT px_contents [].
Definition px_src : gomap json := to_raw_json px_cred.
Definition px_jp := known [("$.credentialSubject.degree.name", [[N "credentialSubject"; N "degree"; N "name"]]);
                           ("$.credentialSubject.email", [[N "credentialSubject"; N "email"]]);
                           ("$.credentialSubject.jobs[1:].title", [[N "credentialSubject"; N "jobs"; KIdx 1; N "title"]; [N "credentialSubject"; N "jobs"; KIdx 2; N "title"]])].
Definition px_limits : climits := {| cl_limit := true;
  cl_fields := [ask "$.credentialSubject.degree.name"; ask "$.credentialSubject.jobs[1:].title"; {| cf_paths := ["$.credentialSubject.email"]; cf_pred := true |}] |}.
Definition px_doc : gomap json := match cut_fields px_jp (JObj px_src) (template px_src (vc_subject px_contents)) (cl_fields px_limits) with Ok (JObj m) => m | _ => [] end.
Definition px_env : venv := toyV0 [] [(ex_text, px_doc)].
Definition no_disclose (v : credential) (f : gomap json) (n : string) : res credential := Err "x".
Definition no_sd (c : climits) (s : gomap json) (v : credential) : res credential := Err "x".
Definition px_result : res (list wrapped) :=
  limit_one px_jp (fun l => l) px_env us_senv (fun _ => ex_text) no_disclose no_sd "n" "u" toyO {| fr_cred := px_cred; fr_src := px_src; fr_limits := Some px_limits |}.

Lemma known_request t src fs i f ks : request (known t) src fs i f ks -> In (i, f, ks)
  (List.concat (map (fun q => map (fun ks => (fst q, snd q, ks)) (List.concat (map (fun p => match mget t p with Some l => l | None => [] end) (cf_paths (snd q)))))
    (combine (seq 0 (List.length fs)) fs))).
Proof.
  intros [Hi (found & [= <-] & Hk)]. apply in_concat.
  exists (map (fun ks => (i, f, ks)) (List.concat (map (fun p => match mget t p with Some l => l | None => [] end) (cf_paths f)))).
  split; [|apply in_map_iff; exists ks; split; [reflexivity|exact Hk]].
  apply in_map_iff. exists (i, f). split; [reflexivity|]. clear Hk.
  assert (G : forall (l : list cfield) n k x, nth_error l k = Some x -> In ((n + k)%nat, x) (combine (seq n (List.length l)) l)).
  { induction l as [|y l IH]; intros n k x H; [destruct k; discriminate|]. destruct k as [|k]; cbn in *.
    - injection H as <-. left. now rewrite Nat.add_0_r.
    - right. replace (n + Datatypes.S k)%nat with (Datatypes.S n + k)%nat by lia. now apply IH. }
  apply (G fs 0%nat i f Hi).
Qed.
Ltac requests H := apply known_request in H; vm_compute in H;
  repeat match type of H with _ \/ _ => destruct H as [H|H] end; try (injection H as <- <- <-); try contradiction.
Definition plain_nameb (s : string) : bool :=
  (negb (String.eqb s "") && negb (String.eqb s "-1") && match digits_val 0 s with None => true | _ => false end
   && forallb literal_char (list_ascii_of_string s) && (String.eqb s "@context" || match s with String c _ => literal_start c | EmptyString => true end))%bool.
Lemma plain_name_by s : plain_nameb s = true -> plain_name s.
Proof.
  unfold plain_nameb. rewrite !andb_true_iff. intros [[[[A B] C] F] G]. apply negb_true_iff, String.eqb_neq in A. apply negb_true_iff, String.eqb_neq in B.
  split; [assumption|]. split; [assumption|]. split; [now destruct (digits_val 0 s)|]. split; [assumption|].
  apply orb_true_iff in G as [G|G]; [left; now apply String.eqb_eq|right; now destruct s].
Qed.
Fixpoint nested_ok (b : bool) (ks : list pkey) : bool :=
  match ks with [] => true | KName _ :: r => nested_ok true r | KIdx _ :: r => (b && nested_ok false r)%bool end.
Lemma plain_path_by ks : (forallb (fun k => match k with KName s => plain_nameb s | KIdx _ => true end) ks && nested_ok false ks)%bool = true -> plain_path ks.
Proof.
  rewrite andb_true_iff. intros [A B]. split.
  - apply Forall_forall. intros k Hk. rewrite forallb_forall in A. specialize (A k Hk). destruct k; cbn; [exact I|now apply plain_name_by].
  - revert B. generalize false. induction ks as [|[n|s] ks IH]; intros b B; cbn in *; [exact I| |].
    + apply andb_true_iff in B as [-> B]. split; [reflexivity|]. apply IH; [exact A|exact B].
    + apply IH; [now apply andb_true_iff in A as [_ A]|exact B].
Qed.
Lemma px_plain : all_plain px_jp (JObj px_src) (cl_fields px_limits).
Proof. intros i f ks H. requests H; (apply plain_path_by; vm_compute; reflexivity). Qed.
Ltac apart_tac := split; intros z E; cbn in E; discriminate E || (injection E; intros; discriminate).
Lemma px_separate : separate_arrays px_jp (JObj px_src) (cl_fields px_limits) /\ separate_values px_jp (JObj px_src) (cl_fields px_limits).
Proof.
  split.
  - intros i j f g p v w r s Hn H1 H2. apply known_request in H1, H2. vm_compute in H1, H2.
    destruct H1 as [H1|[H1|[H1|[H1|[]]]]]; injection H1 as Ei _ H1; destruct H2 as [H2|[H2|[H2|[H2|[]]]]]; injection H2 as Ej _ H2; subst i j; try congruence;
      repeat (destruct p as [|? p]; try discriminate; cbn in H1, H2; try (injection H1 as <- H1); try (injection H2; intros; subst; try discriminate));
      congruence.
  - intros i j f g p q H1 H2. requests H1; requests H2; (right; split; reflexivity) || (left; apart_tac).
Qed.
Definition px_r : fresult := {| fr_cred := px_cred; fr_src := px_src; fr_limits := Some px_limits |}.
Lemma px_text : json_text px_env ex_text px_doc.
Proof.
  exists "1", px_doc. split; [reflexivity|]. split; [reflexivity|]. split; [apply Permutation_refl|].
  split; [|intros k Hk; revert k Hk; apply Forall_forall; vm_compute; repeat constructor].
  vm_compute. repeat (constructor; [cbn; intuition discriminate|]). constructor.
Qed.
Example C234_example :
  cl_limit px_limits = true /\ ~ sd_jwt px_cred /\ ~ bbs_signed px_cred /\ all_plain px_jp (JObj px_src) (cl_fields px_limits)
  /\ separate_arrays px_jp (JObj px_src) (cl_fields px_limits) /\ separate_values px_jp (JObj px_src) (cl_fields px_limits)
  /\ json_text px_env ex_text px_doc
  /\ exists w, px_result = Ok [w] /\
     look (JObj (to_raw_json (wr_cred w))) ["credentialSubject"] = Some (JObj
       [("email", JBool true); ("jobs", JArr [JObj [("title", JStr "b")]; JObj [("title", JStr "c")]]);
        ("degree", JObj [("name", JStr "Math")]); ("id", JStr "did:s")]).
Proof.
  split; [reflexivity|]. split; [now apply not_sd|]. split; [now apply not_bbs|]. split; [exact px_plain|]. split; [apply px_separate|]. split; [apply px_separate|].
  split; [exact px_text|]. eexists. split; vm_compute; reflexivity.
Qed.
Print Assumptions C234_limited_credential.
(** The expiry date is one of the members that go away. *)
Example C235_example :
  (forall i f ks, request px_jp (JObj px_src) (cl_fields px_limits) i f ks -> exists s r0, ks = KName s :: r0 /\ s <> "expirationDate")
  /\ mget px_src "expirationDate" = Some (JStr "T012")
  /\ exists w, px_result = Ok [w] /\ mget (to_raw_json (wr_cred w)) "expirationDate" = None /\ mget (to_raw_json (wr_cred w)) "issuer" = Some (JStr "did:s").
Proof.
  split.
  - intros i f ks H. requests H; (eexists; eexists; split; [reflexivity|discriminate]).
  - split; [vm_compute; reflexivity|]. eexists. split; vm_compute; repeat split; reflexivity.
Qed.
Print Assumptions C235_members_not_asked_for.
Definition px_other : credential := create_credential toyT
  {| vc_context := [v1_context]; vc_custom_ctx := []; vc_id := "urn:2"; vc_types := ["VerifiableCredential"];
     vc_subject := [{| sj_id := "did:x"; sj_custom := [("email", JStr "m")] |}]; vc_issuer := Some {| is_id := "did:s"; is_custom := [] |};
     vc_issued := None; vc_expired := None; vc_status := []; vc_schemas := []; vc_evidence := None; vc_terms := []; vc_refresh := None; vc_sdalg := None; vc_related := [] |} [].
Example C236_example : ~ subject_issued px_other /\ subject_issued px_cred
  /\ limit_disclosure px_jp (fun l => l) px_env us_senv (fun _ => ex_text) no_disclose no_sd "n" "u" toyO
       [{| fr_cred := px_other; fr_src := to_raw_json px_other; fr_limits := Some {| cl_limit := true; cl_fields := [ask "$.credentialSubject.email"] |} |};
        {| fr_cred := px_other; fr_src := to_raw_json px_other; fr_limits := None |}]
     = Ok [{| wr_id := "urn:2"; wr_cred := px_other |}].
Proof.
  split; [|split; [|vm_compute; reflexivity]].
  - intros H. apply issuer_is_subject_spec in H. discriminate H.
  - apply issuer_is_subject_spec. reflexivity.
Qed.
Print Assumptions C236_who_is_limited.
Fixpoint locatedb (j : json) (ks : list pkey) : bool :=
  match ks with
  | [] => true
  | KName s :: r => match j with JObj m => match mget m s with Some x => locatedb x r | None => false end | _ => false end
  | KIdx n :: r => match j with JArr l => match nth_error l n with Some x => locatedb x r | None => false end | _ => false end
  end.
Lemma located_by : forall ks j, locatedb j ks = true -> located j ks.
Proof.
  induction ks as [|[n|s] ks IH]; intros j H; [exact I| |]; cbn [locatedb located] in *; destruct j as [| | | |l|m]; try discriminate.
  - destruct (nth_error l n) as [x|] eqn:E; [|discriminate]. exists l, x. auto.
  - destruct (mget m s) as [x|] eqn:E; [|discriminate]. exists m, x. auto.
Qed.
Example C237_example :
  (forall f, In f (cl_fields px_limits) -> exists found, px_jp (cf_paths f) (JObj px_src) = Ok found /\ ~ In [] found)
  /\ (forall i f ks, request px_jp (JObj px_src) (cl_fields px_limits) i f ks -> located (JObj px_src) ks)
  /\ (forall i f ks rank, request px_jp (JObj px_src) (cl_fields px_limits) i f ks -> room (template px_src (vc_subject px_contents)) (moved rank ks)).
Proof.
  split; [|split].
  - intros f [<-|[<-|[<-|[]]]]; eexists; (split; [vm_compute; reflexivity|cbn; intuition discriminate]).
  - intros i f ks H. requests H; (apply located_by; vm_compute; reflexivity).
  - intros i f ks rank H. requests H; vm_compute; exact I.
Qed.
Print Assumptions C237_limited_document_exists.

Definition bbs_cred : credential := create_with_proofs toyT px_contents [] [[("type", JStr "BbsBlsSignature2020")]].
Definition bbs_src : gomap json := to_raw_json bbs_cred.
Definition bbs_limits : climits := {| cl_limit := true; cl_fields := [ask "$.credentialSubject.degree.name"; ask "$.credentialSubject.email"] |}.
Definition show_frame (v : credential) (f : gomap json) (n : string) : res credential :=
  Ok {| cr_json := f; cr_contents := cr_contents v; cr_proofs := []; cr_jwt := None; cr_cwt := None |}.
Lemma bbs_values : separate_values px_jp (JObj bbs_src) (cl_fields bbs_limits).
Proof. intros i j f g p q H1 H2. requests H1; requests H2; (right; split; reflexivity) || (left; apart_tac). Qed.
Lemma member_path_by l x : (negb (match l with [] => true | _ => false end) && forallb plain_nameb (l ++ [x]) && forallb (fun s => negb (str_in s marker)) l)%bool = true ->
  member_path (map KName (l ++ [x])%list).
Proof.
  rewrite !andb_true_iff. intros [[A B] C]. exists l, x. split; [reflexivity|]. split; [now destruct l|]. rewrite forallb_forall in B, C. split; apply Forall_forall; intros s Hs.
  - now apply plain_name_by, B.
  - apply str_in_nIn. specialize (C s Hs). now apply negb_true_iff in C.
Qed.
Example C238_example :
  bbs_signed bbs_cred
  /\ (forall i f ks, request px_jp (JObj bbs_src) (cl_fields bbs_limits) i f ks ->
        member_path ks /\ located (JObj bbs_src) ks /\ room (template bbs_src (vc_subject px_contents)) (steps ks))
  /\ separate_values px_jp (JObj bbs_src) (cl_fields bbs_limits)
  /\ rmap cr_json (create_new px_jp (@rev string) px_env (fun _ => ex_text) show_frame "n" toyO bbs_limits (JObj bbs_src) (template bbs_src (vc_subject px_contents)) bbs_cred)
     = Ok [("@explicit", JBool true); ("id", JStr "urn:1"); ("type", JStr "VerifiableCredential"); ("@context", JArr [JStr v1_context]);
           ("issuer", JStr "did:s"); ("issuanceDate", JStr "T7");
           ("credentialSubject", JObj
             [("@explicit", JBool true); ("email", JStr "m");
              ("degree", JObj [("type", JStr "B"); ("@explicit", JBool true); ("name", JStr "Math")]); ("id", JStr "did:s")])].
Proof.
  split; [now apply is_bbs|]. split; [|split; [exact bbs_values|vm_compute; reflexivity]].
  intros i f ks H. requests H; (split; [|split; [apply located_by; vm_compute; reflexivity|vm_compute; exact I]]).
  - now apply (member_path_by ["credentialSubject"; "degree"] "name").
  - now apply (member_path_by ["credentialSubject"] "email").
Qed.
Print Assumptions C238_bbs_frame.
(** the second field of the example of C234 is a predicate; a BBS+ credential limited like that is not derived, although [no_disclose] would fail *)
Example C238_predicate_example : predicate_hits px_jp (JObj bbs_src) (cl_fields px_limits)
  /\ all_plain px_jp (JObj bbs_src) (cl_fields px_limits) /\ bbs_signed bbs_cred
  /\ is_ok (cut_fields px_jp (JObj bbs_src) (template bbs_src (vc_subject px_contents)) (cl_fields px_limits)) = true
  /\ is_ok (create_new px_jp (fun l => l) px_env (fun _ => ex_text) no_disclose "n" toyO px_limits (JObj bbs_src) (template bbs_src (vc_subject px_contents)) bbs_cred) = true
  /\ is_ok (create_new px_jp (fun l => l) px_env (fun _ => ex_text) no_disclose "n" toyO bbs_limits (JObj bbs_src) (template bbs_src (vc_subject px_contents)) bbs_cred) = false.
Proof.
  split.
  - exists 2%nat. eexists. eexists. split; [split; [reflexivity|]; eexists; split; [vm_compute; reflexivity|left; reflexivity]|]. split; [reflexivity|].
    intros rank H. apply contains_sub in H. vm_compute in H. discriminate H.
  - split; [intros i f ks H; requests H; apply plain_path_by; vm_compute; reflexivity|]. split; [now apply is_bbs|]. repeat split; vm_compute; reflexivity.
Qed.
Print Assumptions C238_predicate_hits.
Print Assumptions C236_sd_jwt.

(** ** C239: predicates without limits replace what they are about and leave everything else, the proof included *)
Theorem C239_predicate_alone : forall jp ord E D txt disclose limit_sd nonce uuid o r c ws w,
  fr_limits r = Some c -> cl_limit c = false -> (exists f, In f (cl_fields c) /\ cf_pred f = true) -> ~ sd_jwt (fr_cred r) ->
  all_plain jp (JObj (fr_src r)) (cl_fields c) ->
  limit_one jp ord E D txt disclose limit_sd nonce uuid o r = Ok ws -> In w ws ->
  exists m rank, ranks_ok jp (JObj (fr_src r)) (cl_fields c) rank
    (* the credential is the one with the members [m] *)
    /\ (json_text E (txt (JObj m)) m -> co_external o = [] ->
        (forall ts, decode_type (fld m "type") = Ok ts -> ~ In "EnvelopedVerifiableCredential" ts) ->
        (forall k, k <> "proof" -> mget (to_raw_json (wr_cred w)) k = mget m k) /\ proof_list m (cr_proofs (wr_cred w)))
    (* everything nobody asked for is there *)
    /\ (forall q x, look (JObj (fr_src r)) q = Some x ->
         (forall i f ks, request jp (JObj (fr_src r)) (cl_fields c) i f ks -> ~ schema_path (moved (rank i) ks) -> apart q (moved (rank i) ks)) ->
         look (JObj m) q = Some x)
    (* predicates replace values *)
    /\ (separate_arrays jp (JObj (fr_src r)) (cl_fields c) -> separate_values jp (JObj (fr_src r)) (cl_fields c) ->
        forall i f ks, request jp (JObj (fr_src r)) (cl_fields c) i f ks -> ~ schema_path (moved (rank i) ks) ->
          look (JObj m) (moved (rank i) ks) = Some (told (JObj (fr_src r)) f ks)).
Proof.
  intros jp ord E D txt disclose limit_sd nonce uuid o r c ws w Hl Hlim (f0 & Hf0 & Hp0) Hsd Hpl H Hin. apply not_sd in Hsd.
  assert (Hex : existsb cf_pred (cl_fields c) = true) by (apply existsb_exists; eauto).
  unfold limit_one in H. rewrite Hl, Hlim, Hsd, Hex in H. cbn [andb orb negb] in H.
  apply bind_ok in H as (p & Hp & H). cbn [bind] in H. injection H as <-. destruct Hin as [<-|[]].
  apply bind_ok in Hp as (n & Hn & Hp). apply bind_ok in Hp as (n' & Hn' & Hp). injection Hp as <-. cbn [fst snd wr_cred].
  unfold create_new in Hn. rewrite Hlim, andb_false_r in Hn. cbn [negb orb] in Hn. apply bind_ok in Hn as (d & Hd & Hn).
  destruct (cut_fields_obj _ _ _ _ _ Hd) as (m & ->). destruct (cut_spec _ _ _ _ _ Hpl Hd) as (rank & Hr & _ & Hall & Hkeep).
  exists m, rank. split; [exact Hr|]. split; [|split; [exact Hkeep|exact Hall]]. intros Ht He Hty.
  destruct (C97_raw_json_is_what_was_parsed E (no_proof_check o) (txt (JObj m)) m n Ht Hty Hn He) as [A (ps & P1 & _ & P3)].
  destruct (cr_jwt (fr_cred r)).
  - unfold create_unsecured_jwt in Hn'. apply bind_ok in Hn' as (cl & _ & Hn'). apply bind_ok in Hn' as (tok & _ & Hn'). injection Hn' as <-.
    split; [intros k Hk; rewrite raw_twice; now apply A|]. cbn [cr_proofs]. now rewrite P3.
  - injection Hn' as <-. split; [exact A|]. now rewrite P3.
Qed.
Definition pa_limits : climits := {| cl_limit := false; cl_fields := [{| cf_paths := ["$.credentialSubject.email"]; cf_pred := true |}] |}.
Definition pa_doc : gomap json := match cut_fields px_jp (JObj bbs_src) (JObj bbs_src) (cl_fields pa_limits) with Ok (JObj m) => m | _ => [] end.
Definition pa_env : venv := toyV0 [] [(ex_text, pa_doc)].
Definition pa_result : res (list wrapped) :=
  limit_one px_jp (fun l => l) pa_env us_senv (fun _ => ex_text) no_disclose no_sd "n" "u" toyO {| fr_cred := bbs_cred; fr_src := bbs_src; fr_limits := Some pa_limits |}.
Example C239_example : all_plain px_jp (JObj bbs_src) (cl_fields pa_limits)
  /\ exists w, pa_result = Ok [w] /\ look (JObj (to_raw_json (wr_cred w))) ["credentialSubject"; "email"] = Some (JBool true)
       /\ mget (to_raw_json (wr_cred w)) "expirationDate" = Some (JStr "T012") /\ mget bbs_src "expirationDate" = Some (JStr "T012").
Proof.
  split; [intros i f ks H; requests H; apply plain_path_by; vm_compute; reflexivity|]. eexists. split; [vm_compute; reflexivity|]. repeat split; vm_compute; reflexivity.
Qed.
Print Assumptions C239_predicate_alone.
