(** C286-C291: options. *)
From Verif Require Import GoBase Base64 StatusModel PexModel StrLemmas JwtSpec DiSpec VcSpec JwtModel SdSpec SdModel SdParse DiModel VcModel VcJwt VcParse VcProofs VcView VcText VcSecure
  JwtProps VcProps VcProps2 VpModel VpProps LdModel OpModel OpSpec OpProofs OpProofs2 OpProofs3.

(** C286: of several options for the same thing the last one counts, and nothing else about the order or number of options matters: two lists that for each setting
    have the same last option about it parse every text alike. *)
Theorem C286_credentials : forall D (W : world D) (l l' : list (copt D)), (forall k, exists r, last_option (about k) l r /\ last_option (about k) l' r) ->
  (forall d, parse_credential_with W l d = parse_credential_with W l' d) /\ (forall m, parse_credential_json_with W l m = parse_credential_json_with W l' m).
Proof. intros D W l l' H. unfold parse_credential_with, parse_credential_json_with. rewrite (options_same l l' H). auto. Qed.
Theorem C286_presentations : forall D (W : option D -> vpenv) (l l' : list (popt D)), (forall k, exists r, last_option (pabout k) l r /\ last_option (pabout k) l' r) ->
  forall d, parse_presentation_with W l d = parse_presentation_with W l' d.
Proof. intros D W l l' H d. unfold parse_presentation_with. now rewrite (poptions_same l l' H). Qed.
Theorem C286_did : forall D (W : world D) (l l' : list (didopt D)), (forall k, exists r, last_option (dabout k) l r /\ last_option (dabout k) l' r) ->
  forall d, verify_did_with W l d = verify_did_with W l' d.
Proof. intros D W l l' H d. unfold verify_did_with. now rewrite (didoptions_same l l' H). Qed.
(** in particular neighbours that are about different things may change places *)
Theorem C286_swap : forall D (W : world D) (l1 l2 : list (copt D)) x y, (forall k, about k x = true -> about k y = true -> False) ->
  forall d, parse_credential_with W (l1 ++ x :: y :: l2) d = parse_credential_with W (l1 ++ y :: x :: l2) d.
Proof.
  intros D W l1 l2 x y H. apply C286_credentials. intros k. apply last_swap. specialize (H k). destruct (about k x), (about k y); try reflexivity. now destruct H.
Qed.
(** different orders, options overridden on one side only, and options given twice *)
Definition ex_order1 (pc : combined) : list (copt unit) :=
  [WithStrictValidation; WithJWTProofChecker None; WithBaseContextValidation "c"; WithProofChecker (Some pc); WithBaseContextExtendedValidation "c1" ["c2"] []; WithJSONLDValidation;
   WithSchema "old"; WithSchema "new"].
Definition ex_order2 (pc : combined) : list (copt unit) :=
  [WithSchema "new"; WithBaseContextExtendedValidation "c1" ["c2"] []; WithLDProofChecker None; WithCWTProofChecker None; WithProofChecker (Some pc); WithJSONLDValidation;
   WithStrictValidation].
Lemma last_cons_no : forall X (p : X -> bool) x l r, p x = false -> last_option p l r -> last_option p (x :: l) r.
Proof. intros X p x l r Hx [l' F|l1 y l2 Hy F]; [apply lo_none; now constructor|]. apply (lo_some p (x :: l1)); assumption. Qed.
Lemma last_cons_some : forall X (p : X -> bool) x l y, last_option p l (Some y) -> last_option p (x :: l) (Some y).
Proof. intros X p x l y H. inversion H as [|l1 z l2 Hz F]; subst. apply (lo_some p (x :: l1)); assumption. Qed.
Lemma last_here : forall X (p : X -> bool) x l, p x = true -> Forall (fun y => p y = false) l -> last_option p (x :: l) (Some x).
Proof. intros X p x l Hx F. exact (lo_some p [] x l Hx F). Qed.
Ltac last_tac := lazymatch goal with
  | |- last_option _ [] _ => apply lo_none; constructor
  | _ => first [apply last_here; [reflexivity|repeat constructor; fail] | apply last_cons_no; [reflexivity|last_tac] | apply last_cons_some; last_tac] end.
Example C286_example : forall pc, (forall k, exists r, last_option (about k) (ex_order1 pc) r /\ last_option (about k) (ex_order2 pc) r) /\
  (forall (W : world unit) d, parse_credential_with W (ex_order1 pc) d = parse_credential_with W (ex_order2 pc) d).
Proof.
  intros pc. assert (H : forall k, exists r, last_option (about k) (ex_order1 pc) r /\ last_option (about k) (ex_order2 pc) r).
  { intros k. destruct k; (eexists; split; [last_tac|last_tac]). }
  split; [assumption|]. intros W d. now apply C286_credentials.
Qed.

(** C287: an option that turns a check off never makes a credential refused: what is accepted without it is accepted with it, wherever it stands in the list; and as the same
    credential, but for contexts that WithExternalJSONLDContext adds when an embedded proof is checked. *)
Theorem C287_credentials : forall D (W : world D), (forall d r f, jsonld_settings_only (wo_env W d r f)) ->
  forall (l1 l2 : list (copt D)) x, turns_off x = true ->
  (forall d v, parse_credential_with W (l1 ++ l2) d = Ok v -> exists w, parse_credential_with W (l1 ++ x :: l2) d = Ok w /\ same_but_context v w /\
    (Forall (fun y => about ExternalContexts y = false) (l1 ++ l2) -> w = v)) /\
  (forall m v, parse_credential_json_with W (l1 ++ l2) m = Ok v -> exists w, parse_credential_json_with W (l1 ++ x :: l2) m = Ok w /\ same_but_context v w /\
    (Forall (fun y => about ExternalContexts y = false) (l1 ++ l2) -> w = v)).
Proof.
  intros D W HW l1 l2 x Hx. split; intros d v H.
  - destruct (off_accepted W l1 l2 x d v HW Hx H) as (w & Hw & S & Q). exists w. split; [assumption|]. split; [assumption|]. intros F. apply Q. left. now apply no_external.
  - destruct (off_accepted_json W l1 l2 x d v HW Hx H) as (w & Hw & S & Q). exists w. split; [assumption|]. split; [assumption|]. intros F. apply Q. left. now apply no_external.
Qed.
Definition op_world : world unit := {| wo_env := fun _ _ _ => ex_jenv; wo_loader := fun _ => Err "x" |}.
Example C287_example : (forall d r f, jsonld_settings_only (wo_env op_world d r f)) /\
  (exists v, parse_credential_with op_world [WithProofChecker (Some ex_comb); WithStrictValidation] (ex_tok "good") = Ok v /\
             parse_credential_with op_world [WithProofChecker (Some ex_comb); WithDisabledProofCheck; WithStrictValidation] (ex_tok "good") = Ok v) /\
  is_err (parse_credential_with op_world [WithProofChecker (Some ex_comb); WithStrictValidation] (ex_tok "bad")) = true /\
  is_ok (parse_credential_with op_world [WithProofChecker (Some ex_comb); WithDisabledProofCheck; WithStrictValidation] (ex_tok "bad")) = true.
Proof.
  split; [intros d r f o o' b m _ _ _; reflexivity|]. split; [|split; vm_compute; reflexivity]. eexists. split; vm_compute; reflexivity.
Qed.

(** C288: the same for presentations: for a text of one kind the presentation is the same. *)
Theorem C288_presentations : forall D (W : option D -> vpenv) (l1 l2 : list (popt D)) x d p,
  (forall dl, jsonld_settings_only (pe_v (W dl)) /\ one_kind (pe_v (W dl)) d) -> pturns_off x = true ->
  parse_presentation_with W (l1 ++ l2) d = Ok p -> parse_presentation_with W (l1 ++ x :: l2) d = Ok p.
Proof. intros D W l1 l2 x d p. exact (poff_accepted W l1 l2 x d p). Qed.
Example C288_example : (forall dl : option unit, jsonld_settings_only (pe_v ((fun _ => ex_P) dl)) /\ one_kind (pe_v ((fun _ => ex_P) dl)) (ex_tok "vp")) /\
  (exists p, parse_presentation_with (fun _ : option unit => ex_P) [WithPresProofChecker (Some ex_comb); WithPresHolderCheck true] (ex_tok "vp") = Ok p /\ pr_holder p = "did:h") /\
  is_err (parse_presentation_with (fun _ : option unit => ex_P) [WithPresProofChecker (Some ex_comb)] (ex_tok "vpbad")) = true /\
  is_ok (parse_presentation_with (fun _ : option unit => ex_P) [WithPresDisabledProofCheck; WithPresProofChecker (Some ex_comb)] (ex_tok "vpbad")) = true.
Proof.
  split; [|split; [|split; vm_compute; reflexivity]].
  - intros dl. split; [intros o o' b m _ _ _; reflexivity|]. constructor; [intros H; exfalso; apply H; reflexivity|auto|intros ms ts H; discriminate H].
  - eexists. split; vm_compute; reflexivity.
Qed.

(** C289: unless an option turns it off, an accepted credential has an issuer, and the checker (or data integrity verifier) that the last option for its kind gives accepted,
    for that issuer, a proof over its object, with the purpose, domain and challenge of the last WithExpectedDataIntegrityFields; so without such an option nothing is accepted. *)
Theorem C289_last_checker : forall D (W : world D) (l : list (copt D)) d v,
  Forall (fun x => about ProofCheckOff x = false) l -> parse_credential_with W l d = Ok v ->
  exists o i E, vc_issuer (cr_contents v) = Some i /\ is_id i <> "" /\ secured E o v (is_id i) /\
    (exists dl r f, ve_jwt E = ve_jwt (wo_env W dl r f) /\ ve_ldproofs E = ve_ldproofs (wo_env W dl r f) /\ ve_di E = ve_di (wo_env W dl r f)) /\
    (forall pc, co_jwt_check o = Some pc -> last_given gives_jwt l (Some pc)) /\ (forall pc, co_ld_check o = Some pc -> last_given gives_ld l (Some pc)) /\
    (forall pc, co_cwt_check o = Some pc -> last_given gives_cwt l (Some pc)) /\ (forall V, co_di o = Some V -> last_given gives_di l (Some V)) /\
    ((Forall (fun x => gives_fields x = None) l /\ (co_di_purpose o, co_di_domain o, co_di_challenge o) = ("", "", "")) \/
     last_given gives_fields l (co_di_purpose o, co_di_domain o, co_di_challenge o)).
Proof.
  intros D W l d v Hl H. destruct (options_given l) as (A & B & C & F & G & K). unfold parse_credential_with in H.
  destruct (parse_credential_secured _ _ _ _ H) as (i & I1 & I2 & _ & I3); [now apply K|]. exists (cs_o (options l)), i, (env_of W (options l)).
  split; [assumption|]. split; [assumption|]. split; [assumption|]. split; [|auto 10]. exists (cs_doc (options l)), (cs_rdf (options l)), (cs_diff (options l)). repeat split.
Qed.
Theorem C289_nothing_given : forall D (W : world D) (l : list (copt D)) d v,
  Forall (fun x => about ProofCheckOff x = false /\ gives_jwt x = None /\ gives_ld x = None /\ gives_cwt x = None /\ gives_di x = None) l -> parse_credential_with W l d <> Ok v.
Proof.
  intros D W l d v Hl H. destruct (C289_last_checker D W l d v) as (o & i & E & _ & _ & S & _ & A & B & C & F & _); [|assumption|].
  - eapply Forall_impl; [|exact Hl]. intros x Hx. apply Hx.
  - assert (N : forall A (g : copt D -> option A) a, Forall (fun x => g x = None) l -> ~ last_given g l a).
    { intros X g a Hg L. inversion L as [m1 x m2 b Hx _]; subst. apply Forall_app in Hg as [_ Hg]. inversion Hg; congruence. }
    destruct S as [je j pc _ Q|ce pc tbs alg p _ _ Q|chk ps _ _ Q|V _ _ Q].
    + eapply N; [|exact (A _ Q)]. eapply Forall_impl; [|exact Hl]. intros x Hx. apply Hx.
    + eapply N; [|exact (C _ Q)]. eapply Forall_impl; [|exact Hl]. intros x Hx. apply Hx.
    + eapply N; [|exact (B _ Q)]. eapply Forall_impl; [|exact Hl]. intros x Hx. apply Hx.
    + eapply N; [|exact (F _ Q)]. eapply Forall_impl; [|exact Hl]. intros x Hx. apply Hx.
Qed.
Example C289_example : let l := [WithJWTProofChecker (Some (cc_jwt refuse_all)); WithLDProofChecker (Some (cc_ld refuse_all)); WithProofChecker (Some ex_comb); @WithStrictValidation unit] in
  is_ok (parse_credential_with op_world l (ex_tok "good")) = true /\ Forall (fun x => about ProofCheckOff x = false) l /\ last_given gives_jwt l (Some (cc_jwt ex_comb)) /\
  is_err (parse_credential_with op_world (l ++ [WithJWTProofChecker (Some (cc_jwt refuse_all))]) (ex_tok "good")) = true /\
  is_err (parse_credential_with op_world [] (ex_tok "good")) = true.
Proof.
  intros l. split; [vm_compute; reflexivity|]. split; [repeat constructor|]. split; [|split; vm_compute; reflexivity].
  apply (lg gives_jwt [WithJWTProofChecker (Some (cc_jwt refuse_all)); WithLDProofChecker (Some (cc_ld refuse_all))] (WithProofChecker (Some ex_comb)) [WithStrictValidation]); [reflexivity|repeat constructor].
Qed.

(** C290 (does not hold): a proof checker that is given is consulted: an option that turned proof checks off, even one that stands before it, wins. *)
Theorem C290_checker_given_refuted : ~ (forall D (W : world D) (l : list (copt D)) c d v,
  parse_credential_with W (l ++ [WithProofChecker (Some c)]) d = Ok v ->
  exists o E iss, secured E o v iss /\ (forall pc, co_jwt_check o = Some pc -> pc = cc_jwt c) /\ (forall pc, co_ld_check o = Some pc -> pc = cc_ld c) /\
    (forall pc, co_cwt_check o = Some pc -> pc = cc_cwt c) /\ co_di o = None).
Proof.
  intros H. destruct (parse_credential_with op_world ([WithDisabledProofCheck] ++ [WithProofChecker (Some refuse_all)]) (ex_tok "bad")) as [v| |] eqn:E; [|vm_compute in E; discriminate..].
  destruct (H unit op_world [WithDisabledProofCheck] refuse_all (ex_tok "bad") v E) as (o & E' & iss & S & A & B & C & F).
  assert (Hj : exists je, cr_jwt v = Some je) by (vm_compute in E; injection E as <-; cbn; eauto). destruct Hj as (je' & Hj).
  destruct S as [je j pc _ Q _ _ R _|ce pc tbs alg p J|chk ps J|V J]; try congruence. rewrite (A _ Q) in R. discriminate R.
Qed.

(** C291 (does not hold): a presentation of type EnvelopedVerifiablePresentation that is accepted is the one in its data URL.  One whose enclosed presentation is refused is read as a
    presentation itself, with its own proof. *)
Definition env_members (proofs : list (string * json)) : list (string * json) :=
  ([("@context", JArr [JStr v1_context]); ("type", JArr [JStr "EnvelopedVerifiablePresentation"; JStr "VerifiablePresentation"]); ("id", JStr ("data:application/vp-ld+jwt," ++ ex_tok "vpbad"));
   ("holder", JStr "did:mallory")] ++ proofs)%list.
Definition env_proof : ldproof := {| lp_type := "T"; lp_pkid := Ok "did:mallory#k"; lp_sig := Ok "sig"; lp_raw := JNull |}.
Definition env_E : venv :=
  let E := toyV0 [(ex_tok "vpbad", vp_jws "sig:x")] [("V", ex_vp_members []); ("{}", []); ("ENV", env_members [("proof", JObj [("type", JStr "T")])])] in
  {| ve_time := ve_time E; ve_jwt := ve_jwt E; ve_members := ve_members E; ve_obj := ve_obj E; ve_sd := ve_sd E; ve_order := ve_order E; ve_cose := ve_cose E;
     ve_hex := ve_hex E; ve_cbor := ve_cbor E; ve_schema := ve_schema E; ve_valid := ve_valid E; ve_jsonld := ve_jsonld E; ve_ext := ve_ext E; ve_ldproofs := fun _ => Ok [env_proof];
     ve_ldmsg := fun _ _ => Ok "msg"; ve_di := ve_di E; ve_now := ve_now E; ve_related := ve_related E |}.
Definition env_check : combined :=
  {| cc_jwt := default_jwt ex_cenv ex_resolve; cc_ld := fun p i m s => guard (String.eqb i "did:mallory" && String.eqb m "msg" && String.eqb s "sig")%bool "no"; cc_cwt := fun _ _ _ _ => Err "no" |}.
Theorem C291_envelope_refuted : ~ (forall D (W : option D -> vpenv) (l : list (popt D)) data p ms url media enc text,
  Forall (fun x => pabout PProofCheckOff x = false) l -> parse_presentation_with W l data = Ok p ->
  (forall dl, ve_members (pe_v (W dl)) data = Some ms) -> In ("type", JArr [JStr "EnvelopedVerifiablePresentation"; JStr "VerifiablePresentation"]) ms -> mget ms "id" = Some (JStr url) ->
  parse_data_url url = Ok (media, enc, text) -> exists q, parse_presentation_with W l text = Ok q /\ pr_holder p = pr_holder q).
Proof.
  intros H. destruct (parse_presentation_with (fun _ : option unit => toyP env_E) [WithPresProofChecker (Some env_check)] "ENV") as [p| |] eqn:Ep; [|vm_compute in Ep; discriminate..].
  destruct (parse_data_url ("data:application/vp-ld+jwt," ++ ex_tok "vpbad")) as [[[media enc] text]| |] eqn:Eu; [|vm_compute in Eu; discriminate..].
  destruct (H unit (fun _ => toyP env_E) [WithPresProofChecker (Some env_check)] "ENV" p (env_members [("proof", JObj [("type", JStr "T")])])
    ("data:application/vp-ld+jwt," ++ ex_tok "vpbad") media enc text) as (q & Hq & _); try assumption.
  - repeat constructor.
  - reflexivity.
  - right. left. reflexivity.
  - reflexivity.
  - vm_compute in Eu. injection Eu as <- <- <-. vm_compute in Hq. discriminate.
Qed.

Print Assumptions C286_credentials.
Print Assumptions C286_presentations.
Print Assumptions C286_did.
Print Assumptions C286_swap.
Print Assumptions C287_credentials.
Print Assumptions C288_presentations.
Print Assumptions C289_last_checker.
Print Assumptions C289_nothing_given.
Print Assumptions C290_checker_given_refuted.
Print Assumptions C291_envelope_refuted.
