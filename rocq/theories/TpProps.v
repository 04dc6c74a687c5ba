(** C308-C309: checks that are made later. *)
From Verif Require Import GoBase Base64 StatusModel PexModel StrLemmas JwtSpec DiSpec VcSpec JwtModel SdSpec SdModel SdParse DiModel VcModel VcJwt VcParse VcProofs VcView VcText VcSecure
  JwtProps VcProps VcProps2 VcProps5 VpModel VpProps LdModel OpModel OpSpec OpProofs OpProofs2 OpProofs3 OpProps TpProofs.

Section Options.
  Context {D : Type}.
  Lemma off_alone (l : list (copt D)) x l2 : Forall (fun y => forall k, about k x = true -> about k y = true -> False) l2 -> options (l ++ x :: l2) = options ((l ++ l2) ++ [x]).
  Proof.
    revert l. induction l2 as [|y l2 IH]; intros l H; [now rewrite app_nil_r|]. inversion H as [|? ? Hy Hl]; subst.
    rewrite (options_same (l ++ x :: y :: l2) (l ++ y :: x :: l2)).
    - replace (l ++ y :: x :: l2)%list with ((l ++ [y]) ++ x :: l2)%list by now rewrite <- app_assoc. rewrite IH by assumption. f_equal. now rewrite <- !app_assoc.
    - intros k. apply last_swap. specialize (Hy k). destruct (about k x), (about k y); try reflexivity. now destruct Hy.
  Qed.
  Lemma proof_on (l : list (copt D)) : Forall (fun x => about ProofCheckOff x = false) l -> co_no_proof (cs_o (options l)) = false.
  Proof. intros H. apply (field_none apply_copt (about ProofCheckOff) (fun s : cstate D => co_no_proof (cs_o s))); [intros s x; destruct x; (discriminate || reflexivity)|assumption]. Qed.
  Lemma validation_on (l : list (copt D)) : Forall (fun x => about ValidationOff x = false) l -> co_no_validation (cs_o (options l)) = false.
  Proof. intros H. apply (field_none apply_copt (about ValidationOff) (fun s : cstate D => co_no_validation (cs_o s))); [intros s x; destruct x; (discriminate || reflexivity)|assumption]. Qed.
End Options.

(** the text is not an envelope with a credential inside *)
Definition no_envelope {D} (W : world D) (d : string) : Prop :=
  forall dl r f ms ts, ve_members (wo_env W dl r f) d = Some ms -> decode_type (fld (to_map ms) "type") = Ok ts -> ~ In "EnvelopedVerifiableCredential" ts.
Lemma no_envelope_parser D (W : world D) s d o : no_envelope W d -> enveloped_parser (env_of W s) o d = Ok None.
Proof.
  intros H. unfold enveloped_parser, parse_json. cbn [env_of with_schema ve_members]. specialize (H (cs_doc s) (cs_rdf s) (cs_diff s)).
  destruct (ve_members (wo_env W (cs_doc s) (cs_rdf s) (cs_diff s)) d) as [ms|]; [|reflexivity]. cbn [option_map].
  destruct (decode_type (fld (to_map ms) "type")) as [ts| |] eqn:Et; try reflexivity. destruct (str_in enveloped_type ts) eqn:Ei; [|reflexivity].
  exfalso. apply (H ms ts eq_refl Et). now apply str_in_In.
Qed.

(** C308: the proof can be checked later: a credential is accepted exactly if it is accepted with the check of proofs turned off and CheckProof, with the same options, then accepts
    the credential; and it is the credential that CheckProof leaves. *)
Theorem C308_check_later : forall D (W : world D), (forall d r f, jsonld_settings_only (wo_env W d r f)) ->
  forall (l1 l2 : list (copt D)) off d v, (off = WithDisabledProofCheck \/ off = WithNoProofCheck) -> Forall (fun x => about ProofCheckOff x = false) (l1 ++ l2) ->
  Forall (fun x => about ExternalContexts x = false) (l1 ++ l2) \/ no_envelope W d ->
  (parse_credential_with W (l1 ++ l2) d = Ok v <-> exists u, parse_credential_with W (l1 ++ off :: l2) d = Ok u /\ check_proof_with W (l1 ++ l2) u = Ok v).
Proof.
  intros D W HW l1 l2 off d v Ho Hl Hc.
  assert (Ew : options (l1 ++ off :: l2) = apply_copt (options (l1 ++ l2)) off).
  { rewrite off_alone.
    - unfold options. now rewrite fold_left_app.
    - apply Forall_app in Hl as [_ Hl]. eapply Forall_impl; [|exact Hl]. intros y Hy k Hk. assert (k = ProofCheckOff) as -> by (destruct Ho; subst off; destruct k; (discriminate || reflexivity)). congruence. }
  unfold parse_credential_with, check_proof_with. pose proof (insert_weaker l1 l2 off ltac:(destruct Ho; subst; reflexivity)) as HC. rewrite (env_weaker W _ _ HC).
  destruct HC as [HC _]. apply check_later.
  - now apply jsonld_env.
  - assumption.
  - rewrite Ew. destruct Ho; subst; reflexivity.
  - rewrite Ew. destruct Ho; subst; reflexivity.
  - now apply proof_on.
  - rewrite Ew. destruct Ho; subst; reflexivity.
  - destruct Hc as [Hc|Hc]; [left; now apply no_external|right; now apply no_envelope_parser].
Qed.
Example C308_example : (forall d r f, jsonld_settings_only (wo_env op_world d r f)) /\ no_envelope op_world (ex_tok "good") /\
  Forall (fun x : copt unit => about ProofCheckOff x = false) ([WithProofChecker (Some ex_comb)] ++ [WithStrictValidation]) /\
  (exists v, parse_credential_with op_world ([WithProofChecker (Some ex_comb)] ++ [WithStrictValidation]) (ex_tok "good") = Ok v) /\
  (exists u, parse_credential_with op_world ([WithProofChecker (Some ex_comb)] ++ WithDisabledProofCheck :: [WithStrictValidation]) (ex_tok "bad") = Ok u /\
             is_ok (check_proof_with op_world ([WithProofChecker (Some ex_comb)] ++ [WithStrictValidation]) u) = false).
Proof.
  split; [intros d r f o o' b m _ _ _; reflexivity|]. split; [intros d r f ms ts H; discriminate H|]. split; [repeat constructor|]. split; [eexists; vm_compute; reflexivity|].
  eexists. split; vm_compute; reflexivity.
Qed.
Print Assumptions C308_check_later.

(** C309: so can validation: a credential is accepted exactly if it is accepted with WithCredDisableValidation and, unless it is a JWT (those are never validated on parsing, C120),
    ValidateCredential with the same options then accepts it. *)
Theorem C309_validate_later : forall D (W : world D) (l1 l2 : list (copt D)), Forall (fun x => about ValidationOff x = false) (l1 ++ l2) -> Forall (fun x => about ExternalContexts x = false) (l1 ++ l2) ->
  (forall d v, parse_credential_with W (l1 ++ l2) d = Ok v <->
    parse_credential_with W (l1 ++ WithCredDisableValidation :: l2) d = Ok v /\ (cr_jwt v = None -> validate_with W (l1 ++ l2) v = Ok tt)) /\
  (forall m v, parse_credential_json_with W (l1 ++ l2) m = Ok v <->
    parse_credential_json_with W (l1 ++ WithCredDisableValidation :: l2) m = Ok v /\ (cr_jwt v = None -> validate_with W (l1 ++ l2) v = Ok tt)).
Proof.
  intros D W l1 l2 Hl Hx.
  assert (Ew : options (l1 ++ WithCredDisableValidation :: l2) = apply_copt (options (l1 ++ l2)) WithCredDisableValidation).
  { rewrite off_alone.
    - unfold options. now rewrite fold_left_app.
    - apply Forall_app in Hl as [_ Hl]. eapply Forall_impl; [|exact Hl]. intros y Hy k Hk. assert (k = ValidationOff) as -> by (destruct k; (discriminate || reflexivity)). congruence. }
  unfold parse_credential_with, parse_credential_json_with, validate_with. pose proof (insert_weaker l1 l2 WithCredDisableValidation eq_refl) as HC. rewrite (env_weaker W _ _ HC).
  destruct HC as [HC _]. split; intros d v.
  - apply validate_later; try (rewrite Ew; reflexivity); [assumption|now apply validation_on|now apply no_external].
  - apply validate_json_later; try (rewrite Ew; reflexivity); [assumption|now apply validation_on|now apply no_external].
Qed.
Definition tp_world : world unit := {| wo_env := fun _ _ _ => with_valid ex_venv [] toy_valid; wo_loader := fun _ => Err "x" |}.
Definition tp_strict_world : world unit := {| wo_env := fun _ _ _ => with_valid ex_venv [] (fun _ _ => Err "no"); wo_loader := fun _ => Err "x" |}.
Example C309_example :
  (exists v, parse_credential_with tp_world [WithDisabledProofCheck] ex_text = Ok v /\ cr_jwt v = None) /\
  (exists v, parse_credential_with tp_strict_world ([WithDisabledProofCheck] ++ [WithCredDisableValidation]) ex_text = Ok v /\ validate_with tp_strict_world [WithDisabledProofCheck] v = Err "no") /\
  is_ok (parse_credential_with tp_strict_world [WithDisabledProofCheck] ex_text) = false.
Proof.
  split; [eexists; split; vm_compute; reflexivity|]. split; [eexists; split; [vm_compute; reflexivity|vm_compute; reflexivity]|]. vm_compute. reflexivity.
Qed.
Print Assumptions C309_validate_later.
