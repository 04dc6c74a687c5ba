(** Options: what a list of them amounts to. *)
From Verif Require Import GoBase Base64 JwtSpec DiSpec VcSpec JwtModel SdSpec SdModel SdParse DiModel VcModel VcJwt VcParse VcProofs VcText VpModel LdModel OpModel OpSpec.

Lemma last_exists {X} (p : X -> bool) (l : list X) : exists r, last_option p l r.
Proof.
  induction l as [|x l [r IH]]; [exists None; constructor; constructor|]. destruct r as [y|].
  - inversion IH as [|l1 y' l2 Hy H2]; subst. exists (Some y). apply (lo_some p (x :: l1) y l2); assumption.
  - inversion IH as [l' H|]; subst. destruct (p x) eqn:E; [exists (Some x); apply (lo_some p [] x l); assumption|exists None; constructor; now constructor].
Qed.
Section Field.
  Context {S X A : Type} (step : S -> X -> S) (ab : X -> bool) (proj : S -> A) (f : X -> A).
  Hypothesis H0 : forall s x, ab x = false -> proj (step s x) = proj s.
  Hypothesis H1 : forall s x, ab x = true -> proj (step s x) = f x.
  Lemma field_none : forall l s, Forall (fun x => ab x = false) l -> proj (fold_left step l s) = proj s.
  Proof. induction l as [|x l IH]; intros s H; [reflexivity|]. inversion H; subst. cbn [fold_left]. rewrite IH by assumption. now apply H0. Qed.
  Lemma field_last l s r : last_option ab l r -> proj (fold_left step l s) = match r with Some x => f x | None => proj s end.
  Proof.
    intros H. destruct H as [l H|l1 x l2 Hx H]; [now apply field_none|]. rewrite fold_left_app. cbn [fold_left]. rewrite field_none by assumption. now apply H1.
  Qed.
  Lemma field_same l l' s : (exists r, last_option ab l r /\ last_option ab l' r) -> proj (fold_left step l s) = proj (fold_left step l' s).
  Proof. intros (r & A1 & A2). now rewrite (field_last _ _ _ A1), (field_last _ _ _ A2). Qed.
End Field.
Definition same_last {X} (p : X -> bool) (l l' : list X) : Prop := exists r, last_option p l r /\ last_option p l' r.

Section Credentials.
  Context {D : Type}.
  Definition cval (x : copt D) : copts := cs_o (apply_copt default_cstate x).
  Ltac by_field k pr :=
    apply (field_same apply_copt (about k) pr (fun x => pr (apply_copt default_cstate x)));
    [intros s x; destruct x; (discriminate || reflexivity)|intros s x; destruct x; (discriminate || reflexivity)|match goal with Hk : forall k, same_last _ _ _ |- _ => apply Hk end].
  Lemma options_same (l l' : list (copt D)) : (forall k, same_last (about k) l l') -> options l = options l'.
  Proof.
    intros H. unfold options.
    assert (A1 : co_jwt_check (cs_o (fold_left apply_copt l default_cstate)) = co_jwt_check (cs_o (fold_left apply_copt l' default_cstate)))
      by (by_field JwtChecker (fun s : cstate D => co_jwt_check (cs_o s))).
    assert (A2 : co_ld_check (cs_o (fold_left apply_copt l default_cstate)) = co_ld_check (cs_o (fold_left apply_copt l' default_cstate)))
      by (by_field LdChecker (fun s : cstate D => co_ld_check (cs_o s))).
    assert (A3 : co_cwt_check (cs_o (fold_left apply_copt l default_cstate)) = co_cwt_check (cs_o (fold_left apply_copt l' default_cstate)))
      by (by_field CwtChecker (fun s : cstate D => co_cwt_check (cs_o s))).
    assert (A4 : co_no_proof (cs_o (fold_left apply_copt l default_cstate)) = co_no_proof (cs_o (fold_left apply_copt l' default_cstate)))
      by (by_field ProofCheckOff (fun s : cstate D => co_no_proof (cs_o s))).
    assert (A5 : co_no_validation (cs_o (fold_left apply_copt l default_cstate)) = co_no_validation (cs_o (fold_left apply_copt l' default_cstate)))
      by (by_field ValidationOff (fun s : cstate D => co_no_validation (cs_o s))).
    assert (A6 : co_no_related (cs_o (fold_left apply_copt l default_cstate)) = co_no_related (cs_o (fold_left apply_copt l' default_cstate)))
      by (by_field RelatedOff (fun s : cstate D => co_no_related (cs_o s))).
    assert (A7 : co_no_custom (cs_o (fold_left apply_copt l default_cstate)) = co_no_custom (cs_o (fold_left apply_copt l' default_cstate)))
      by (by_field CustomSchemaOff (fun s : cstate D => co_no_custom (cs_o s))).
    assert (A8 : co_schema (cs_o (fold_left apply_copt l default_cstate)) = co_schema (cs_o (fold_left apply_copt l' default_cstate)))
      by (by_field Schema (fun s : cstate D => co_schema (cs_o s))).
    assert (A9 : co_schema_of (cs_o (fold_left apply_copt l default_cstate)) = co_schema_of (cs_o (fold_left apply_copt l' default_cstate)))
      by (by_field SchemaFunction (fun s : cstate D => co_schema_of (cs_o s))).
    assert (A10 : co_mode (cs_o (fold_left apply_copt l default_cstate)) = co_mode (cs_o (fold_left apply_copt l' default_cstate)))
      by (by_field Mode (fun s : cstate D => co_mode (cs_o s))).
    assert (A11 : co_contexts (cs_o (fold_left apply_copt l default_cstate)) = co_contexts (cs_o (fold_left apply_copt l' default_cstate)))
      by (by_field AllowedContexts (fun s : cstate D => co_contexts (cs_o s))).
    assert (A12 : co_types (cs_o (fold_left apply_copt l default_cstate)) = co_types (cs_o (fold_left apply_copt l' default_cstate)))
      by (by_field AllowedTypes (fun s : cstate D => co_types (cs_o s))).
    assert (A13 : co_strict (cs_o (fold_left apply_copt l default_cstate)) = co_strict (cs_o (fold_left apply_copt l' default_cstate)))
      by (by_field Strict (fun s : cstate D => co_strict (cs_o s))).
    assert (A14 : co_ld_types (cs_o (fold_left apply_copt l default_cstate)) = co_ld_types (cs_o (fold_left apply_copt l' default_cstate)))
      by (by_field TypesCheck (fun s : cstate D => co_ld_types (cs_o s))).
    assert (A15 : co_external (cs_o (fold_left apply_copt l default_cstate)) = co_external (cs_o (fold_left apply_copt l' default_cstate)))
      by (by_field ExternalContexts (fun s : cstate D => co_external (cs_o s))).
    assert (A16 : co_di (cs_o (fold_left apply_copt l default_cstate)) = co_di (cs_o (fold_left apply_copt l' default_cstate)))
      by (by_field DiVerifier (fun s : cstate D => co_di (cs_o s))).
    assert (A17 : co_di_purpose (cs_o (fold_left apply_copt l default_cstate)) = co_di_purpose (cs_o (fold_left apply_copt l' default_cstate)))
      by (by_field DiFields (fun s : cstate D => co_di_purpose (cs_o s))).
    assert (A18 : co_di_domain (cs_o (fold_left apply_copt l default_cstate)) = co_di_domain (cs_o (fold_left apply_copt l' default_cstate)))
      by (by_field DiFields (fun s : cstate D => co_di_domain (cs_o s))).
    assert (A19 : co_di_challenge (cs_o (fold_left apply_copt l default_cstate)) = co_di_challenge (cs_o (fold_left apply_copt l' default_cstate)))
      by (by_field DiFields (fun s : cstate D => co_di_challenge (cs_o s))).
    assert (B1 : cs_loader (fold_left apply_copt l default_cstate) = cs_loader (fold_left apply_copt l' default_cstate)) by (by_field SchemaLoader (@cs_loader D)).
    assert (B2 : cs_doc (fold_left apply_copt l default_cstate) = cs_doc (fold_left apply_copt l' default_cstate)) by (by_field DocumentLoader (@cs_doc D)).
    assert (B3 : cs_rdf (fold_left apply_copt l default_cstate) = cs_rdf (fold_left apply_copt l' default_cstate)) by (by_field OnlyValidRdf (@cs_rdf D)).
    assert (B4 : cs_diff (fold_left apply_copt l default_cstate) = cs_diff (fold_left apply_copt l' default_cstate)) by (by_field DetailedDiff (@cs_diff D)).
    destruct (fold_left apply_copt l default_cstate) as [[] ? ? ? ?], (fold_left apply_copt l' default_cstate) as [[] ? ? ? ?].
    clear H; cbn in *; subst; reflexivity.
  Qed.
  Lemma poptions_same (l l' : list (popt D)) : (forall k, same_last (pabout k) l l') -> poptions l = poptions l'.
  Proof.
    intros H. unfold poptions.
    Ltac by_p k pr :=
      apply (field_same apply_popt (pabout k) pr (fun x => pr (apply_popt default_pstate x)));
      [intros s x; destruct x; (discriminate || reflexivity)|intros s x; destruct x; (discriminate || reflexivity)|match goal with Hk : forall k, same_last _ _ _ |- _ => apply Hk end].
    assert (A1 : vo_check (ps_o (fold_left apply_popt l default_pstate)) = vo_check (ps_o (fold_left apply_popt l' default_pstate))) by (by_p PChecker (fun s : pstate D => vo_check (ps_o s))).
    assert (A2 : vo_no_proof (ps_o (fold_left apply_popt l default_pstate)) = vo_no_proof (ps_o (fold_left apply_popt l' default_pstate))) by (by_p PProofCheckOff (fun s : pstate D => vo_no_proof (ps_o s))).
    assert (A3 : vo_strict (ps_o (fold_left apply_popt l default_pstate)) = vo_strict (ps_o (fold_left apply_popt l' default_pstate))) by (by_p PStrict (fun s : pstate D => vo_strict (ps_o s))).
    assert (A4 : vo_require_vc (ps_o (fold_left apply_popt l default_pstate)) = vo_require_vc (ps_o (fold_left apply_popt l' default_pstate))) by (by_p PRequireVC (fun s : pstate D => vo_require_vc (ps_o s))).
    assert (A5 : vo_require_proof (ps_o (fold_left apply_popt l default_pstate)) = vo_require_proof (ps_o (fold_left apply_popt l' default_pstate))) by (by_p PRequireProof (fun s : pstate D => vo_require_proof (ps_o s))).
    assert (A6 : vo_no_jsonld (ps_o (fold_left apply_popt l default_pstate)) = vo_no_jsonld (ps_o (fold_left apply_popt l' default_pstate))) by (by_p PJsonldOff (fun s : pstate D => vo_no_jsonld (ps_o s))).
    assert (A7 : vo_di (ps_o (fold_left apply_popt l default_pstate)) = vo_di (ps_o (fold_left apply_popt l' default_pstate))) by (by_p PDiVerifier (fun s : pstate D => vo_di (ps_o s))).
    assert (A8 : vo_purpose (ps_o (fold_left apply_popt l default_pstate)) = vo_purpose (ps_o (fold_left apply_popt l' default_pstate))) by (by_p PDiFields (fun s : pstate D => vo_purpose (ps_o s))).
    assert (A9 : vo_domain (ps_o (fold_left apply_popt l default_pstate)) = vo_domain (ps_o (fold_left apply_popt l' default_pstate))) by (by_p PDiFields (fun s : pstate D => vo_domain (ps_o s))).
    assert (A10 : vo_challenge (ps_o (fold_left apply_popt l default_pstate)) = vo_challenge (ps_o (fold_left apply_popt l' default_pstate))) by (by_p PDiFields (fun s : pstate D => vo_challenge (ps_o s))).
    assert (A11 : vo_holder (ps_o (fold_left apply_popt l default_pstate)) = vo_holder (ps_o (fold_left apply_popt l' default_pstate))) by (by_p PHolderCheck (fun s : pstate D => vo_holder (ps_o s))).
    assert (A12 : vo_related (ps_o (fold_left apply_popt l default_pstate)) = vo_related (ps_o (fold_left apply_popt l' default_pstate))) by (by_p PRelatedCheck (fun s : pstate D => vo_related (ps_o s))).
    assert (B1 : ps_doc (fold_left apply_popt l default_pstate) = ps_doc (fold_left apply_popt l' default_pstate)) by (by_p PDocumentLoader (@ps_doc D)).
    destruct (fold_left apply_popt l default_pstate) as [[] ?], (fold_left apply_popt l' default_pstate) as [[] ?]. clear H; cbn in *; subst; reflexivity.
  Qed.
  Lemma didoptions_same (l l' : list (didopt D)) : (forall k, same_last (dabout k) l l') -> fold_left apply_didopt l default_dstate = fold_left apply_didopt l' default_dstate.
  Proof.
    intros H.
    Ltac by_d k pr :=
      apply (field_same apply_didopt (dabout k) pr (fun x => pr (apply_didopt default_dstate x)));
      [intros s x; destruct x; (discriminate || reflexivity)|intros s x; destruct x; (discriminate || reflexivity)|match goal with Hk : forall k, same_last _ _ _ |- _ => apply Hk end].
    assert (A1 : do_ld_check (ds_o (fold_left apply_didopt l default_dstate)) = do_ld_check (ds_o (fold_left apply_didopt l' default_dstate))) by (by_d DChecker (fun s : dstate D => do_ld_check (ds_o s))).
    assert (A2 : do_di (ds_o (fold_left apply_didopt l default_dstate)) = do_di (ds_o (fold_left apply_didopt l' default_dstate))) by (by_d DDiVerifier (fun s : dstate D => do_di (ds_o s))).
    assert (A3 : do_purpose (ds_o (fold_left apply_didopt l default_dstate)) = do_purpose (ds_o (fold_left apply_didopt l' default_dstate))) by (by_d DDiFields (fun s : dstate D => do_purpose (ds_o s))).
    assert (A4 : do_domain (ds_o (fold_left apply_didopt l default_dstate)) = do_domain (ds_o (fold_left apply_didopt l' default_dstate))) by (by_d DDiFields (fun s : dstate D => do_domain (ds_o s))).
    assert (A5 : do_challenge (ds_o (fold_left apply_didopt l default_dstate)) = do_challenge (ds_o (fold_left apply_didopt l' default_dstate))) by (by_d DDiFields (fun s : dstate D => do_challenge (ds_o s))).
    assert (A6 : do_external (ds_o (fold_left apply_didopt l default_dstate)) = do_external (ds_o (fold_left apply_didopt l' default_dstate))) by (by_d DExternal (fun s : dstate D => do_external (ds_o s))).
    assert (B1 : ds_doc (fold_left apply_didopt l default_dstate) = ds_doc (fold_left apply_didopt l' default_dstate)) by (by_d DDocumentLoader (@ds_doc D)).
    assert (B2 : ds_rdf (fold_left apply_didopt l default_dstate) = ds_rdf (fold_left apply_didopt l' default_dstate)) by (by_d DOnlyValidRdf (@ds_rdf D)).
    destruct (fold_left apply_didopt l default_dstate) as [[] ? ?], (fold_left apply_didopt l' default_dstate) as [[] ? ?]. clear H; cbn in *; subst; reflexivity.
  Qed.
End Credentials.

(** options about different things may change places *)
Lemma last_swap {X} (p : X -> bool) l1 x y l2 : (p x && p y)%bool = false -> same_last p (l1 ++ x :: y :: l2) (l1 ++ y :: x :: l2).
Proof.
  intros H. destruct (last_exists p l2) as [[z|] H2].
  - exists (Some z). inversion H2 as [|m1 z' m2 Hz F]; subst. split.
    + replace (l1 ++ x :: y :: m1 ++ z :: m2)%list with ((l1 ++ x :: y :: m1) ++ z :: m2)%list by now rewrite <- app_assoc. now constructor.
    + replace (l1 ++ y :: x :: m1 ++ z :: m2)%list with ((l1 ++ y :: x :: m1) ++ z :: m2)%list by now rewrite <- app_assoc. now constructor.
  - inversion H2 as [? F|]; subst. destruct (p y) eqn:Ey, (p x) eqn:Ex; cbn in H; try discriminate.
    + exists (Some y). split; [|now constructor; [|constructor]].
      replace (l1 ++ x :: y :: l2)%list with ((l1 ++ [x]) ++ y :: l2)%list by now rewrite <- app_assoc. now constructor.
    + exists (Some x). split; [now constructor; [|constructor]|].
      replace (l1 ++ y :: x :: l2)%list with ((l1 ++ [y]) ++ x :: l2)%list by now rewrite <- app_assoc. now constructor.
    + destruct (last_exists p l1) as [[z|] H1].
      * inversion H1 as [|m1 z' m2 Hz F1]; subst. exists (Some z). rewrite <- !app_assoc. cbn [app]. split; (constructor; [assumption|]); apply Forall_app; auto.
      * inversion H1 as [? F1|]; subst. exists None. split; constructor; apply Forall_app; auto.
Qed.

(** what is given last *)
Lemma given_field {S X A} (step : S -> X -> S) (g : X -> option A) (proj : S -> A) :
  (forall s x, g x = None -> proj (step s x) = proj s) -> (forall s x a, g x = Some a -> proj (step s x) = a) ->
  forall l s, (Forall (fun x => g x = None) l /\ proj (fold_left step l s) = proj s) \/ last_given g l (proj (fold_left step l s)).
Proof.
  intros H0 H1 l. induction l as [|x l IH] using rev_ind; intros s; [left; auto|]. rewrite fold_left_app. cbn [fold_left].
  destruct (g x) as [a|] eqn:E.
  - right. rewrite (H1 _ _ _ E). now constructor.
  - rewrite (H0 _ _ E). destruct (IH s) as [[F P]|L]; [left; split; [apply Forall_app; auto|assumption]|right].
    inversion L as [l1 y l2 b Hy F]; subst. replace ((l1 ++ y :: l2) ++ [x])%list with (l1 ++ y :: (l2 ++ [x]))%list by now rewrite <- app_assoc. constructor; [assumption|].
    apply Forall_app; auto.
Qed.
Lemma options_given {D} (l : list (copt D)) :
  let o := cs_o (options l) in
  (forall pc, co_jwt_check o = Some pc -> last_given gives_jwt l (Some pc)) /\ (forall pc, co_ld_check o = Some pc -> last_given gives_ld l (Some pc)) /\
  (forall pc, co_cwt_check o = Some pc -> last_given gives_cwt l (Some pc)) /\ (forall v, co_di o = Some v -> last_given gives_di l (Some v)) /\
  ((Forall (fun x => gives_fields x = None) l /\ (co_di_purpose o, co_di_domain o, co_di_challenge o) = ("", "", "")) \/ last_given gives_fields l (co_di_purpose o, co_di_domain o, co_di_challenge o)) /\
  (co_no_proof o = false <-> Forall (fun x => about ProofCheckOff x = false) l).
Proof.
  intros o. subst o. unfold options.
  Ltac giv g pr l := let H := fresh in assert (H := given_field apply_copt g pr ltac:(intros s x; destruct x; (discriminate || reflexivity)) ltac:(intros s x a Eg; destruct x; (discriminate || (injection Eg as <-; reflexivity))) l default_cstate).
  split; [|split; [|split; [|split; [|split]]]].
  - intros pc E. giv (@gives_jwt D) (fun s : cstate D => co_jwt_check (cs_o s)) l. cbn beta in H. rewrite E in H. destruct H as [[_ H]|H]; [discriminate|assumption].
  - intros pc E. giv (@gives_ld D) (fun s : cstate D => co_ld_check (cs_o s)) l. cbn beta in H. rewrite E in H. destruct H as [[_ H]|H]; [discriminate|assumption].
  - intros pc E. giv (@gives_cwt D) (fun s : cstate D => co_cwt_check (cs_o s)) l. cbn beta in H. rewrite E in H. destruct H as [[_ H]|H]; [discriminate|assumption].
  - intros pc E. giv (@gives_di D) (fun s : cstate D => co_di (cs_o s)) l. cbn beta in H. rewrite E in H. destruct H as [[_ H]|H]; [discriminate|assumption].
  - giv (@gives_fields D) (fun s : cstate D => (co_di_purpose (cs_o s), co_di_domain (cs_o s), co_di_challenge (cs_o s))) l. exact H.
  - split.
    + intros E. destruct (last_exists (about ProofCheckOff) l) as [[x|] H]; [|now inversion H].
      exfalso. assert (F := field_last apply_copt (about ProofCheckOff) (fun s : cstate D => co_no_proof (cs_o s)) (fun _ => true)
        ltac:(intros s y; destruct y; (discriminate || reflexivity)) ltac:(intros s y; destruct y; (discriminate || reflexivity)) l default_cstate _ H). cbn beta iota in F. congruence.
    + intros F. apply (field_none apply_copt (about ProofCheckOff) (fun s : cstate D => co_no_proof (cs_o s))); [intros s y; destruct y; (discriminate || reflexivity)|assumption].
Qed.
