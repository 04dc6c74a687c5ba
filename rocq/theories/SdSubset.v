(** Presenting a subset of the disclosures. *)
From Verif Require Import GoBase Base64 JwtSpec JwtModel SdSpec SdModel SdProofs SdRun SdOrder SdParse SdParseProofs.

Section Restrict.
Variables (clean : bool) (D D' : string -> option dcontent).
Hypothesis Hsub : forall d, D' d = None \/ D' d = D d.
Lemma Res_restrict :
  (forall j out ds, Res clean D j out ds -> exists out' ds', Res clean D' j out' ds' /\ subcount ds' ds) /\
  (forall l out ds, Elems clean D l out ds -> exists out' ds', Elems clean D' l out' ds' /\ subcount ds' ds) /\
  (forall l out hid ds, Named clean D l out hid ds -> exists out' hid' ds', Named clean D' l out' hid' ds' /\
     incl (map fst out') (map fst out) /\ (NoDup (map fst out) -> NoDup (map fst out')) /\ subcount ds' ds) /\
  (forall m out ds, Members clean D m out ds -> exists out' ds', Members clean D' m out' ds' /\ subcount ds' ds).
Proof.
  apply Res_mutind; intros.
  - exists j, []. split; [now constructor|]. intros x; reflexivity.
  - destruct H as (o & d & H & S). eexists _, d. split; [constructor; eassumption|assumption].
  - destruct H as (o1 & h1 & d1 & H & E & N' & S1), H0 as (o2 & d2 & H0 & S2).
    eexists _, (d1 ++ d2)%list. split; [|now apply subcount_app].
    econstructor; eauto. intros k Hk Hp Hi. apply (n1 k Hk Hp). now apply E.
  - exists [], []. split; [constructor|]. intros x; reflexivity.
  - destruct H as (o & d & H & S). eexists _, d. split; [apply El_plain; eassumption|assumption].
  - destruct H as (o & d' & H & S). eexists _, _. split; [eapply El_hidden; eauto|now apply subcount_cons].
    destruct (Hsub d); congruence.
  - destruct H as (o & d1 & H & S), H0 as (o2 & d2 & H0 & S2). destruct (Hsub d) as [Hd|Hd].
    + eexists _, _. split; [eapply El_hidden; eauto|]. apply subcount_cons.
      intros x0. rewrite count_occ_app. specialize (S2 x0). lia.
    + eexists _, _. split; [eapply El_disclosed; eauto; congruence|]. apply subcount_cons. now apply subcount_app.
  - exists [], [], []. split; [constructor|]. split; [apply incl_refl|]. split; [auto|intros x; reflexivity].
  - destruct H as (o & h & d' & H & E & N' & S). eexists _, _, _. split; [eapply Nm_hidden; eauto|].
    + destruct (Hsub d); congruence.
    + split; [assumption|]. split; [assumption|]. now apply subcount_cons.
  - destruct H as (o & d1 & H & S), H0 as (o2 & h2 & d2 & H0 & E & N' & S2). destruct (Hsub d) as [Hd|Hd].
    + eexists _, _, _. split; [eapply Nm_hidden; eauto|]. split; [now apply incl_tl|].
      split; [simpl; inversion 1; subst; auto|]. apply subcount_cons.
      intros x0. rewrite count_occ_app. specialize (S2 x0). lia.
    + eexists _, _, _. split; [eapply Nm_disclosed; [rewrite Hd; eassumption|eassumption|eassumption]|]. split.
      { simpl. intros y [<-|Hy]; [now left|right; auto]. }
      split. { simpl. intros Hn. inversion Hn; subst. constructor; auto. }
      apply subcount_cons. now apply subcount_app.
  - exists [], []. split; [constructor|]. intros x; reflexivity.
  - destruct H as (o & d & H & S). exists o, d. split; [|assumption]. now apply Mb_skip.
  - destruct H as (o & d & H & S), H0 as (o2 & d2 & H0 & S2).
    eexists _, (d ++ d2)%list. split; [apply Mb_keep; eassumption|now apply subcount_app].
Qed.
End Restrict.

(** Without digest collisions, a sub-list of disclosures supplies a sub-function. *)
Lemma supplied_unique (content : string -> option dcontent) (hash : string -> string) ds s :
  NoDup (map hash ds) -> (forall s, In s ds -> content s <> None) -> In s ds -> supplied content hash ds (hash s) = content s.
Proof.
  induction ds as [|x ds IH]; simpl; intros N Hc Hi; [tauto|]. inversion N as [|? ? Hni Nd]; subst.
  assert (Hnone : forall d, ~ In d (map hash ds) -> supplied content hash ds d = None).
  { clear. induction ds as [|y ds IH]; simpl; intros d H; [reflexivity|]. rewrite IH by tauto.
    destruct (String.eqb_spec (hash y) d); [tauto|reflexivity]. }
  destruct Hi as [->|Hi].
  - rewrite Hnone by assumption. now rewrite String.eqb_refl.
  - rewrite IH; auto. destruct (content s) eqn:E; [reflexivity|]. exfalso. apply (Hc s); auto.
Qed.
Lemma supplied_none (content : string -> option dcontent) (hash : string -> string) ds d :
  ~ In d (map hash ds) -> supplied content hash ds d = None.
Proof.
  induction ds as [|y ds IH]; simpl; intros H; [reflexivity|]. rewrite IH by tauto.
  destruct (String.eqb_spec (hash y) d); [tauto|reflexivity].
Qed.
Lemma Dof_subset E h ds sel : NoDup (map (get_hash E h) ds) -> NoDup sel -> (forall s, In s ds -> dsp E s <> None) -> incl sel ds ->
  forall d, Dof E h sel d = None \/ Dof E h sel d = Dof E h ds d.
Proof.
  intros N Ns Hc Hi d. unfold Dof.
  assert (N' : NoDup (map (get_hash E h) sel)).
  { clear - N Ns Hi. induction sel as [|x sel IH]; simpl; constructor; inversion Ns; subst.
    - intros H. apply in_map_iff in H as (y & Hy & Hin).
      assert (x = y); [|subst; contradiction].
      assert (Hx : In x ds) by (apply Hi; now left). assert (Hyd : In y ds) by (apply Hi; now right).
      clear - N Hx Hyd Hy. induction ds as [|z ds IH]; [destruct Hx|]. simpl in N. inversion N; subst.
      destruct Hx as [->|Hx], Hyd as [->|Hyd]; auto.
      + exfalso. apply H1. rewrite <- Hy. now apply in_map.
      + exfalso. apply H1. rewrite Hy. now apply in_map.
    - apply IH; [assumption|]. intros z Hz. apply Hi. now right. }
  destruct (in_dec String.string_dec d (map (get_hash E h) sel)) as [Hd|Hd].
  - right. apply in_map_iff in Hd as (s & <- & Hs).
    rewrite (supplied_unique (dsp E) (get_hash E h) sel s), (supplied_unique (dsp E) (get_hash E h) ds s); auto.
  - left. now apply supplied_none.
Qed.

Theorem verify_subset E ds sel payload h : wf_env E -> wf_json (JObj payload) ->
  get_crypto_hash payload = Ok h -> NoDup (map (get_hash E h) ds) -> NoDup sel -> incl sel ds ->
  verify_disclosures E ds payload = Ok tt ->
  (verify_disclosures E sel payload = Ok tt <->
   forall s, In s sel -> committed (Dof E h sel) (JObj payload) (get_hash E h s)).
Proof.
  intros HE Hp Hh N Ns Hi Hv. apply verify_disclosures_iff in Hv as (h' & Hh' & Hall & out & dl & R & Nd & Hin); auto.
  assert (h' = h) by congruence. subst h'. split.
  - intros H. apply verify_disclosures_iff in H as (h2 & Hh2 & _ & out2 & dl2 & R2 & _ & Hin2); auto.
    assert (h2 = h) by congruence. subst h2. intros s Hs. destruct (Res_committed false (Dof E h sel)) as (Hc & _).
    eapply Hc; eauto.
  - intros H. apply verify_disclosures_iff; auto. exists h. split; [assumption|]. split; [auto|].
    destruct (Res_restrict false (Dof E h ds) (Dof E h sel)) as (Hr & _).
    { now apply Dof_subset. }
    destruct (Hr _ _ _ R) as (out' & dl' & R' & S). exists out', dl'. split; [assumption|].
    split; [eapply subcount_nodup; eauto|]. intros s Hs. eapply Res_lists_committed; eauto.
Qed.
