(** More properties of legacy/mem/mem.go: queries of several tags, the iterator, the provider. *)
From Verif Require Import GoBase StrLemmas DiProofs RrProofs MemSpec MemModel MemProofs MemLin MemStep MemProps.
From Coq Require Import Lia Permutation.

(** *** Queries while nothing is written *)
Section Reads.
Context (m : gomap entry) (Hm : NoDup (map fst m)).
Definition res_ok (cs : list conj) (res : qresults) : Prop :=
  NoDup (map fst res) /\ (forall n fnd, mget res n = Some fnd -> exists c, In c cs /\ fst c = n /\ found (absm m) [c] fnd) /\
  (forall c, In c cs -> exists fnd, mget res (fst c) = Some fnd /\ found (absm m) [c] fnd).
Definition parsed (rest : list string) (cs : list conj) : Prop := Forall2 (fun t c => parse_conj t = Some c) rest cs.
Definition qshape (cs : list conj) (p : pc) : Prop :=
  match p with
  | CStart => True
  | CWait (LQuery c todo fnd res rest) =>
      todo = [] /\ fnd = [] /\ exists cd cr, cs = (cd ++ c :: cr)%list /\ parsed rest cr /\ res_ok cd res
  | CIn (LQuery c todo fnd res rest) =>
      (exists cd cr, cs = (cd ++ c :: cr)%list /\ parsed rest cr /\ res_ok cd res) /\
      exists d, Permutation (d ++ todo) (map fst m) /\ scanned m c d fnd
  | CNext res rest => exists cd cr, cs = (cd ++ cr)%list /\ cd <> [] /\ parsed rest cr /\ res_ok cd res
  | CRet r => exists l, r = RIter l /\ found (absm m) cs l
  | CDone => True
  | _ => False
  end.
Definition answer_ok (o : op) (r : result) : Prop :=
  forall ex cs, o = OQuery ex true -> query_text ex cs -> NoDup (map fst cs) -> exists l, r = RIter l /\ found (absm m) cs l.
Definition call_ok (o : op) (p : pc) : Prop :=
  writes o = false /\ forall ex cs, o = OQuery ex true -> query_text ex cs -> NoDup (map fst cs) -> qshape cs p.
Record rinv (s : mstate) : Prop := {
  r_map : ms_map s = m;
  r_calls : forall i o p, nth_error (ms_calls s) i = Some (o, p) -> call_ok o p;
  r_hist : forall i o, In (Call i o) (ms_hist s) <-> exists p, nth_error (ms_calls s) i = Some (o, p);
  r_ret : forall i r, In (Ret i r) (ms_hist s) -> exists o p, nth_error (ms_calls s) i = Some (o, p) /\ answer_ok o r
}.
Lemma rinv_upd s i o p p' w r : rinv s -> nth_error (ms_calls s) i = Some (o, p) -> call_ok o p' -> rinv (upd s i o p' m w r).
Proof.
  intros [R1 R2 R3 R4] Hi Hok. split; cbn [upd ms_map ms_calls ms_hist].
  - reflexivity.
  - intros j o' q Hj. destruct (Nat.eq_dec i j) as [<-|Hij].
    + rewrite (set_nth_same _ _ _ _ Hi) in Hj. injection Hj as <- <-. exact Hok.
    + rewrite (set_nth_other _ _ _ _ _ Hi Hij) in Hj. eapply R2; exact Hj.
  - intros j o'. rewrite R3. destruct (Nat.eq_dec i j) as [<-|Hij].
    + rewrite (set_nth_same _ _ _ _ Hi), Hi. split; intros (q & Hq); injection Hq as <- _; eauto.
    + rewrite (set_nth_other _ _ _ _ _ Hi Hij). reflexivity.
  - intros j r0 Hin. destruct (R4 _ _ Hin) as (o' & q & Hq & Ha). destruct (Nat.eq_dec i j) as [<-|Hij].
    + rewrite Hi in Hq. injection Hq as <- _. exists o, p'. rewrite (set_nth_same _ _ _ _ Hi). auto.
    + exists o', q. rewrite (set_nth_other _ _ _ _ _ Hi Hij). auto.
Qed.
Lemma res_ok_add cd c res fnd : ~ In (fst c) (map fst cd) -> res_ok cd res -> found (absm m) [c] fnd ->
  res_ok (cd ++ [c])%list (mset res (fst c) fnd).
Proof.
  intros Hn (H1 & H2 & H3) Hf. split; [apply mset_nodup; exact H1|]. split.
  - intros n f. rewrite mget_mset. destruct (String.eqb_spec n (fst c)) as [->|Hne].
    + intros [= <-]. exists c. split; [apply in_or_app; right; left; reflexivity|auto].
    + intros Hg. destruct (H2 _ _ Hg) as (c' & Hc & He & Hx). exists c'. split; [apply in_or_app; left; exact Hc|auto].
  - intros c' Hc. apply in_app_or in Hc as [Hc|[<-|[]]].
    + destruct (H3 _ Hc) as (f & Hg & Hx). exists f. rewrite mget_mset. destruct (String.eqb_spec (fst c') (fst c)) as [He|]; [|auto].
      exfalso. apply Hn. rewrite <- He. apply in_map. exact Hc.
    + exists fnd. rewrite mget_mset, String.eqb_refl. auto.
Qed.
Lemma res_ok_common cs res ord : cs <> [] -> res_ok cs res -> Permutation ord res -> found (absm m) cs (common ord).
Proof.
  intros Hne (H1 & H2 & H3) Hp.
  assert (Hr : forall r, In r ord -> exists c, In c cs /\ fst c = fst r /\ found (absm m) [c] (snd r)).
  { intros [n fnd] Hin. apply (Permutation_in _ Hp) in Hin. apply mget_In_nodup in Hin; [|exact H1]. apply H2. exact Hin. }
  assert (Hc : forall c, In c cs -> exists r, In r ord /\ found (absm m) [c] (snd r)).
  { intros c Hin. destruct (H3 _ Hin) as (fnd & Hg & Hf). exists (fst c, fnd). split; [|exact Hf].
    apply (Permutation_in _ (Permutation_sym Hp)). apply mget_In. exact Hg. }
  assert (Hone : ord <> []).
  { destruct cs as [|c cs]; [contradiction|]. destruct (Hc c (or_introl eq_refl)) as (r & Hin & _). intros ->. destruct Hin. }
  assert (Hnd : Forall (fun r => NoDup (map fst (snd r))) ord).
  { apply Forall_forall. intros r Hin. destruct (Hr _ Hin) as (c & _ & _ & Hn & _). exact Hn. }
  destruct (common_spec ord Hone Hnd) as (Hcn & Hc1 & Hc2). split; [exact Hcn|]. intros k e. split.
  - intros Hin. apply Hc1 in Hin as [(r & Hrin & Hke) Hall]. rewrite Forall_forall in Hall.
    destruct (Hr _ Hrin) as (c & _ & _ & _ & Hf). pose proof (proj1 (Hf k e) Hke) as [Hk _]. split; [exact Hk|].
    intros c' Hc'. destruct (Hc _ Hc') as (r' & Hr' & _ & Hf'). specialize (Hall _ Hr').
    apply in_map_iff in Hall as ([k' e'] & Hk' & Hin'). cbn in Hk'. subst k'. apply Hf' in Hin' as [He' Ht].
    assert (e' = e) as -> by congruence. apply Ht. left. reflexivity.
  - intros [Hk Ht].
    assert (Hin : In k (map fst (common ord))).
    { apply Hc2. apply Forall_forall. intros r Hin. destruct (Hr _ Hin) as (c & Hcin & _ & _ & Hf).
      change k with (fst (k, e)). apply in_map. apply Hf. split; [exact Hk|]. intros c' [<-|[]]. apply Ht. exact Hcin. }
    apply in_map_iff in Hin as ([k' e'] & Hk' & Hin). cbn in Hk'. subst k'.
    apply Hc1 in Hin as Hx. destruct Hx as [(r & Hrin & Hke) _]. destruct (Hr _ Hrin) as (c & _ & _ & _ & Hf).
    pose proof (proj1 (proj1 (Hf k e') Hke)) as He'. assert (e' = e) as -> by congruence. exact Hin.
Qed.
Lemma next_shape cd cr res rest p : NoDup (map fst (cd ++ cr)%list) -> (cr = [] -> cd <> []) -> parsed rest cr -> res_ok cd res -> query_next res rest p ->
  qshape (cd ++ cr)%list p.
Proof.
  intros Hnd Hne Hpa Hres Hq. destruct Hq as [res t rest Hp|res t rest c Hp|res ord q Ho Hp].
  - exfalso. inversion Hpa. congruence.
  - destruct cr as [|c' cr']; [inversion Hpa|]. assert (Hc : parse_conj t = Some c') by (inversion Hpa; assumption). assert (Hcr : parsed rest cr') by (inversion Hpa; assumption).
    assert (c' = c) as -> by congruence. cbn. split; [reflexivity|]. split; [reflexivity|].
    exists cd, cr'. auto.
  - assert (cr = []) as -> by (inversion Hpa; reflexivity). rewrite app_nil_r. cbn. exists q. split; [reflexivity|]. eapply found_perm; [exact Hp|].
    eapply res_ok_common; eauto.
Qed.
Lemma rinv_step s t : rinv s -> mstep s t -> (forall i o, In (Call i o) (ms_hist t) -> writes o = false) -> rinv t.
Proof.
  intros R Hst Hrd. pose proof R as [R1 R2 R3 R4].
  assert (Hcall : forall i o p, nth_error (ms_calls s) i = Some (o, p) -> call_ok o p) by exact R2.
  destruct Hst as [o|i ex pl p Hi Hq|i o l l' Hi Hw Hwf Hr Hen|i o l l' Hi Hw Hwf Hen|i o l m' p Hi Ha|i o r Hi Hw|i o r Hi Hw
    |i o res rest p Hi Hq|i o r Hi].
  - assert (Ho : writes o = false) by (apply (Hrd (List.length (ms_calls s))); cbn; apply in_or_app; right; left; reflexivity).
    assert (Hnth : forall i o' p, nth_error (ms_calls s ++ [(o, start_pc o)])%list i = Some (o', p) <->
            nth_error (ms_calls s) i = Some (o', p) \/ (i = List.length (ms_calls s) /\ o' = o /\ p = start_pc o)).
    { intros i o' p. destruct (lt_eq_lt_dec i (List.length (ms_calls s))) as [[Hlt| ->]|Hgt].
      - rewrite nth_error_app1 by exact Hlt. split; [auto|]. intros [H|(-> & _)]; [exact H|lia].
      - rewrite nth_error_app2 by lia. rewrite Nat.sub_diag. cbn. split.
        + intros [= <- <-]. auto.
        + intros [H|(_ & -> & ->)]; [|reflexivity]. exfalso.
          assert (List.length (ms_calls s) < List.length (ms_calls s))%nat by (apply nth_error_Some; congruence). lia.
      - rewrite nth_error_app2 by lia. split.
        + intros H. exfalso. destruct (i - List.length (ms_calls s))%nat as [|k] eqn:E; [lia|]. cbn in H. destruct k; discriminate.
        + intros [H|(-> & _)]; [|lia]. assert (i < List.length (ms_calls s))%nat by (apply nth_error_Some; congruence). lia. }
    split; cbn [ms_map ms_calls ms_hist].
    + exact R1.
    + intros i o' p Hi. apply Hnth in Hi as [Hi|(-> & -> & ->)]; [eapply R2; exact Hi|]. split; [exact Ho|].
      intros ex cs -> _ _. exact Logic.I.
    + intros i o'. rewrite in_app_iff, R3. cbn. split.
      * intros [(p & Hp)|[[= <- <-]|[]]]; [exists p; apply Hnth; left; exact Hp|exists (start_pc o); apply Hnth; right; auto].
      * intros (p & Hp). apply Hnth in Hp as [Hp|(-> & -> & ->)]; [left; eauto|right; left; reflexivity].
    + intros i r0 Hin. apply in_app_or in Hin as [Hin|[[=]|[]]]. destruct (R4 _ _ Hin) as (o' & p & Hp & Ha). exists o', p. split; [apply Hnth; left; exact Hp|exact Ha].
  - rewrite R1. eapply rinv_upd; [exact R|exact Hi|]. split; [reflexivity|]. intros ex' cs [= <- ->] Hqt Hnd.
    pose proof (query_text_conj ex _ cs eq_refl Hqt) as Hpa. destruct Hqt as (Hne & ts & Hts & _ & _ & H2).
    assert (Hcs : cs <> []) by (intros ->; inversion H2; subst; contradiction).
    inversion Hq as [|He1 He2 He3|ex' p' Hne' Hn]; subst; [contradiction|].
    apply (next_shape [] cs [] (split_and ex) p); auto. split; [constructor|]. split; [discriminate|]. intros c [].
  - exfalso. destruct (R2 _ _ _ Hi) as [Hx _]. congruence.
  - rewrite R1 in *. eapply rinv_upd; [exact R|exact Hi|]. destruct (R2 _ _ _ Hi) as [Hx Hs]. split; [exact Hx|].
    intros ex cs He Hqt Hnd. specialize (Hs ex cs He Hqt Hnd). destruct Hen as [|l|ks acc|c res rest todo Hp]; try contradiction Hs.
    cbn in *. destruct Hs as (_ & _ & Hs). split; [exact Hs|]. exists []. split; [exact Hp|apply scanned_nil].
  - destruct (R2 _ _ _ Hi) as [Hx Hs]. rewrite R1 in Ha.
    assert (Hmm : m' = m) by (inversion Ha; subst; reflexivity || discriminate Hx). rewrite Hmm in *. clear Hmm m'.
    eapply rinv_upd; [exact R|exact Hi|]. split; [exact Hx|].
    intros ex cs He Hqt Hnd. specialize (Hs ex cs He Hqt Hnd). subst o.
    assert (Hcases : (exists c k todo fnd res rest, l = LQuery c (k :: todo) fnd res rest /\
               p = CIn (LQuery c todo (match mget m k with
                           | Some e => if entry_matches c e then (fnd ++ [(k, e)])%list else fnd
                           | None => fnd
                           end) res rest)) \/
             (exists c fnd res rest, l = LQuery c [] fnd res rest /\ p = CNext (mset res (fst c) fnd) rest)).
    { inversion Ha; [left|right]; repeat eexists. }
    destruct Hcases as [(c & k & todo & fnd & res & rest & -> & ->)|(c & fnd & res & rest & -> & ->)]; clear Ha.
    + cbn in Hs. destruct Hs as (Hs & d & Hp & Hsc). cbn. split; [exact Hs|]. exists (d ++ [k])%list. rewrite <- app_assoc. split; [exact Hp|].
      apply scanned_snoc; [|exact Hsc].
      pose proof (Permutation_NoDup (Permutation_sym Hp) Hm) as Hk. apply NoDup_remove_2 in Hk. rewrite in_app_iff in Hk. tauto.
    + cbn in Hs. destruct Hs as ((cd & cr & -> & Hpa & Hres) & d & Hp & Hsc). rewrite app_nil_r in Hp. cbn.
      exists (cd ++ [c])%list, cr. split; [rewrite <- app_assoc; reflexivity|]. split; [destruct cd; discriminate|]. split; [exact Hpa|].
      apply res_ok_add; [|exact Hres|].
      * rewrite map_app in Hnd. cbn [map] in Hnd. apply NoDup_remove_2 in Hnd. rewrite in_app_iff in Hnd. tauto.
      * exact (scanned_found (absm m) m c d fnd (same_refl _) Hp Hsc).
  - exfalso. destruct (R2 _ _ _ Hi) as [Hx _]. congruence.
  - rewrite R1. eapply rinv_upd; [exact R|exact Hi|]. destruct (R2 _ _ _ Hi) as [Hx Hs]. split; [exact Hx|].
    intros ex cs He Hqt Hnd. destruct (Hs ex cs He Hqt Hnd).
  - rewrite R1. eapply rinv_upd; [exact R|exact Hi|]. destruct (R2 _ _ _ Hi) as [Hx Hs]. split; [exact Hx|].
    intros ex cs He Hqt Hnd. destruct (Hs ex cs He Hqt Hnd) as (cd & cr & -> & Hne & Hpa & Hres). eapply next_shape; eauto.
  - destruct (R2 _ _ _ Hi) as [Hx Hs].
    assert (R' : rinv (upd s i o CDone m (ms_w s) (ms_r s))).
    { eapply rinv_upd; [exact R|exact Hi|]. split; [exact Hx|]. intros; exact Logic.I. }
    destruct R' as [Q1 Q2 Q3 Q4]. cbn [upd ms_map ms_calls ms_hist] in *. split; cbn [ms_map ms_calls ms_hist].
    + exact R1.
    + exact Q2.
    + intros j o'. rewrite in_app_iff, Q3. cbn. split; [intros [H|[H|[]]]; [exact H|discriminate]|auto].
    + intros j r0 Hin. apply in_app_or in Hin as [Hin|[[= <- <-]|[]]]; [exact (Q4 _ _ Hin)|].
      exists o, CDone. split; [apply (set_nth_same _ _ _ _ Hi)|]. intros ex cs He Hqt Hnd. exact (Hs ex cs He Hqt Hnd).
Qed.
Lemma rinv_run s : mrun (fresh m) s -> (forall i o, In (Call i o) (ms_hist s) -> writes o = false) -> rinv s.
Proof.
  intros H. induction H as [|t u H IH Hst]; intros Hrd.
  - split; cbn; auto.
    + intros i o p Hi. destruct i; discriminate.
    + intros i o. split; [intros []|intros (p & Hp); destruct i; discriminate].
    + intros i r [].
  - eapply rinv_step; [|exact Hst|exact Hrd]. apply IH. intros i o Hin. apply (Hrd i o). eapply hist_grows; eassumption.
Qed.
End Reads.
(** C170 *)
Theorem C170_query_exact m s i ex cs r :
  NoDup (map fst m) -> mrun (fresh m) s ->
  (forall j o, In (Call j o) (ms_hist s) -> match o with OPut _ _ _ | ODelete _ | OBatch _ => False | _ => True end) ->
  In (Call i (OQuery ex true)) (ms_hist s) -> In (Ret i r) (ms_hist s) ->
  query_text ex cs -> NoDup (map fst cs) ->
  exists l, r = RIter l /\ NoDup (map fst l) /\
    forall k e, In (k, e) l <-> mget m k = Some e /\ forall c, In c cs -> has_tag e c.
Proof.
  intros Hm Hr Hrd Hc Hret Hqt Hnd.
  assert (R : rinv m s) by (apply rinv_run; [exact Hm|exact Hr|]; intros j o Hin; specialize (Hrd j o Hin); destruct o; auto; destruct Hrd).
  destruct (r_ret _ _ R _ _ Hret) as (o & p & Hp & Ha). apply (r_hist _ _ R) in Hc as (p' & Hp'). rewrite Hp in Hp'. injection Hp' as -> ->.
  destruct (Ha ex cs eq_refl Hqt Hnd) as (l & -> & Hn & Hf). exists l. auto.
Qed.
Print Assumptions C170_query_exact.
Definition m_two : gomap entry := [("k", en "1" [tg "a" "x"; tg "b" "y"]); ("l", en "2" [tg "a" "x"])].
Example C170_example : NoDup (map fst m_two) /\ query_text "a:x&&b" [("a", "x"); ("b", "")] /\ NoDup (map fst [("a", "x"); ("b", "")]) /\
  exists s, mrun (fresh m_two) s /\ ms_hist s = [Call 0 (OQuery "a:x&&b" true); Ret 0 (RIter [("k", en "1" [tg "a" "x"; tg "b" "y"])])].
Proof.
  split; [repeat constructor; cbn; intuition discriminate|]. split; [|split; [repeat constructor; cbn; intuition discriminate|]].
  - split; [discriminate|]. exists ["a:x"; "b"]. split; [discriminate|]. split; [repeat constructor; intros H; vm_compute in H; intuition discriminate|].
    split; [reflexivity|]. constructor; [apply parse_conj_spec; reflexivity|]. constructor; [apply parse_conj_spec; reflexivity|constructor].
  - eexists. split.
    + go ltac:(eapply (ms_call _ (OQuery "a:x&&b" true))).
      go ltac:(eapply (ms_query _ 0); [reflexivity|eapply qs_go; [discriminate|eapply qn_one; reflexivity]]).
      go ltac:(eapply (ms_rlock _ 0); [reflexivity|reflexivity|reflexivity|apply en_query; apply Permutation_refl]).
      go ltac:(eapply (ms_access _ 0); [reflexivity|constructor]).
      go ltac:(eapply (ms_access _ 0); [reflexivity|constructor]).
      go ltac:(eapply (ms_access _ 0); [reflexivity|constructor]).
      go ltac:(eapply (ms_next _ 0); [reflexivity|eapply qn_one; reflexivity]).
      go ltac:(eapply (ms_rlock _ 0); [reflexivity|reflexivity|reflexivity|apply en_query; apply Permutation_refl]).
      go ltac:(eapply (ms_access _ 0); [reflexivity|constructor]).
      go ltac:(eapply (ms_access _ 0); [reflexivity|constructor]).
      go ltac:(eapply (ms_access _ 0); [reflexivity|constructor]).
      go ltac:(eapply (ms_next _ 0); [reflexivity|eapply qn_done; [apply Permutation_refl|apply Permutation_refl]]).
      go ltac:(eapply (ms_ret _ 0); reflexivity).
      apply mr_refl.
    + reflexivity.
Qed.

(** C171: a tag asked for twice: only the last value counts *)
Theorem C171_repeated_tag_refuted : exists s,
  mrun (fresh [("k", en "1" [tg "t" "b"])]) s /\
  ms_hist s = [Call 0 (OQuery "t:a&&t:b" true); Ret 0 (RIter [("k", en "1" [tg "t" "b"])])] /\
  query_text "t:a&&t:b" [("t", "a"); ("t", "b")] /\ ~ has_tag (en "1" [tg "t" "b"]) ("t", "a").
Proof.
  eexists. split; [|split; [|split]].
  - go ltac:(eapply (ms_call _ (OQuery "t:a&&t:b" true))).
    go ltac:(eapply (ms_query _ 0); [reflexivity|eapply qs_go; [discriminate|eapply qn_one; reflexivity]]).
    go ltac:(eapply (ms_rlock _ 0); [reflexivity|reflexivity|reflexivity|apply en_query; apply Permutation_refl]).
    go ltac:(eapply (ms_access _ 0); [reflexivity|constructor]).
    go ltac:(eapply (ms_access _ 0); [reflexivity|constructor]).
    go ltac:(eapply (ms_next _ 0); [reflexivity|eapply qn_one; reflexivity]).
    go ltac:(eapply (ms_rlock _ 0); [reflexivity|reflexivity|reflexivity|apply en_query; apply Permutation_refl]).
    go ltac:(eapply (ms_access _ 0); [reflexivity|constructor]).
    go ltac:(eapply (ms_access _ 0); [reflexivity|constructor]).
    go ltac:(eapply (ms_next _ 0); [reflexivity|eapply qn_done; [apply Permutation_refl|apply Permutation_refl]]).
    go ltac:(eapply (ms_ret _ 0); reflexivity).
    apply mr_refl.
  - reflexivity.
  - split; [discriminate|]. exists ["t:a"; "t:b"]. split; [discriminate|]. split; [repeat constructor; intros H; vm_compute in H; intuition discriminate|].
    split; [reflexivity|]. constructor; [apply parse_conj_spec; reflexivity|]. constructor; [apply parse_conj_spec; reflexivity|constructor].
  - intros (t & [<-|[]] & _ & [H|H]); discriminate H.
Qed.
Print Assumptions C171_repeated_tag_refuted.

(** C172: tags that Put refuses are stored by Batch *)
Theorem C172_batch_tags_refuted : exists s1 s2,
  mrun (fresh []) s1 /\ mrun (fresh []) s2 /\
  ms_hist s1 = [Call 0 (OPut "k" (Some "v") [tg "a:b" "c"]); Ret 0 (RErr "invalid tag")] /\
  ms_hist s2 = [Call 0 (OBatch [{| b_key := "k"; b_value := Some "v"; b_tags := [tg "a:b" "c"] |}]); Ret 0 RUnit] /\
  (* and no query can ask for that tag *)
  forall t c, conj_text t c -> ~ has_tag (en "v" [tg "a:b" "c"]) c.
Proof.
  eexists. eexists. split; [|split; [|split; [|split]]].
  - go ltac:(eapply (ms_call _ (OPut "k" (Some "v") [tg "a:b" "c"]))).
    go ltac:(eapply (ms_ret _ 0); reflexivity). apply mr_refl.
  - go ltac:(eapply (ms_call _ (OBatch [{| b_key := "k"; b_value := Some "v"; b_tags := [tg "a:b" "c"] |}]))).
    go ltac:(eapply (ms_lock _ 0); [reflexivity|reflexivity|reflexivity|reflexivity|constructor]).
    go ltac:(eapply (ms_access _ 0); [reflexivity|eapply ac_batch_put; reflexivity]).
    go ltac:(eapply (ms_access _ 0); [reflexivity|eapply ac_batch_end; reflexivity]).
    go ltac:(eapply (ms_unlock _ 0); reflexivity).
    go ltac:(eapply (ms_ret _ 0); reflexivity). apply mr_refl.
  - reflexivity.
  - reflexivity.
  - intros t c Hc (x & [<-|[]] & Hn & _). cbn in Hn.
    destruct Hc as [n Hf|n v Hf _]; cbn in Hn; subst n; apply Hf; vm_compute; auto.
Qed.
Print Assumptions C172_batch_tags_refuted.

(** C173: the iterator *)
(** reading an iterator to the end: Next, Key, Value, Tags until Next says false *)
Inductive drained : iter -> list (string * entry) -> iter -> Prop :=
| dr_end t t' : it_next t = Ok (false, t') -> drained t [] t'
| dr_next t t1 k v ts l t' : it_next t = Ok (true, t1) -> it_key t1 = Ok k -> it_value t1 = Ok v -> it_tags t1 = Ok ts ->
    drained t1 l t' -> drained t ((k, {| e_value := v; e_tags := ts |}) :: l) t'.
Lemma drained_from l : forall pre cur, exists t',
  drained {| it_idx := List.length pre; it_cur := cur; it_keys := map fst (pre ++ l)%list; it_entries := map snd (pre ++ l)%list |} l t' /\
  it_entries t' = [] /\ it_keys t' = map fst (pre ++ l)%list.
Proof.
  induction l as [|[k e] l IH]; intros pre cur.
  - eexists. split; [apply dr_end; unfold it_next; cbn [it_entries it_idx]; rewrite app_nil_r, map_length, Nat.eqb_refl; reflexivity|].
    cbn [it_entries it_keys]. rewrite app_nil_r. split; reflexivity.
  - destruct (IH (pre ++ [(k, e)])%list (k, e)) as (t' & Hd & He & Hk). rewrite <- app_assoc in Hd, Hk. cbn [app] in Hd, Hk.
    exists t'. split; [|split; assumption]. destruct e as [v ts].
    assert (Hlen : List.length (map snd (pre ++ (k, {| e_value := v; e_tags := ts |}) :: l)%list) = (List.length pre + S (List.length l))%nat).
    { rewrite map_length, app_length. reflexivity. }
    eapply dr_next; [| | | |exact Hd].
    + unfold it_next. cbn [it_entries it_idx it_keys it_cur]. rewrite Hlen.
      destruct (Nat.eqb_spec (List.length pre + S (List.length l)) (List.length pre)); [lia|].
      destruct (Nat.eqb_spec (List.length pre + S (List.length l)) 0); [lia|]. cbn [orb].
      rewrite !map_app. cbn [map fst snd].
      rewrite (nth_error_app2 (map fst pre)) by (rewrite map_length; lia). rewrite map_length, Nat.sub_diag. cbn [nth_error].
      rewrite (nth_error_app2 (map snd pre)) by (rewrite map_length; lia). rewrite map_length, Nat.sub_diag. cbn [nth_error].
      rewrite app_length. cbn [List.length]. rewrite Nat.add_1_r. reflexivity.
    + unfold it_key. cbn [it_entries it_cur fst]. rewrite Hlen. destruct (Nat.eqb_spec (List.length pre + S (List.length l)) 0); [lia|reflexivity].
    + unfold it_value. cbn [it_entries it_cur snd e_value]. rewrite Hlen. destruct (Nat.eqb_spec (List.length pre + S (List.length l)) 0); [lia|reflexivity].
    + unfold it_tags. cbn [it_entries it_cur snd e_tags]. rewrite Hlen. destruct (Nat.eqb_spec (List.length pre + S (List.length l)) 0); [lia|reflexivity].
Qed.
Theorem C173_iterator l : exists t',
  drained (it_new l) l t' /\
  (forall l' t2, drained (it_new l) l' t2 -> l' = l /\ t2 = t') /\
  it_total (it_new l) = List.length l /\ it_total t' = List.length l /\
  (exists e, it_key t' = Err e) /\ (exists e, it_value t' = Err e) /\ (exists e, it_tags t' = Err e) /\ exists t2, it_next t' = Ok (false, t2) /\ t2 = t'.
Proof.
  destruct (drained_from l [] it_zero) as (t' & Hd & He & Hk). cbn [List.length app] in Hd, Hk. exists t'. split; [exact Hd|].
  split; [|split; [|split; [|split; [|split; [|split]]]]].
  - assert (Hdet : forall t a x, drained t a x -> forall b y, drained t b y -> b = a /\ y = x).
    { intros t a x H. induction H as [t x Hn|t t1 k v ts a x Hn H1 H2 H3 H IH]; intros b y Hb.
      - inversion Hb as [? ? Hn'|? ? ? ? ? ? ? Hn']; subst; rewrite Hn in Hn'; [injection Hn' as ->; auto|discriminate].
      - inversion Hb as [? ? Hn'|? t2 ? ? ? ? ? Hn' H1' H2' H3' Hb']; subst; rewrite Hn in Hn'; [discriminate|].
        injection Hn' as <-. destruct (IH _ _ Hb') as [-> ->]. split; [|reflexivity].
        rewrite H1 in H1'. rewrite H2 in H2'. rewrite H3 in H3'. injection H1' as ->. injection H2' as ->. injection H3' as ->. reflexivity. }
    intros l' t2 H. exact (Hdet _ _ _ Hd _ _ H).
  - unfold it_total, it_new. cbn. apply map_length.
  - unfold it_total. rewrite Hk. apply map_length.
  - unfold it_key. rewrite He. eexists. reflexivity.
  - unfold it_value. rewrite He. eexists. reflexivity.
  - unfold it_tags. rewrite He. eexists. reflexivity.
  - unfold it_next. rewrite He. cbn [List.length]. rewrite orb_true_r. eexists. split; [reflexivity|]. destruct t'. cbn in He. subst. reflexivity.
Qed.
Print Assumptions C173_iterator.
Example C173_example : exists t', drained (it_new [("k", en "1" []); ("l", en "2" [tg "a" ""])]) [("k", en "1" []); ("l", en "2" [tg "a" ""])] t'.
Proof. destruct (C173_iterator [("k", en "1" []); ("l", en "2" [tg "a" ""])]) as (t' & H & _). eauto. Qed.

(** *** The provider *)
Inductive pstep (p : provider) : provider -> Prop :=
| pp_open n q h : open_store p n = Ok (q, h) -> pstep p q
| pp_close h : pstep p (close_store p h)
| pp_close_all : pstep p (close_all p)
| pp_config n tags q : set_config p n tags = Ok q -> pstep p q
| pp_write h m : pstep p (set_db p h m).
Inductive preach : provider -> Prop :=
| pr_new : preach pv_empty
| pr_step p q : preach p -> pstep p q -> preach q.
(** what a handle gives to read *)
Definition contents (p : provider) (h : nat) : option (gomap entry) := option_map ps_db (nth_error (pv_heap p) h).
Lemma set_nth_get {A} (l : list A) i x y j : nth_error l i = Some y ->
  nth_error (firstn i l ++ x :: skipn (S i) l)%list j = if Nat.eqb j i then Some x else nth_error l j.
Proof.
  intros Hi. destruct (Nat.eqb_spec j i) as [->|Hn]; [eapply set_nth_same; exact Hi|eapply set_nth_other; [exact Hi|congruence]].
Qed.
Definition pinv (p : provider) : Prop :=
  forall n h, mget (pv_dbs p) n = Some h -> exists s, nth_error (pv_heap p) h = Some s /\ ps_name s = n.
Lemma preach_inv p : preach p -> pinv p.
Proof.
  intros H. induction H as [|p q H IH Hst]; [intros n h Hg; discriminate|]. intros n h Hg.
  destruct Hst as [n0 q h0 Ho|h0| |n0 tags q Hc|h0 m].
  - unfold open_store in Ho. destruct (String.eqb n0 ""); [discriminate|].
    destruct (mget (pv_dbs p) (to_lower n0)) eqn:E; injection Ho as <- <-; [exact (IH _ _ Hg)|].
    cbn in Hg |- *. rewrite mget_mset in Hg. destruct (String.eqb_spec n (to_lower n0)) as [->|].
    + injection Hg as <-. rewrite nth_error_app2, Nat.sub_diag by lia. eexists. split; reflexivity.
    + destruct (IH _ _ Hg) as (s & Hs & Hn). exists s. rewrite nth_error_app1; [auto|]. apply nth_error_Some. congruence.
  - unfold close_store in *. destruct (nth_error (pv_heap p) h0) as [s0|]; [|exact (IH _ _ Hg)].
    cbn in *. rewrite mget_mdel in Hg. destruct (String.eqb n (ps_name s0)); [discriminate|]. exact (IH _ _ Hg).
  - discriminate.
  - unfold set_config in Hc. destruct (existsb has_colon tags); [discriminate|].
    destruct (mget (pv_dbs p) (to_lower n0)) as [h1|]; [|discriminate]. destruct (nth_error (pv_heap p) h1) as [s1|] eqn:E1; [|discriminate].
    injection Hc as <-. cbn in *. rewrite (set_nth_get _ _ _ _ _ E1). destruct (IH _ _ Hg) as (s & Hs & Hn).
    destruct (Nat.eqb_spec h h1) as [->|]; [|eauto]. rewrite E1 in Hs. injection Hs as ->. eexists. split; [reflexivity|exact Hn].
  - unfold set_db in *. destruct (nth_error (pv_heap p) h0) as [s1|] eqn:E1; [|exact (IH _ _ Hg)].
    cbn in *. rewrite (set_nth_get _ _ _ _ _ E1). destruct (IH _ _ Hg) as (s & Hs & Hn).
    destruct (Nat.eqb_spec h h0) as [->|]; [|eauto]. rewrite E1 in Hs. injection Hs as ->. eexists. split; [reflexivity|exact Hn].
Qed.
(** C174 *)
Theorem C174_provider p n q h :
  preach p -> open_store p n = Ok (q, h) ->
  (* opening again, under any name, changes nothing and gives the same store exactly for the same name up to case *)
  (forall n' q' h', open_store q n' = Ok (q', h') -> (h' = h <-> to_lower n' = to_lower n) /\ (to_lower n' = to_lower n -> q' = q)) /\
  (* opening keeps what every handle reads; a store not open before is empty *)
  (forall h' m, contents p h' = Some m -> contents q h' = Some m) /\
  (contents q h = Some [] \/ (q = p /\ exists m, contents p h = Some m)) /\
  (* writing through one handle changes what this handle reads and nothing else *)
  (forall m h', contents (set_db q h m) h' = if Nat.eqb h' h then Some m else contents q h').
Proof.
  intros Hr Ho. pose proof (preach_inv _ Hr) as I. pose proof (preach_inv _ (pr_step _ _ Hr (pp_open _ _ _ _ Ho))) as I'.
  unfold open_store in Ho. destruct (String.eqb_spec n "") as [|Hn]; [discriminate|].
  assert (Hq : mget (pv_dbs q) (to_lower n) = Some h).
  { destruct (mget (pv_dbs p) (to_lower n)) eqn:E; injection Ho as <- <-; [exact E|]. cbn. rewrite mget_mset, String.eqb_refl. reflexivity. }
  destruct (I' _ _ Hq) as (s & Hs & Hsn).
  split; [|split; [|split]].
  - intros n' q' h' Ho'. unfold open_store in Ho'. destruct (String.eqb n' ""); [discriminate|].
    destruct (mget (pv_dbs q) (to_lower n')) as [h1|] eqn:E1; injection Ho' as <- <-.
    + split; [|auto]. split.
      * intros ->. destruct (I' _ _ E1) as (s1 & Hs1 & Hn1). congruence.
      * intros He. rewrite He in E1. congruence.
    + split; [|intros He; rewrite He in E1; congruence]. split.
      * intros <-. exfalso. assert (List.length (pv_heap q) < List.length (pv_heap q))%nat by (apply nth_error_Some; congruence). lia.
      * intros He. rewrite He in E1. congruence.
  - intros h' m Hc. destruct (mget (pv_dbs p) (to_lower n)) eqn:E; injection Ho as <- <-; [exact Hc|].
    unfold contents in *. cbn. destruct (nth_error (pv_heap p) h') as [s1|] eqn:E1; [|discriminate].
    rewrite nth_error_app1 by (apply nth_error_Some; congruence). rewrite E1. exact Hc.
  - destruct (mget (pv_dbs p) (to_lower n)) eqn:E; injection Ho as <- <-.
    + right. split; [reflexivity|]. unfold contents. rewrite Hs. cbn. eauto.
    + left. unfold contents. cbn. rewrite nth_error_app2, Nat.sub_diag by lia. reflexivity.
  - intros m h'. unfold contents, set_db. rewrite Hs. cbn [pv_heap]. rewrite (set_nth_get _ _ _ _ _ Hs).
    destruct (Nat.eqb h' h); reflexivity.
Qed.
Print Assumptions C174_provider.
Example C174_example : exists p q q' h, preach p /\ open_store p "Wallet" = Ok (q, h) /\ open_store q "wALLET" = Ok (q', h).
Proof. exists pv_empty. eexists. eexists. eexists. split; [constructor|]. split; reflexivity. Qed.

(** C175: closing.  The data of a closed store is still read through its handle, and closing that handle again closes
    whatever store has the name now: its data is gone for everybody who opens it afterwards. *)
Theorem C175_close_refuted n m1 m2 : n <> "" ->
  exists p1 p2 p3 p4 h1 h2 h3,
    open_store pv_empty n = Ok (p1, h1) /\
    let c := close_store (set_db p1 h1 m1) h1 in
    contents c h1 = Some m1 /\
    open_store c n = Ok (p2, h2) /\ contents p2 h2 = Some [] /\
    p3 = set_db p2 h2 m2 /\ open_store p3 n = Ok (p3, h2) /\
    open_store (close_store p3 h1) n = Ok (p4, h3) /\ contents p4 h3 = Some [].
Proof.
  intros Hn. assert (He : String.eqb n "" = false) by (apply String.eqb_neq; exact Hn).
  unfold open_store at 1. rewrite He. cbn [pv_dbs pv_empty mget].
  do 7 eexists. split; [reflexivity|]. cbn [pv_heap pv_empty List.length].
  cbv zeta. unfold close_store, set_db, contents, open_store. rewrite He.
  cbn -[to_lower]. rewrite ?String.eqb_refl. cbn -[to_lower].
  split; [reflexivity|]. split; [reflexivity|]. split; [reflexivity|]. split; [reflexivity|].
  cbn -[to_lower]. rewrite ?String.eqb_refl. cbn -[to_lower]. split; [reflexivity|]. rewrite ?String.eqb_refl. cbn -[to_lower]. split; reflexivity.
Qed.
Print Assumptions C175_close_refuted.
