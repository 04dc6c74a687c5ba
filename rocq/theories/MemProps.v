(** Properties of the in-memory store (legacy/mem/mem.go) for every interleaving of concurrent calls. *)
From Verif Require Import GoBase StrLemmas DiProofs RrProofs MemSpec MemModel MemProofs MemLin MemStep.
From Coq Require Import Lia Permutation.

(** C167 *)
Theorem C167_store_linearizable m s :
  NoDup (map fst m) -> mrun (fresh m) s ->
  (forall i ex pl, In (Call i (OQuery ex pl)) (ms_hist s) -> free_of "&" ex) ->
  linearizable (fun k => mget m k) (ms_hist s).
Proof.
  intros Hm Hr Hq. destruct (linv_run _ _ _ _ _ (linv_start m Hm) Hr) as (S & A & I).
  - intros i o Hin. destruct o; cbn; auto. eapply Hq; eassumption.
  - exact (linv_linearizable _ _ _ _ I).
Qed.
Print Assumptions C167_store_linearizable.

(** C168: no deadlock *)
Theorem C168_store_no_deadlock m s i o :
  NoDup (map fst m) -> mrun (fresh m) s ->
  (forall i ex pl, In (Call i (OQuery ex pl)) (ms_hist s) -> free_of "&" ex) ->
  In (Call i o) (ms_hist s) -> (forall r, ~ In (Ret i r) (ms_hist s)) ->
  exists t, mstep s t /\ forall j, (forall o, In (Call j o) (ms_hist t) -> In (Call j o) (ms_hist s)).
Proof.
  intros Hm Hr Hq Hc Hnr. destruct (linv_run _ _ _ _ _ (linv_start m Hm) Hr) as (S & A & I).
  { intros j o' Hin. destruct o'; cbn; auto. eapply Hq; eassumption. }
  assert (Hgo : forall j o' p, nth_error (ms_calls s) j = Some (o', p) -> in_crit p = true -> exists t, mstep s t /\ ms_hist t = ms_hist s).
  { intros j o' p Hj Hp. destruct (l_pc _ _ _ _ I _ _ _ Hj) as (_ & Hok & _). destruct p as [|l|l|r|res rest|r|]; try discriminate.
    - destruct l as [|rem|rem acc|c todo fnd res rest]; cbn in Hok.
      + destruct Hok as (Hck & Hone & _). destruct o' as [k [v|] ts|k|k|ks|k|l|ex pl]; cbn in Hck, Hone; try contradiction;
          eexists; (split; [eapply ms_access; [exact Hj|constructor]|reflexivity]).
      + destruct Hok as (l & d & -> & _ & Hl & _ & Hne). destruct (str_in "" (map b_key l)) eqn:E.
        * destruct d as [|b d].
          -- cbn in Hl. subst rem. eexists; (split; [eapply ms_access; [exact Hj|apply ac_batch_key; exact E]|reflexivity]).
          -- exfalso. apply str_in_In in E. exact (Hne ltac:(discriminate) E).
        * destruct rem as [|b rem].
          -- eexists; (split; [eapply ms_access; [exact Hj|apply ac_batch_end; exact E]|reflexivity]).
          -- destruct (b_value b) eqn:Ev; eexists; (split; [eapply ms_access; [exact Hj|]|reflexivity]).
             ++ eapply ac_batch_put; eassumption.
             ++ eapply ac_batch_del; eassumption.
      + destruct Hok as (ks & d & -> & _). destruct rem; eexists; (split; [eapply ms_access; [exact Hj|constructor]|reflexivity]).
      + destruct Hok as (_ & _ & _ & (ex & -> & _) & _). destruct todo; eexists; (split; [eapply ms_access; [exact Hj|constructor]|reflexivity]).
    - destruct (writes o') eqn:Ew; eexists; (split; [first [eapply ms_unlock; eassumption|eapply ms_runlock; eassumption]|reflexivity]).
    - destruct Hok as (-> & _ & ex & c & fnd & -> & _). eexists. split; [eapply ms_next; [exact Hj|eapply qn_done; apply Permutation_refl]|reflexivity]. }
  assert (Hx : exists t, mstep s t /\ forall j o', In (Call j o') (ms_hist t) -> In (Call j o') (ms_hist s)).
  { apply (l_call _ _ _ _ I) in Hc as (p & Hi). destruct (l_pc _ _ _ _ I _ _ _ Hi) as (Hs & Hok & Hl).
    destruct (in_crit p) eqn:Hp; [destruct (Hgo _ _ _ Hi Hp) as (t & Ht & Hh); exists t; rewrite Hh; auto|].
    destruct p as [|l|l|r|res rest|r|]; try discriminate.
    - destruct Hok as (ex & pl & ->). cbn in Hs. destruct pl.
      2:{ eexists. split; [eapply ms_query; [exact Hi|apply qs_opts]|auto]. }
      destruct (String.eqb_spec ex "") as [->|Hne].
      { eexists. split; [eapply ms_query; [exact Hi|apply qs_empty]|auto]. }
      destruct (parse_conj ex) eqn:Ep; (eexists; split; [eapply ms_query; [exact Hi|apply qs_go; [exact Hne|]]|auto]); rewrite (split_and_free _ Hs);
        [apply qn_one|apply qn_bad]; exact Ep.
    - (* the lock: if taken, its holder can go on *)
      assert (Hen : exists l', enter (ms_map s) l l').
      { destruct l as [|rem|rem acc|c todo fnd res rest]; try (eexists; constructor).
        cbn in Hok. destruct Hok as (-> & -> & _). eexists. apply en_query. apply Permutation_refl. }
      destruct Hen as (l' & Hen).
      assert (Hhold : forall w, (0 < total w (ms_calls s))%nat -> exists j o' p, nth_error (ms_calls s) j = Some (o', p) /\ (0 < w (o', p))%nat).
      { intros w. generalize (ms_calls s). induction l0 as [|[o' p'] l0 IH]; unfold total; cbn [fold_right]; [lia|].
        intros H. destruct (Nat.eq_dec (w (o', p')) 0) as [H0|H0].
        - destruct IH as (j & o2 & p2 & Hj & Hw); [unfold total; lia|]. exists (Datatypes.S j), o2, p2. auto.
        - exists 0%nat, o', p'. split; [reflexivity|lia]. }
      assert (Hcr : forall o' p, (0 < wcrit (o', p) + rcrit (o', p))%nat -> in_crit p = true).
      { intros o' p H. rewrite crit_count in H. cbn in H. destruct (in_crit p); [reflexivity|lia]. }
      destruct (ms_w s) eqn:Ew.
      { destruct (Hhold wcrit) as (j & o' & p & Hj & Hw); [rewrite (l_w _ _ _ _ I), Ew; lia|].
        destruct (Hgo _ _ _ Hj (Hcr o' p ltac:(lia))) as (t & Ht & Hh). exists t. rewrite Hh. auto. }
      destruct (writes o) eqn:Eo.
      + destruct (Nat.eq_dec (ms_r s) 0) as [Er|Er].
        * eexists. split; [eapply ms_lock; eassumption|auto].
        * destruct (Hhold rcrit) as (j & o' & p & Hj & Hw); [rewrite (l_r _ _ _ _ I); lia|].
          destruct (Hgo _ _ _ Hj (Hcr o' p ltac:(lia))) as (t & Ht & Hh). exists t. rewrite Hh. auto.
      + eexists. split; [eapply ms_rlock; eassumption|auto].
    - eexists. split; [eapply ms_ret; exact Hi|]. cbn. intros j o' Hin. apply in_app_or in Hin as [Hin|[[=]|[]]]. exact Hin.
    - destruct Hl as (r & _ & Hret). exfalso. exact (Hnr _ Hret). }
  destruct Hx as (t & Ht & Hh). exists t. split; [exact Ht|]. intros j o'. apply Hh.
Qed.
Print Assumptions C168_store_no_deadlock.

(** *** Runs *)
Lemma query_text_conj ex ts cs : split_and ex = ts -> query_text ex cs -> Forall2 (fun t c => parse_conj t = Some c) ts cs.
Proof.
  intros Hsp (_ & ts' & Hne & Hf & -> & H2). rewrite split_and_concat in Hsp by assumption. subst ts'. clear Hne Hf.
  induction H2 as [|t c ts cs Hc H2 IH]; constructor; [apply parse_conj_spec; exact Hc|exact IH].
Qed.
Lemma mrun_cons s t u : mstep s t -> mrun t u -> mrun s u.
Proof. intros H Hr. induction Hr as [|v w Hr IH Hst]; [eapply mr_step; [apply mr_refl|exact H]|eapply mr_step; [exact IH|exact Hst]]. Qed.
Ltac go c := eapply mrun_cons; [c|cbn [upd ms_map ms_w ms_r ms_calls ms_hist List.length app firstn skipn start_pc]].
Definition tg (n v : string) : tag := {| t_name := n; t_value := v |}.
Definition en (v : string) (ts : list tag) : entry := {| e_value := v; e_tags := ts |}.

(** A batch of two writes and a bulk read that overlap: the read, although it starts while the batch is running, sees both. *)
Example C167_example : exists s, mrun (fresh []) s /\
  ms_hist s = [Call 0 (OBatch [{| b_key := "a"; b_value := Some "1"; b_tags := [] |}; {| b_key := "b"; b_value := Some "2"; b_tags := [] |}]);
               Call 1 (OGetBulk ["a"; "b"]); Ret 0 RUnit; Ret 1 (RVals [Some "1"; Some "2"])].
Proof.
  eexists. split.
  - go ltac:(eapply (ms_call _ (OBatch [{| b_key := "a"; b_value := Some "1"; b_tags := [] |}; {| b_key := "b"; b_value := Some "2"; b_tags := [] |}]))).
    go ltac:(eapply (ms_lock _ 0); [reflexivity|reflexivity|reflexivity|reflexivity|constructor]).
    go ltac:(eapply (ms_access _ 0); [reflexivity|eapply ac_batch_put; reflexivity]).
    go ltac:(eapply (ms_call _ (OGetBulk ["a"; "b"]))).
    go ltac:(eapply (ms_access _ 0); [reflexivity|eapply ac_batch_put; reflexivity]).
    go ltac:(eapply (ms_access _ 0); [reflexivity|eapply ac_batch_end; reflexivity]).
    go ltac:(eapply (ms_unlock _ 0); reflexivity).
    go ltac:(eapply (ms_rlock _ 1); [reflexivity|reflexivity|reflexivity|constructor]).
    go ltac:(eapply (ms_ret _ 0); reflexivity).
    go ltac:(eapply (ms_access _ 1); [reflexivity|constructor]).
    go ltac:(eapply (ms_access _ 1); [reflexivity|constructor]).
    go ltac:(eapply (ms_access _ 1); [reflexivity|constructor]).
    go ltac:(eapply (ms_runlock _ 1); reflexivity).
    go ltac:(eapply (ms_ret _ 1); reflexivity).
    apply mr_refl.
  - reflexivity.
Qed.

(** C169: a query of several tags is not a snapshot *)
Theorem C169_multi_tag_query_not_atomic_refuted : exists m s,
  NoDup (map fst m) /\ mrun (fresh m) s /\ ~ linearizable (fun k => mget m k) (ms_hist s).
Proof.
  set (m := [("k", en "old" [tg "a" ""])] : gomap entry).
  exists m. eexists. split; [repeat constructor; intros []|]. split.
  - go ltac:(eapply (ms_call _ (OQuery "a&&b" true))).
    go ltac:(eapply (ms_query _ 0); [reflexivity|eapply qs_go; [discriminate|eapply qn_one; reflexivity]]).
    go ltac:(eapply (ms_rlock _ 0); [reflexivity|reflexivity|reflexivity|apply en_query; apply Permutation_refl]).
    go ltac:(eapply (ms_access _ 0); [reflexivity|constructor]).
    go ltac:(eapply (ms_access _ 0); [reflexivity|constructor]).
    go ltac:(eapply (ms_next _ 0); [reflexivity|eapply qn_one; reflexivity]).
    go ltac:(eapply (ms_call _ (OPut "k" (Some "new") [tg "b" ""]))).
    go ltac:(eapply (ms_lock _ 1); [reflexivity|reflexivity|reflexivity|reflexivity|constructor]).
    go ltac:(eapply (ms_access _ 1); [reflexivity|constructor]).
    go ltac:(eapply (ms_unlock _ 1); reflexivity).
    go ltac:(eapply (ms_ret _ 1); reflexivity).
    go ltac:(eapply (ms_rlock _ 0); [reflexivity|reflexivity|reflexivity|apply en_query; apply Permutation_refl]).
    go ltac:(eapply (ms_access _ 0); [reflexivity|constructor]).
    go ltac:(eapply (ms_access _ 0); [reflexivity|constructor]).
    go ltac:(eapply (ms_next _ 0); [reflexivity|eapply qn_done; [apply Permutation_refl|apply Permutation_refl]]).
    go ltac:(eapply (ms_ret _ 0); reflexivity).
    apply mr_refl.
  - cbn [ms_hist].
    match goal with |- ~ linearizable _ (_ ++ [Ret 0 (RIter ?l)])%list => set (p := l) end.
    assert (Hp : exists e, In ("k", e) p) by (vm_compute; eauto).
    clearbody p. destruct Hp as (e & Hin). cbn [app].
    intros (S & B & Hleg & Hnd & Hcalls & Hrets & _).
    destruct (Hrets 0%nat (RIter p)) as (o & Ho); [cbn; tauto|].
    destruct (Hcalls _ _ _ Ho) as [Hco _].
    assert (o = OQuery "a&&b" true) as -> by (cbn in Hco; destruct Hco as [H|[H|[H|[H|[]]]]]; congruence).
    assert (Hst : forall S A B, legal A S B -> (forall i o r, In (i, o, r) S -> o = OQuery "a&&b" true \/ o = OPut "k" (Some "new") [tg "b" ""]) ->
              In (0%nat, OQuery "a&&b" true, RIter p) S -> (forall x, A "k" = Some x -> ~ (has_tag x ("a", "") /\ has_tag x ("b", ""))) -> False).
    { clear - Hin. intros S. induction S as [|[[i o] r] S IH]; intros A B Hl Hops HinS Hinv; [destruct HinS|].
      inversion Hl as [|? ? ? ? C ? ? Hs Hl']; subst.
      assert (Hq : forall cs l, query_text "a&&b" cs -> found A cs l -> l = p -> False).
      { intros cs l Hqt [_ Hf] ->. apply (query_text_conj "a&&b" ["a"; "b"] _ eq_refl) in Hqt.
        inversion Hqt as [|? c1 ? cs1 H1 Hqt1]; subst. inversion Hqt1 as [|? c2 ? cs2 H2 Hqt2]; subst. inversion Hqt2; subst.
        vm_compute in H1, H2. injection H1 as <-. injection H2 as <-.
        apply Hf in Hin as [HA Hc]. apply (Hinv _ HA). split; apply Hc; [left|right; left]; reflexivity. }
      destruct HinS as [[= -> -> ->]|HinS].
      - inversion Hs as [| | | | | | | | | | | |ex cs X Y l Hqt Hf Hsm|]; subst. eapply Hq; try eassumption. reflexivity.
      - eapply IH; [exact Hl'| |exact HinS|].
        + intros i0 o0 r0 H0. apply (Hops i0 o0 r0). right. exact H0.
        + destruct (Hops i o r (or_introl eq_refl)) as [-> | ->].
          * inversion Hs; subst; intros x Hx; apply Hinv; match goal with H : same _ _ |- _ => rewrite H end; exact Hx.
          * inversion Hs as [k v ts X Y Hk Ht Hu|k v ts X Y e0 Hk Hsm| | | | | | | | | | | |]; subst.
            -- intros x. rewrite Hu. cbn. intros [= <-] [(t & [<-|[]] & Hn & _) _]. discriminate Hn.
            -- intros x Hx. apply Hinv. rewrite Hsm. exact Hx. }
    eapply (Hst S); [exact Hleg| |exact Ho|].
    + intros i o r Hi. destruct (Hcalls _ _ _ Hi) as [Hc _]. cbn in Hc. destruct Hc as [[= _ <-]|[[= _ <-]|[H|[H|[]]]]]; auto; discriminate.
    + intros x. cbn. intros [= <-] [_ (t & [<-|[]] & Hn & _)]. discriminate Hn.
Qed.
Print Assumptions C169_multi_tag_query_not_atomic_refuted.
