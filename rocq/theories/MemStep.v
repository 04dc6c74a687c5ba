(** Linearizability of the in-memory store: every step keeps the invariant. *)
From Verif Require Import GoBase StrLemmas DiProofs RrProofs MemSpec MemModel MemProofs MemLin.
From Coq Require Import Lia Permutation.

Lemma batched_snoc A d b B C : batched A d B ->
  updated B (b_key b) (option_map (fun v => {| e_value := v; e_tags := b_tags b |}) (b_value b)) C -> batched A (d ++ [b])%list C.
Proof.
  intros H Hu. induction H as [A B Hs|A b' B l D Hb H IH].
  - cbn. eapply bt_cons; [|apply bt_nil; apply same_refl]. intros x. rewrite Hu, Hs. reflexivity.
  - cbn. eapply bt_cons; [exact Hb|apply IH; exact Hu].
Qed.
Lemma updated_mset m k e : updated (absm m) k (Some e) (absm (mset m k e)).
Proof. intros x. unfold absm. rewrite mget_mset. reflexivity. Qed.
Lemma updated_mdel m k : updated (absm m) k None (absm (mdel m k)).
Proof. intros x. unfold absm. rewrite mget_mdel. reflexivity. Qed.
Lemma updated_same A A' k e B : same A' A -> updated A k e B -> updated A' k e B.
Proof. intros Hs Hu x. rewrite Hu, Hs. reflexivity. Qed.
Lemma query_text_single ex c : ex <> "" -> free_of "&" ex -> parse_conj ex = Some c -> query_text ex [c].
Proof.
  intros Hne Hf Hp. split; [exact Hne|]. exists [ex]. split; [discriminate|]. split; [constructor; auto|]. split; [reflexivity|].
  constructor; [apply parse_conj_spec; exact Hp|constructor].
Qed.
Lemma scanned_nil m c : scanned m c [] [].
Proof. split; [constructor|]. intros k e. cbn. tauto. Qed.
Lemma scanned_snoc m c d fnd k : ~ In k d -> scanned m c d fnd ->
  scanned m c (d ++ [k])%list (match mget m k with
                         | Some e => if entry_matches c e then (fnd ++ [(k, e)])%list else fnd
                         | None => fnd
                         end).
Proof.
  intros Hk [Hn Hf]. destruct (mget m k) as [e|] eqn:Em; [destruct (entry_matches c e) eqn:Ee|].
  - split.
    + rewrite map_app. cbn [map fst]. apply (Permutation_NoDup (Permutation_cons_append _ _)). constructor; [|exact Hn].
      intros Hin. apply in_map_iff in Hin as ([k' e'] & Hk' & Hin). cbn in Hk'. subst k'. apply Hf in Hin as [Hd _]. contradiction.
    + intros k' e'. rewrite !in_app_iff, Hf. cbn. split.
      * intros [(Hd & Hm & He)|[[= <- <-]|[]]]; auto.
      * intros [[Hd|[<-|[]]] [Hm He]]; [left; auto|]. right. left. congruence.
  - split; [exact Hn|]. intros k' e'. rewrite in_app_iff, Hf. cbn. split.
    + intros (Hd & Hm & He); auto.
    + intros [[Hd|[<-|[]]] [Hm He]]; [auto|]. congruence.
  - split; [exact Hn|]. intros k' e'. rewrite in_app_iff, Hf. cbn. split.
    + intros (Hd & Hm & He); auto.
    + intros [[Hd|[<-|[]]] [Hm He]]; [auto|]. congruence.
Qed.
Lemma scanned_found A m c d fnd : same A (absm m) -> Permutation d (map fst m) -> scanned m c d fnd -> found A [c] fnd.
Proof.
  intros Hs Hp [Hn Hf]. split; [exact Hn|]. intros k e. rewrite Hf, Hs. unfold absm. split.
  - intros (_ & Hm & He). split; [exact Hm|]. intros c' [<-|[]]. apply entry_matches_spec. exact He.
  - intros [Hm Hc]. split; [|split; [exact Hm|apply entry_matches_spec; apply Hc; left; reflexivity]].
    eapply Permutation_in; [apply Permutation_sym; exact Hp|]. apply mget_In in Hm. change k with (fst (k, e)). apply in_map. exact Hm.
Qed.
Lemma found_perm A cs l p : Permutation p l -> found A cs l -> found A cs p.
Proof.
  intros Hp [Hn Hf]. split.
  - eapply Permutation_NoDup; [apply Permutation_map; apply Permutation_sym; exact Hp|exact Hn].
  - intros k e. rewrite <- Hf. split; apply Permutation_in; [exact Hp|apply Permutation_sym; exact Hp].
Qed.
Lemma found_common_single A c fnd : found A [c] fnd -> found A [c] (common [(fst c, fnd)]).
Proof.
  intros [Hn Hf].
  destruct (common_spec [(fst c, fnd)]) as (Hcn & Hc1 & Hc2); [discriminate|constructor; [exact Hn|constructor]|].
  split; [exact Hcn|]. intros k e. rewrite <- Hf. split.
  - intros H. apply Hc1 in H as [(r & [<-|[]] & Hin) _]. exact Hin.
  - intros H. assert (Hk : In k (map fst fnd)) by (change k with (fst (k, e)); apply in_map; exact H).
    specialize (Hc2 k). assert (Hx : In k (map fst (common [(fst c, fnd)]))) by (apply Hc2; constructor; [exact Hk|constructor]).
    apply in_map_iff in Hx as ([k' e'] & Hk' & Hx). cbn in Hk'. subst k'.
    apply Hc1 in Hx as Hy. destruct Hy as [(r & [<-|[]] & Hin) _]. cbn in Hin.
    apply Hf in Hin, H. assert (e' = e) as -> by (destruct Hin as [Hin _], H as [H _]; congruence). exact Hx.
Qed.
Ltac crit := unfold wcrit, rcrit; cbn [fst snd in_crit andb negb]; try lia.

Lemma linv_access A0 s S A i o l m p : linv A0 s S A -> nth_error (ms_calls s) i = Some (o, CIn l) -> access o (ms_map s) l m p ->
  linv A0 (upd s i o p m (ms_w s) (ms_r s)) S A.
Proof.
  intros I Hi Ha. destruct (l_pc _ _ _ _ I _ _ _ Hi) as (Hsing & Hok & _).
  pose proof (l_keys _ _ _ _ I) as Hkeys.
  assert (Hmap : forall o p, NoDup (map fst (ms_map s)) -> pc_ok A (ms_map s) o p -> nth_error (ms_calls s) i = Some (o, CIn l) ->
            in_crit p = true -> linv A0 (upd s i o p (ms_map s) (ms_w s) (ms_r s)) S A).
  { intros o' p' Hk Hp Hi' Hc. eapply linv_upd; [exact I|exact Hi'|reflexivity| | | | | | |exact Hp|].
    - left. repeat split. destruct p'; try reflexivity; discriminate.
    - exact Hk.
    - unfold wcrit. cbn [fst snd in_crit]. rewrite Hc. reflexivity.
    - unfold rcrit. cbn [fst snd in_crit]. rewrite Hc. reflexivity.
    - exact (l_wr _ _ _ _ I).
    - exact (l_idle _ _ _ _ I).
    - left. auto. }
  assert (Hwr : forall o m' p, writes o = true -> NoDup (map fst m') -> pc_ok A m' o p -> nth_error (ms_calls s) i = Some (o, CIn l) ->
            in_crit p = true -> linv A0 (upd s i o p m' (ms_w s) (ms_r s)) S A).
  { intros o' m' p' Hw Hk Hp Hi' Hc. eapply linv_upd; [exact I|exact Hi'|reflexivity| | | | | | |exact Hp|].
    - left. repeat split. destruct p'; try reflexivity; discriminate.
    - exact Hk.
    - unfold wcrit. cbn [fst snd in_crit]. rewrite Hc. reflexivity.
    - unfold rcrit. cbn [fst snd in_crit]. rewrite Hc. reflexivity.
    - exact (l_wr _ _ _ _ I).
    - intros Hf. rewrite (writer_locked _ _ _ _ _ _ _ I Hi' eq_refl Hw) in Hf. discriminate.
    - right. auto. }
  destruct Ha as [k v ts m|k m|k m|k m|l m Hb|l b rem m Hb Hv|l b rem v m Hb Hv|l m Hb|ks k rem acc m|ks acc m
    |ex pl c k todo fnd res rest m|ex pl c fnd res rest m]; cbn [pc_ok] in Hok.
  - destruct Hok as ([Hk Ht] & _ & Hs). apply Hwr; auto; [apply mset_nodup; exact Hkeys|]. cbn.
    apply so_put; auto. eapply updated_same; [exact Hs|apply updated_mset].
  - destruct Hok as (Hk & _ & Hs). apply Hwr; auto; [apply mdel_nodup; exact Hkeys|]. cbn.
    apply so_delete; auto. eapply updated_same; [exact Hs|apply updated_mdel].
  - destruct Hok as (Hk & _ & Hs). apply Hmap; auto. cbn. destruct (mget m k) as [e|] eqn:Em.
    + apply so_get; auto. rewrite Hs. exact Em.
    + apply so_get_err; auto. right. rewrite Hs. exact Em.
  - destruct Hok as (Hk & _ & Hs). apply Hmap; auto. cbn. destruct (mget m k) as [e|] eqn:Em.
    + apply so_tags; auto. rewrite Hs. exact Em.
    + apply so_tags_err; auto. right. rewrite Hs. exact Em.
  - destruct Hok as (l' & d & [= <-] & Hl & Hd & Hba & Hne).
    assert (d = []) as ->.
    { apply (f_equal (@List.length _)) in Hd. rewrite app_length in Hd. destruct d; [reflexivity|cbn in Hd; lia]. }
    apply Hwr; auto. cbn. apply str_in_In in Hb. apply so_batch_err; auto. inversion Hba; subst. assumption.
  - destruct Hok as (l' & d & [= <-] & Hl & Hd & Hba & Hne). apply Hwr; auto; [apply mdel_nodup; exact Hkeys|]. cbn.
    exists l, (d ++ [b])%list. rewrite <- app_assoc. repeat split; auto.
    + eapply batched_snoc; [exact Hba|]. rewrite Hv. apply updated_mdel.
    + intros _. apply str_in_nIn. exact Hb.
  - destruct Hok as (l' & d & [= <-] & Hl & Hd & Hba & Hne). apply Hwr; auto; [apply mset_nodup; exact Hkeys|]. cbn.
    exists l, (d ++ [b])%list. rewrite <- app_assoc. repeat split; auto.
    + eapply batched_snoc; [exact Hba|]. rewrite Hv. apply updated_mset.
    + intros _. apply str_in_nIn. exact Hb.
  - destruct Hok as (l' & d & [= <-] & Hl & Hd & Hba & Hne). apply Hwr; auto. cbn. rewrite app_nil_r in Hd. subst d.
    apply so_batch; auto.
  - destruct Hok as (ks' & d & [= <-] & Hc & Hd & Hs & Hacc). apply Hmap; auto. cbn.
    exists ks, (d ++ [k])%list. rewrite <- app_assoc. repeat split; auto; try apply Hc. rewrite map_app, <- Hacc. cbn. rewrite Hs. reflexivity.
  - destruct Hok as (ks' & d & [= <-] & Hc & Hd & Hs & Hacc). apply Hmap; auto. cbn. rewrite app_nil_r in Hd. subst d acc.
    destruct Hc. apply so_bulk; auto.
  - destruct Hok as (-> & -> & Hs & Hex & d & Hp & Hsc). apply Hmap; auto. cbn.
    repeat split; auto. exists (d ++ [k])%list. rewrite <- app_assoc. split; [exact Hp|]. apply scanned_snoc; [|exact Hsc].
    apply (Permutation_NoDup (Permutation_sym Hp)) in Hkeys. apply NoDup_remove_2 in Hkeys. rewrite in_app_iff in Hkeys. tauto.
  - destruct Hok as (-> & -> & Hs & (ex' & [= <- ->] & Hc & Hpc) & d & Hp & Hsc). apply Hmap; auto. cbn. rewrite app_nil_r in Hp.
    split; [reflexivity|]. split; [exact Hs|]. exists ex, c, fnd. split; [reflexivity|]. split; [exact Hc|]. split; [exact Hpc|].
    split; [reflexivity|]. exact (scanned_found A m c d fnd Hs Hp Hsc).
Qed.
Lemma linv_step A0 s S A t : linv A0 s S A -> mstep s t -> (forall i o, In (Call i o) (ms_hist t) -> single o) ->
  exists S' A', linv A0 t S' A'.
Proof.
  intros I Hst Hsing.
  destruct Hst as [o|i ex pl p Hi Hq|i o l l' Hi Hw Hwf Hr Hen|i o l l' Hi Hw Hwf Hen|i o l m p Hi Ha|i o r Hi Hw|i o r Hi Hw
    |i o res rest p Hi Hq|i o r Hi].
  - destruct (linv_call _ _ _ _ o I) as (S' & I').
    + apply (Hsing (List.length (ms_calls s))). cbn. apply in_or_app. right. left. reflexivity.
    + exists S', A. exact I'.
  - destruct (l_pc _ _ _ _ I _ _ _ Hi) as (Hsg & Hok & _). cbn in Hsg.
    assert (Herr : forall e, seq_ok (OQuery ex pl) A (RErr e) A -> p = CRet (RErr e) ->
              exists S' A', linv A0 (upd s i (OQuery ex pl) p (ms_map s) (ms_w s) (ms_r s)) S' A').
    { intros e Hs ->. exists (S ++ [(i, OQuery ex pl, RErr e)])%list, A. eapply linv_upd; [exact I|exact Hi|reflexivity| | | | | | | |].
      - right. eexists. split; [reflexivity|]. split; [reflexivity|exact Hs].
      - exact (l_keys _ _ _ _ I).
      - reflexivity.
      - reflexivity.
      - exact (l_wr _ _ _ _ I).
      - exact (l_idle _ _ _ _ I).
      - exact Logic.I.
      - left. auto. }
    inversion Hq as [ex' He1 He2 He3|He1 He2 He3|ex' p' Hne Hn He1 He2 He3]; subst.
    + eapply Herr; [|reflexivity]. apply so_query_err; auto.
    + eapply Herr; [|reflexivity]. apply so_query_err; auto.
    + rewrite split_and_free in Hn by exact Hsg. inversion Hn as [res t rest Hp|res t rest c Hp|]; subst.
      * eapply Herr; [|reflexivity]. apply so_query_err; auto. right. right. exists [ex], ex. split; [constructor; auto|].
        split; [reflexivity|]. split; [left; reflexivity|]. apply parse_conj_none. exact Hp.
      * exists S, A. eapply linv_upd; [exact I|exact Hi|reflexivity| | | | | | | |].
        -- left. auto.
        -- exact (l_keys _ _ _ _ I).
        -- reflexivity.
        -- reflexivity.
        -- exact (l_wr _ _ _ _ I).
        -- exact (l_idle _ _ _ _ I).
        -- cbn. repeat split. exists ex. auto.
        -- left. auto.
  - destruct (l_pc _ _ _ _ I _ _ _ Hi) as (Hsg & Hok & _). exists S, A.
    pose proof (l_idle _ _ _ _ I Hwf) as Hs.
    eapply linv_upd; [exact I|exact Hi|reflexivity| | | | | | | |].
    + left. auto.
    + exact (l_keys _ _ _ _ I).
    + unfold wcrit. cbn [fst snd in_crit]. rewrite Hw, Hwf. reflexivity.
    + unfold rcrit. cbn [fst snd in_crit]. rewrite Hw, Hr. reflexivity.
    + reflexivity.
    + discriminate.
    + destruct Hen as [|l|ks acc|c res rest todo Hp]; cbn in *.
      * destruct Hok. auto.
      * destruct Hok as [-> Hc]. exists l, []. repeat split; auto. apply bt_nil. exact Hs.
      * destruct Hok as [-> _]. discriminate.
      * destruct Hok as (_ & _ & _ & _ & ex & -> & _). discriminate.
    + left. auto.
  - destruct (l_pc _ _ _ _ I _ _ _ Hi) as (Hsg & Hok & _). exists S, A.
    pose proof (l_idle _ _ _ _ I Hwf) as Hs.
    eapply linv_upd; [exact I|exact Hi|reflexivity| | | | | | | |].
    + left. auto.
    + exact (l_keys _ _ _ _ I).
    + unfold wcrit. cbn [fst snd in_crit]. rewrite Hw, Hwf. reflexivity.
    + unfold rcrit. cbn [fst snd in_crit]. rewrite Hw. cbn. lia.
    + discriminate.
    + intros _. exact Hs.
    + destruct Hen as [|l|ks acc|c res rest todo Hp]; cbn in *.
      * destruct Hok. auto.
      * destruct Hok as [-> _]. discriminate.
      * destruct Hok as (-> & -> & Hc). exists ks, []. repeat split; auto; apply Hc.
      * destruct Hok as (_ & _ & -> & -> & ex & -> & Hc & Hpc). repeat split; auto; [exists ex; auto|].
        exists []. split; [exact Hp|apply scanned_nil].
    + left. auto.
  - exists S, A. eapply linv_access; eassumption.
  - destruct (l_pc _ _ _ _ I _ _ _ Hi) as (Hsg & Hok & _). cbn in Hok. rewrite Hw in Hok.
    exists (S ++ [(i, o, r)])%list, (absm (ms_map s)). eapply linv_upd; [exact I|exact Hi|reflexivity| | | | | | | |].
    + right. eexists. split; [reflexivity|]. split; [reflexivity|exact Hok].
    + exact (l_keys _ _ _ _ I).
    + unfold wcrit. cbn [fst snd in_crit]. rewrite Hw. rewrite (writer_locked _ _ _ _ _ _ _ I Hi eq_refl Hw). reflexivity.
    + unfold rcrit. cbn [fst snd in_crit]. rewrite Hw. reflexivity.
    + discriminate.
    + intros _. apply same_refl.
    + exact Logic.I.
    + right. auto.
  - destruct (l_pc _ _ _ _ I _ _ _ Hi) as (Hsg & Hok & _). cbn in Hok. rewrite Hw in Hok.
    pose proof (reader_idle _ _ _ _ _ _ _ I Hi eq_refl Hw) as Hwf.
    pose proof (total_ge rcrit _ _ _ Hi) as Hge. rewrite (l_r _ _ _ _ I) in Hge.
    assert (Hrc : rcrit (o, COut r) = 1%nat) by (unfold rcrit; cbn [fst snd in_crit]; rewrite Hw; reflexivity).
    exists (S ++ [(i, o, r)])%list, A. eapply linv_upd; [exact I|exact Hi|reflexivity| | | | | | | |].
    + right. eexists. split; [reflexivity|]. split; [reflexivity|exact Hok].
    + exact (l_keys _ _ _ _ I).
    + unfold wcrit. cbn [fst snd in_crit]. rewrite Hw. reflexivity.
    + rewrite Hrc. change (rcrit (o, CRet r)) with 0%nat. lia.
    + rewrite Hwf. discriminate.
    + exact (l_idle _ _ _ _ I).
    + exact Logic.I.
    + left. auto.
  - destruct (l_pc _ _ _ _ I _ _ _ Hi) as (Hsg & Hok & _). cbn in Hok.
    destruct Hok as (-> & Hs & ex & c & fnd & -> & Hc & Hpc & -> & Hf).
    pose proof (reader_idle _ _ _ _ _ _ _ I Hi eq_refl eq_refl) as Hwf.
    pose proof (total_ge rcrit _ _ _ Hi) as Hge. rewrite (l_r _ _ _ _ I) in Hge.
    change (rcrit (OQuery ex true, CNext [(fst c, fnd)] [])) with 1%nat in Hge.
    inversion Hq as [| |res ord q Hord Hperm]; subst.
    apply Permutation_sym, Permutation_length_1_inv in Hord. subst ord.
    exists (S ++ [(i, OQuery ex true, RIter q)])%list, A. eapply linv_upd; [exact I|exact Hi|reflexivity| | | | | | | |].
    + right. eexists. split; [reflexivity|]. split; [reflexivity|]. eapply so_query; [|eapply found_perm; [exact Hperm|apply found_common_single; exact Hf]|apply same_refl].
      apply query_text_single; [apply Hc|exact Hsg|exact Hpc].
    + exact (l_keys _ _ _ _ I).
    + reflexivity.
    + change (rcrit (OQuery ex true, CRet (RIter q))) with 0%nat. change (rcrit (OQuery ex true, CNext [(fst c, fnd)] [])) with 1%nat. lia.
    + rewrite Hwf. discriminate.
    + exact (l_idle _ _ _ _ I).
    + exact Logic.I.
    + left. auto.
  - exists S, A. apply linv_ret; assumption.
Qed.
Lemma hist_grows s t : mstep s t -> forall e, In e (ms_hist s) -> In e (ms_hist t).
Proof. intros H e He. destruct H; cbn [upd ms_hist]; auto; apply in_or_app; left; exact He. Qed.
Lemma linv_run A0 s S A t : linv A0 s S A -> mrun s t -> (forall i o, In (Call i o) (ms_hist t) -> single o) -> exists S' A', linv A0 t S' A'.
Proof.
  intros I H. induction H as [|t u H IH Hst]; intros Hs; [eauto|].
  destruct IH as (S' & A' & I'); [intros i o Hin; apply (Hs i o); eapply hist_grows; eassumption|].
  eapply linv_step; eassumption.
Qed.
Lemma ids_inj (S : list (nat * op * result)) i o r o' r' : NoDup (map ident S) -> In (i, o, r) S -> In (i, o', r') S -> o = o' /\ r = r'.
Proof.
  induction S as [|x S IH]; intros Hn Hx Hy; [destruct Hx|]. inversion Hn as [|? ? Hni Hn']; subst.
  destruct Hx as [->|Hx], Hy as [Hy|Hy].
  - injection Hy as -> ->. auto.
  - exfalso. apply Hni. cbn. change i with (ident (i, o', r')). apply in_map. exact Hy.
  - subst x. exfalso. apply Hni. change (ident (i, o', r')) with (ident (i, o, r)). apply in_map. exact Hx.
  - auto.
Qed.
Lemma linv_linearizable A0 s S A : linv A0 s S A -> linearizable A0 (ms_hist s).
Proof.
  intros I. exists S, A. split; [exact (l_legal _ _ _ _ I)|]. split; [exact (l_ids _ _ _ _ I)|]. split; [|split].
  - intros i o r Hin. split.
    + apply (l_call _ _ _ _ I). exact (l_S _ _ _ _ I _ _ _ Hin).
    + intros r' Hr. destruct (l_ret _ _ _ _ I _ _ Hr) as (o' & Ho'). destruct (ids_inj _ _ _ _ _ _ (l_ids _ _ _ _ I) Hin Ho'). congruence.
  - exact (l_ret _ _ _ _ I).
  - exact (l_order _ _ _ _ I).
Qed.
