(** Linearizability of the in-memory store: the invariant. *)
From Verif Require Import GoBase StrLemmas DiProofs RrProofs MemSpec MemModel MemProofs.
From Coq Require Import Lia Permutation.

Definition in_crit (p : pc) : bool := match p with CIn _ | COut _ | CNext _ _ => true | _ => false end.
Definition wcrit (c : op * pc) : nat := if in_crit (snd c) && writes (fst c) then 1 else 0.
Definition rcrit (c : op * pc) : nat := if in_crit (snd c) && negb (writes (fst c)) then 1 else 0.
(** the call passed its checks *)
Definition checked (o : op) : Prop :=
  match o with
  | OPut k (Some v) ts => k <> "" /\ Forall tag_fine ts
  | OPut _ None _ => False
  | OGet k | OGetTags k | ODelete k => k <> ""
  | OGetBulk ks => ks <> [] /\ ~ In "" ks
  | OBatch l => l <> []
  | OQuery ex pl => ex <> "" /\ pl = true
  end.
Definition one_access (o : op) : Prop := match o with OPut _ _ _ | OGet _ | OGetTags _ | ODelete _ => True | _ => False end.
Definition single (o : op) : Prop := match o with OQuery ex _ => free_of "&" ex | _ => True end.
(** [fnd] are the entries of [m] under the keys [d] that match *)
Definition scanned (m : gomap entry) (c : conj) (d : list string) (fnd : list (string * entry)) : Prop :=
  NoDup (map fst fnd) /\ forall k e, In (k, e) fnd <-> In k d /\ mget m k = Some e /\ entry_matches c e = true.
Definition pc_ok (A : db) (m : gomap entry) (o : op) (p : pc) : Prop :=
  match p with
  | CStart => exists ex pl, o = OQuery ex pl
  | CWait LOne => checked o /\ one_access o
  | CWait (LBatch l) => o = OBatch l /\ checked o
  | CWait (LBulk ks acc) => o = OGetBulk ks /\ acc = [] /\ checked o
  | CWait (LQuery c todo fnd res rest) =>
      todo = [] /\ fnd = [] /\ res = [] /\ rest = [] /\ exists ex, o = OQuery ex true /\ checked o /\ parse_conj ex = Some c
  | CIn LOne => checked o /\ one_access o /\ same A (absm m)
  | CIn (LBatch rem) => exists l d, o = OBatch l /\ checked o /\ l = (d ++ rem)%list /\ batched A d (absm m)
                         /\ (d <> [] -> ~ In "" (map b_key l))
  | CIn (LBulk rem acc) => exists ks d, o = OGetBulk ks /\ checked o /\ ks = (d ++ rem)%list /\ same A (absm m)
                         /\ acc = map (fun k => option_map e_value (A k)) d
  | CIn (LQuery c todo fnd res rest) =>
      res = [] /\ rest = [] /\ same A (absm m) /\ (exists ex, o = OQuery ex true /\ checked o /\ parse_conj ex = Some c)
      /\ exists d, Permutation (d ++ todo) (map fst m) /\ scanned m c d fnd
  | COut r => seq_ok o A r (if writes o then absm m else A)
  | CNext res rest => rest = [] /\ same A (absm m) /\ exists ex c fnd, o = OQuery ex true /\ checked o /\ parse_conj ex = Some c
      /\ res = [(fst c, fnd)] /\ found A [c] fnd
  | CRet _ | CDone => True
  end.
Definition finished (p : pc) : bool := match p with CRet _ | CDone => true | _ => false end.
Definition logged (S : list (nat * op * result)) (h : list event) (i : nat) (o : op) (p : pc) : Prop :=
  match p with
  | CRet r => In (i, o, r) S /\ forall r', ~ In (Ret i r') h
  | CDone => exists r, In (i, o, r) S /\ In (Ret i r) h
  | _ => ~ In i (map ident S) /\ forall r', ~ In (Ret i r') h
  end.
Record linv (A0 : db) (s : mstate) (S : list (nat * op * result)) (A : db) : Prop := {
  l_legal : legal A0 S A;
  l_ids : NoDup (map ident S);
  l_keys : NoDup (map fst (ms_map s));
  l_w : total wcrit (ms_calls s) = (if ms_w s then 1 else 0)%nat;
  l_r : total rcrit (ms_calls s) = ms_r s;
  l_wr : ms_w s = true -> ms_r s = 0%nat;
  l_idle : ms_w s = false -> same A (absm (ms_map s));
  l_pc : forall i o p, nth_error (ms_calls s) i = Some (o, p) -> single o /\ pc_ok A (ms_map s) o p /\ logged S (ms_hist s) i o p;
  l_S : forall i o r, In (i, o, r) S -> exists p, nth_error (ms_calls s) i = Some (o, p);
  l_call : forall i o, In (Call i o) (ms_hist s) <-> exists p, nth_error (ms_calls s) i = Some (o, p);
  l_ret : forall i r, In (Ret i r) (ms_hist s) -> exists o, In (i, o, r) S;
  l_order : forall i r j o, before (ms_hist s) (Ret i r) (Call j o) -> In j (map ident S) -> before (map ident S) i j
}.

(** *** Order *)
Lemma before_app {A} (l m : list A) x y : before l x y -> before (l ++ m)%list x y.
Proof. intros (a & b & c & ->). exists a, b, (c ++ m)%list. rewrite <- !app_assoc. cbn. rewrite <- app_assoc. reflexivity. Qed.
Lemma before_last {A} (l : list A) x y : In x l -> before (l ++ [y])%list x y.
Proof. intros H. apply in_split in H as (a & b & ->). exists a, b, []. rewrite <- app_assoc. reflexivity. Qed.
Lemma before_snoc {A} (l : list A) x y z : before (l ++ [z])%list x y -> before l x y \/ (y = z /\ In x l).
Proof.
  intros (a & b & c & H). destruct (exists_last (l := y :: c)) as (c' & z' & Hc); [discriminate|].
  assert (Hl : (l ++ [z])%list = (((a ++ x :: b) ++ c') ++ [z'])%list).
  { rewrite H. rewrite <- !app_assoc. cbn. rewrite Hc. rewrite app_assoc. reflexivity. }
  apply app_inj_tail in Hl as [-> ->]. destruct c' as [|y' c'].
  - cbn in Hc. injection Hc as -> _. right. split; [reflexivity|]. rewrite app_nil_r. apply in_or_app. right. left. reflexivity.
  - cbn in Hc. injection Hc as -> _. left. exists a, b, c'. rewrite <- app_assoc. reflexivity.
Qed.
Lemma before_in {A} (l : list A) x y : before l x y -> In x l.
Proof. intros (a & b & c & ->). apply in_or_app. right. left. reflexivity. Qed.
Lemma legal_snoc A S B i o r C : legal A S B -> seq_ok o B r C -> legal A (S ++ [(i, o, r)])%list C.
Proof.
  intros H Hs. induction H as [A B Hsame|A i' o' r' B S D Ho H IH].
  - cbn. eapply lg_cons; [|apply lg_nil; apply same_refl].
    clear - Hsame Hs.
    assert (Hupd : forall k e X Y, updated B k e X -> same X Y -> updated A k e Y).
    { intros k e X Y HX HY x. rewrite <- HY, HX, Hsame. reflexivity. }
    destruct Hs as [k v ts B C Hk Ht Hu|k v ts B C e Hk Hc|k B C x Hk Hx Hc|k B C e Hk Hc|k B C x Hk Hx Hc|k B C e Hk Hc
      |ks B C Hk Hx Hc|ks B C e Hk Hc|k B C Hk Hu|B C e Hc|l B C Hl Hk Hb|l B C e Hl Hc|ex cs B C l Hq Hf Hc|ex pl B C e He Hc].
    + apply so_put; auto. eapply Hupd; [eassumption|apply same_refl].
    + apply so_put_err; [assumption|eapply same_trans; eassumption].
    + rewrite <- Hsame in Hx. apply so_get; auto. eapply same_trans; eassumption.
    + apply so_get_err; [rewrite Hsame; assumption|eapply same_trans; eassumption].
    + rewrite <- Hsame in Hx. apply so_tags; auto. eapply same_trans; eassumption.
    + apply so_tags_err; [rewrite Hsame; assumption|eapply same_trans; eassumption].
    + replace (map (fun k => option_map e_value (B k)) ks) with (map (fun k => option_map e_value (A k)) ks)
        by (apply map_ext; intros k; rewrite Hsame; reflexivity).
      apply so_bulk; auto. eapply same_trans; eassumption.
    + apply so_bulk_err; [assumption|eapply same_trans; eassumption].
    + apply so_delete; auto. eapply Hupd; [eassumption|apply same_refl].
    + apply so_delete_err. eapply same_trans; eassumption.
    + apply so_batch; auto. destruct Hb as [X Y HXY|X b Y l Z HX HY].
      * apply bt_nil. eapply same_trans; eassumption.
      * eapply bt_cons; [|eassumption]. intros x. rewrite HX, Hsame. reflexivity.
    + apply so_batch_err; [assumption|eapply same_trans; eassumption].
    + eapply so_query; [eassumption| |eapply same_trans; eassumption]. destruct Hf as [Hn Hf]. split; [exact Hn|].
      intros k e. rewrite Hf, Hsame. tauto.
    + apply so_query_err; [assumption|eapply same_trans; eassumption].
  - cbn. eapply lg_cons; [exact Ho|apply IH; exact Hs].
Qed.

(** *** Locks *)
Lemma total_ge {X} (w : X -> nat) l i x : nth_error l i = Some x -> (w x <= total w l)%nat.
Proof. intros H. pose proof (set_nth_total w l i x x H). revert i H H0. induction l as [|y l IH]; intros i H _; [destruct i; discriminate|].
  destruct i as [|i]; cbn in H; unfold total in *; cbn [fold_right].
  - injection H as ->. lia.
  - specialize (IH i H (set_nth_total w l i x x H)). lia.
Qed.
Lemma total_two {X} (w : X -> nat) l i j x y : nth_error l i = Some x -> nth_error l j = Some y -> i <> j -> (w x + w y <= total w l)%nat.
Proof.
  revert i j. induction l as [|z l IH]; intros i j Hi Hj Hij; [destruct i; discriminate|].
  destruct i as [|i]; destruct j as [|j]; cbn in Hi, Hj; try contradiction; unfold total; cbn [fold_right];
    change (fold_right (fun x n => (w x + n)%nat) 0%nat l) with (total w l).
  - injection Hi as ->. pose proof (total_ge w l j y Hj). lia.
  - injection Hj as ->. pose proof (total_ge w l i x Hi). lia.
  - specialize (IH i j Hi Hj ltac:(congruence)). lia.
Qed.
Lemma total_app {X} (w : X -> nat) l m : total w (l ++ m)%list = (total w l + total w m)%nat.
Proof. unfold total. induction l as [|x l IH]; [reflexivity|]. cbn [app fold_right]. rewrite IH. lia. Qed.
Lemma crit_count c : (wcrit c + rcrit c = if in_crit (snd c) then 1 else 0)%nat.
Proof. unfold wcrit, rcrit. destruct (in_crit (snd c)), (writes (fst c)); reflexivity. Qed.
(** while a writer is inside, nobody else is *)
Lemma writer_alone A0 s S A i o p j o' p' : linv A0 s S A -> nth_error (ms_calls s) i = Some (o, p) -> in_crit p = true -> writes o = true ->
  nth_error (ms_calls s) j = Some (o', p') -> i <> j -> in_crit p' = false.
Proof.
  intros I Hi Hp Ho Hj Hij. pose proof (total_two wcrit _ _ _ _ _ Hi Hj Hij) as Ht. rewrite (l_w _ _ _ _ I) in Ht.
  assert (Hw : wcrit (o, p) = 1%nat) by (unfold wcrit; cbn; rewrite Hp, Ho; reflexivity). rewrite Hw in Ht.
  assert (Hs : ms_w s = true) by (destruct (ms_w s); [reflexivity|lia]). rewrite Hs in Ht.
  pose proof (total_ge rcrit _ _ _ Hj) as Hr. rewrite (l_r _ _ _ _ I), (l_wr _ _ _ _ I Hs) in Hr.
  pose proof (crit_count (o', p')) as Hc. cbn in Hc. destruct (in_crit p'); [lia|reflexivity].
Qed.
Lemma reader_idle A0 s S A i o p : linv A0 s S A -> nth_error (ms_calls s) i = Some (o, p) -> in_crit p = true -> writes o = false -> ms_w s = false.
Proof.
  intros I Hi Hp Ho. pose proof (total_ge rcrit _ _ _ Hi) as Hr. rewrite (l_r _ _ _ _ I) in Hr.
  assert (Hw : rcrit (o, p) = 1%nat) by (unfold rcrit; cbn; rewrite Hp, Ho; reflexivity). rewrite Hw in Hr.
  destruct (ms_w s) eqn:E; [|reflexivity]. rewrite (l_wr _ _ _ _ I E) in Hr. lia.
Qed.
Lemma writer_locked A0 s S A i o p : linv A0 s S A -> nth_error (ms_calls s) i = Some (o, p) -> in_crit p = true -> writes o = true -> ms_w s = true.
Proof.
  intros I Hi Hp Ho. pose proof (total_ge wcrit _ _ _ Hi) as Hr. rewrite (l_w _ _ _ _ I) in Hr.
  assert (Hw : wcrit (o, p) = 1%nat) by (unfold wcrit; cbn; rewrite Hp, Ho; reflexivity). rewrite Hw in Hr.
  destruct (ms_w s); [reflexivity|lia].
Qed.
Lemma pc_ok_outside A m A' m' o p : in_crit p = false -> pc_ok A m o p -> pc_ok A' m' o p.
Proof. destruct p as [|l|l|r|res rest|r|]; cbn; try discriminate; auto. Qed.

(** *** One call moves *)
Lemma linv_upd (A0 : db) s (S : list (nat * op * result)) (A : db) i (o : op) (p p' : pc) (m' : gomap entry) (w' : bool) (r' : nat) (S' : list (nat * op * result)) (A' : db) :
  linv A0 s S A -> nth_error (ms_calls s) i = Some (o, p) -> finished p = false ->
  ((S' = S /\ A' = A /\ finished p' = false) \/ (exists r, S' = (S ++ [(i, o, r)])%list /\ p' = CRet r /\ seq_ok o A r A')) ->
  NoDup (map fst m') ->
  (wcrit (o, p') + (if ms_w s then 1 else 0) = wcrit (o, p) + (if w' then 1 else 0))%nat ->
  (rcrit (o, p') + ms_r s = rcrit (o, p) + r')%nat ->
  (w' = true -> r' = 0%nat) -> (w' = false -> same A' (absm m')) ->
  pc_ok A' m' o p' ->
  ((A' = A /\ m' = ms_map s) \/ (in_crit p = true /\ writes o = true)) ->
  linv A0 (upd s i o p' m' w' r') S' A'.
Proof.
  intros I Hi Hp HS Hm Hw Hr Hwr Hidle Hok Hothers.
  destruct (l_pc _ _ _ _ I _ _ _ Hi) as (Hsingle & _ & Hlog).
  assert (Hni : ~ In i (map ident S) /\ forall r, ~ In (Ret i r) (ms_hist s)) by (destruct p; try exact Hlog; discriminate).
  destruct Hni as [Hni Hnr].
  assert (HinS : forall x, In x S -> In x S').
  { destruct HS as [[-> _]|(r & -> & _)]; [auto|]. intros x Hx. apply in_or_app. left. exact Hx. }
  split; cbn [upd ms_map ms_w ms_r ms_calls ms_hist].
  - destruct HS as [(-> & -> & _)|(r & -> & _ & Hs)]; [exact (l_legal _ _ _ _ I)|].
    eapply legal_snoc; [exact (l_legal _ _ _ _ I)|exact Hs].
  - destruct HS as [(-> & _)|(r & -> & _)]; [exact (l_ids _ _ _ _ I)|]. rewrite map_app. cbn [map ident fst].
    apply (Permutation_NoDup (Permutation_cons_append _ _)). constructor; [exact Hni|exact (l_ids _ _ _ _ I)].
  - exact Hm.
  - pose proof (set_nth_total wcrit _ _ (o, p') _ Hi). rewrite (l_w _ _ _ _ I) in H. lia.
  - pose proof (set_nth_total rcrit _ _ (o, p') _ Hi). rewrite (l_r _ _ _ _ I) in H. lia.
  - exact Hwr.
  - exact Hidle.
  - intros j o' q Hj. destruct (Nat.eq_dec i j) as [<-|Hij].
    + rewrite (set_nth_same _ _ _ _ Hi) in Hj. injection Hj as <- <-. split; [exact Hsingle|]. split; [exact Hok|].
      destruct HS as [(-> & _ & Hf)|(r & -> & -> & _)].
      * destruct p'; try discriminate; split; assumption.
      * cbn. split; [|exact Hnr]. apply in_or_app. right. left. reflexivity.
    + rewrite (set_nth_other _ _ _ _ _ Hi Hij) in Hj. destruct (l_pc _ _ _ _ I _ _ _ Hj) as (Hs & Hq & Hl). split; [exact Hs|]. split.
      * destruct Hothers as [[-> ->]|[Hc Hwo]]; [exact Hq|].
        eapply pc_ok_outside; [|exact Hq]. exact (writer_alone A0 s S A i o p j o' q I Hi Hc Hwo Hj Hij).
      * assert (Hnin : ~ In j (map ident S) -> ~ In j (map ident S')).
        { destruct HS as [(-> & _)|(r & -> & _)]; [auto|]. rewrite map_app, in_app_iff. cbn. intros H [H'|[H'|[]]]; [contradiction|congruence]. }
        destruct q; cbn [logged] in *; try (destruct Hl as [Hl1 Hl2]; split; [apply Hnin|]; assumption).
        -- destruct Hl as [Hl1 Hl2]. split; [apply HinS|]; assumption.
        -- destruct Hl as (r0 & Hl1 & Hl2). exists r0. split; [apply HinS|]; assumption.
  - intros j o' r0 Hin.
    assert (Hcase : In (j, o', r0) S \/ (j = i /\ o' = o)).
    { destruct HS as [(-> & _)|(r & -> & _)]; [left; exact Hin|]. apply in_app_or in Hin as [Hin|[[= <- <- _]|[]]]; auto. }
    destruct Hcase as [Hin'|[-> ->]].
    + destruct (l_S _ _ _ _ I _ _ _ Hin') as (q & Hq). destruct (Nat.eq_dec i j) as [<-|Hij].
      * exists p'. rewrite Hi in Hq. injection Hq as <- _. apply (set_nth_same _ _ _ _ Hi).
      * exists q. rewrite (set_nth_other _ _ _ _ _ Hi Hij). exact Hq.
    + exists p'. apply (set_nth_same _ _ _ _ Hi).
  - intros j o'. rewrite (l_call _ _ _ _ I). destruct (Nat.eq_dec i j) as [<-|Hij].
    + rewrite (set_nth_same _ _ _ _ Hi), Hi. split; intros (q & Hq); injection Hq as <- _; eauto.
    + rewrite (set_nth_other _ _ _ _ _ Hi Hij). reflexivity.
  - intros j r0 Hin. destruct (l_ret _ _ _ _ I _ _ Hin) as (o' & Ho'). exists o'. auto.
  - intros j r0 k o' Hb Hk. destruct HS as [(-> & _)|(r & -> & _)]; [eapply (l_order _ _ _ _ I); eassumption|].
    rewrite map_app in *. cbn [map ident fst] in *. apply in_app_or in Hk as [Hk|[<-|[]]].
    + apply before_app. eapply (l_order _ _ _ _ I); eassumption.
    + apply before_last. apply before_in in Hb. destruct (l_ret _ _ _ _ I _ _ Hb) as (o2 & Ho2).
      change j with (ident (j, o2, r0)). apply in_map. exact Ho2.
Qed.

Lemma linv_start m : NoDup (map fst m) -> linv (absm m) (fresh m) [] (absm m).
Proof.
  intros Hm. split; cbn; auto.
  - apply lg_nil. apply same_refl.
  - constructor.
  - intros i o p H. destruct i; discriminate.
  - intros i o r [].
  - intros i o. split; [intros []|intros (p & Hp); destruct i; discriminate].
  - intros i r [].
  - intros i r j o (a & b & c & H). destruct a; discriminate.
Qed.
Lemma start_pc_cases o : (exists r, start_pc o = CRet (RErr r) /\ forall A, seq_ok o A (RErr r) A) \/
  (finished (start_pc o) = false /\ in_crit (start_pc o) = false /\ forall A m, pc_ok A m o (start_pc o)).
Proof.
  destruct o as [k v ts|k|k|ks|k|l|ex pl]; cbn [start_pc].
  - destruct (String.eqb_spec k "") as [->|Hk]; [left; eexists; split; [reflexivity|intros A; apply so_put_err; auto]|].
    destruct v as [v|]; [|left; eexists; split; [reflexivity|intros A; apply so_put_err; auto]].
    destruct (existsb tag_bad ts) eqn:E.
    + left. eexists. split; [reflexivity|]. intros A. apply so_put_err; auto. right. right. apply tag_bad_true. exact E.
    + right. apply tag_bad_spec in E. repeat split; assumption.
  - destruct (String.eqb_spec k "") as [->|Hk]; [left; eexists; split; [reflexivity|intros A; apply so_get_err; auto]|].
    right. repeat split; assumption.
  - destruct (String.eqb_spec k "") as [->|Hk]; [left; eexists; split; [reflexivity|intros A; apply so_tags_err; auto]|].
    right. repeat split; assumption.
  - destruct ks as [|k ks]; [left; eexists; split; [reflexivity|intros A; apply so_bulk_err; auto]|].
    destruct (str_in "" (k :: ks)) eqn:E.
    + left. eexists. split; [reflexivity|]. intros A. apply so_bulk_err; auto. right. apply str_in_In. exact E.
    + right. repeat split; [discriminate|]. apply str_in_nIn. exact E.
  - destruct (String.eqb_spec k "") as [->|Hk]; [left; eexists; split; [reflexivity|intros A; apply so_delete_err; auto]|].
    right. repeat split; assumption.
  - destruct l as [|b l]; [left; eexists; split; [reflexivity|intros A; apply so_batch_err; auto]|].
    right. repeat split; discriminate.
  - right. repeat split. intros A m. cbn. eauto.
Qed.
Lemma linv_call A0 s S A o : linv A0 s S A -> single o ->
  exists S', linv A0 {| ms_map := ms_map s; ms_w := ms_w s; ms_r := ms_r s; ms_calls := (ms_calls s ++ [(o, start_pc o)])%list;
                        ms_hist := (ms_hist s ++ [Call (List.length (ms_calls s)) o])%list |} S' A.
Proof.
  intros I Hsing. set (n := List.length (ms_calls s)).
  assert (Hn : nth_error (ms_calls s) n = None) by (apply nth_error_None; reflexivity).
  assert (HnS : ~ In n (map ident S)).
  { intros H. apply in_map_iff in H as ([[i o'] r] & Hi & Hin). cbn in Hi. subst i.
    destruct (l_S _ _ _ _ I _ _ _ Hin) as (p & Hp). congruence. }
  assert (Hnr : forall r, ~ In (Ret n r) (ms_hist s)).
  { intros r H. destruct (l_ret _ _ _ _ I _ _ H) as (o' & Ho'). apply HnS. change n with (ident (n, o', r)). apply in_map. exact Ho'. }
  assert (Hcrit : in_crit (start_pc o) = false).
  { destruct (start_pc_cases o) as [(r & -> & _)|(_ & H & _)]; [reflexivity|exact H]. }
  set (S' := match start_pc o with CRet r => (S ++ [(n, o, r)])%list | _ => S end).
  assert (HS : (S' = S /\ finished (start_pc o) = false) \/ (exists r, S' = (S ++ [(n, o, r)])%list /\ start_pc o = CRet r /\ seq_ok o A r A)).
  { unfold S'. destruct (start_pc_cases o) as [(r & -> & Hs)|(Hf & _ & _)].
    - right. eexists. split; [reflexivity|]. split; [reflexivity|apply Hs].
    - left. split; [|exact Hf]. destruct (start_pc o); try reflexivity; discriminate. }
  clearbody S'. exists S'.
  assert (HinS : forall x, In x S -> In x S').
  { destruct HS as [[-> _]|(r & -> & _)]; [auto|]. intros x Hx. apply in_or_app. left. exact Hx. }
  assert (Hret : forall i r, In (Ret i r) (ms_hist s ++ [Call n o])%list <-> In (Ret i r) (ms_hist s)).
  { intros i r. rewrite in_app_iff. cbn. split; [intros [H|[H|[]]]; [exact H|discriminate]|auto]. }
  assert (Hnth : forall i o' p, nth_error (ms_calls s ++ [(o, start_pc o)])%list i = Some (o', p) <->
            nth_error (ms_calls s) i = Some (o', p) \/ (i = n /\ o' = o /\ p = start_pc o)).
  { intros i o' p. destruct (lt_eq_lt_dec i n) as [[Hlt| ->]|Hgt].
    - rewrite nth_error_app1 by exact Hlt. split; [auto|]. intros [H|(-> & _)]; [exact H|lia].
    - rewrite nth_error_app2 by (unfold n; lia). unfold n at 1 2. rewrite Nat.sub_diag. cbn. split.
      + intros [= <- <-]. auto.
      + intros [H|(_ & -> & ->)]; [exfalso; change (nth_error (ms_calls s) n = Some (o', p)) in H; rewrite Hn in H; discriminate H|reflexivity].
    - rewrite nth_error_app2 by (unfold n in *; lia). split.
      + intros H. exfalso. destruct (i - List.length (ms_calls s))%nat as [|k] eqn:E; [unfold n in *; lia|]. cbn in H. destruct k; discriminate.
      + intros [H|(-> & _)]; [|lia]. assert (i < n)%nat by (apply nth_error_Some; congruence). lia. }
  split; cbn [ms_map ms_w ms_r ms_calls ms_hist].
  - destruct HS as [(-> & _)|(r & -> & _ & Hs)]; [exact (l_legal _ _ _ _ I)|].
    eapply legal_snoc; [exact (l_legal _ _ _ _ I)|exact Hs].
  - destruct HS as [(-> & _)|(r & -> & _)]; [exact (l_ids _ _ _ _ I)|]. rewrite map_app. cbn [map ident fst].
    apply (Permutation_NoDup (Permutation_cons_append _ _)). constructor; [exact HnS|exact (l_ids _ _ _ _ I)].
  - exact (l_keys _ _ _ _ I).
  - rewrite total_app, (l_w _ _ _ _ I). unfold total. cbn [fold_right]. unfold wcrit. cbn [fst snd]. rewrite Hcrit. cbn. lia.
  - rewrite total_app, (l_r _ _ _ _ I). unfold total. cbn [fold_right]. unfold rcrit. cbn [fst snd]. rewrite Hcrit. cbn. lia.
  - exact (l_wr _ _ _ _ I).
  - exact (l_idle _ _ _ _ I).
  - intros i o' p Hi. apply Hnth in Hi as [Hi|(-> & -> & ->)].
    + destruct (l_pc _ _ _ _ I _ _ _ Hi) as (Hs & Hq & Hl). split; [exact Hs|]. split; [exact Hq|].
      assert (Hin : i <> n) by (intros ->; congruence).
      assert (Hnin : ~ In i (map ident S) -> ~ In i (map ident S')).
      { destruct HS as [(-> & _)|(r & -> & _)]; [auto|]. rewrite map_app, in_app_iff. cbn. intros H [H'|[H'|[]]]; [contradiction|congruence]. }
      assert (Hnr' : (forall r', ~ In (Ret i r') (ms_hist s)) -> forall r', ~ In (Ret i r') (ms_hist s ++ [Call n o])%list).
      { intros H r' Hr. apply Hret in Hr. exact (H _ Hr). }
      destruct p; cbn [logged] in *; try (destruct Hl as [Hl1 Hl2]; split; [apply Hnin|apply Hnr']; assumption).
      * destruct Hl as [Hl1 Hl2]. split; [apply HinS|apply Hnr']; assumption.
      * destruct Hl as (r0 & Hl1 & Hl2). exists r0. split; [apply HinS; assumption|apply Hret; assumption].
    + split; [exact Hsing|].
      assert (Hnr' : forall r', ~ In (Ret n r') (ms_hist s ++ [Call n o])%list).
      { intros r' Hr. apply Hret in Hr. exact (Hnr _ Hr). }
      destruct HS as [(-> & Hf)|(r & -> & Hp & _)].
      * destruct (start_pc_cases o) as [(r & Hp & _)|(_ & _ & Hok)]; [rewrite Hp in Hf; discriminate|].
        split; [apply Hok|]. destruct (start_pc o); try discriminate; split; assumption.
      * rewrite Hp. split; [exact Logic.I|]. split; [|exact Hnr']. apply in_or_app. right. left. reflexivity.
  - intros i o' r0 Hin.
    assert (Hcase : In (i, o', r0) S \/ (i = n /\ o' = o)).
    { destruct HS as [(-> & _)|(r & -> & _)]; [left; exact Hin|]. apply in_app_or in Hin as [Hin|[[= <- <- _]|[]]]; auto. }
    destruct Hcase as [Hin'|[-> ->]].
    + destruct (l_S _ _ _ _ I _ _ _ Hin') as (q & Hq). exists q. apply Hnth. left. exact Hq.
    + exists (start_pc o). apply Hnth. right. auto.
  - intros i o'. rewrite in_app_iff. rewrite (l_call _ _ _ _ I). cbn. split.
    + intros [(p & Hp)|[[= <- <-]|[]]]; [exists p; apply Hnth; left; exact Hp|exists (start_pc o); apply Hnth; right; auto].
    + intros (p & Hp). apply Hnth in Hp as [Hp|(-> & -> & ->)]; [left; eauto|right; left; reflexivity].
  - intros i r0 Hin. apply Hret in Hin. destruct (l_ret _ _ _ _ I _ _ Hin) as (o' & Ho'). exists o'. auto.
  - intros i r0 j o' Hb Hj. apply before_snoc in Hb as [Hb|[[= -> ->] Hin]].
    + assert (Hjn : j <> n).
      { intros ->. destruct Hb as (a & b & c & Hh).
        assert (Hin : In (Call n o') (ms_hist s)) by (rewrite Hh; apply in_or_app; right; right; apply in_or_app; right; left; reflexivity).
        apply (l_call _ _ _ _ I) in Hin as (p & Hp). congruence. }
      destruct HS as [(-> & _)|(r & -> & _)]; [eapply (l_order _ _ _ _ I); eassumption|].
      rewrite map_app in *. cbn [map ident fst] in *. apply in_app_or in Hj as [Hj|[Hj|[]]]; [|congruence].
      apply before_app. eapply (l_order _ _ _ _ I); eassumption.
    + destruct HS as [(-> & _)|(r & -> & _)]; [contradiction|]. rewrite map_app. cbn [map ident fst]. apply before_last.
      destruct (l_ret _ _ _ _ I _ _ Hin) as (o2 & Ho2). change i with (ident (i, o2, r0)). apply in_map. exact Ho2.
Qed.
Lemma linv_ret A0 s S A i o r : linv A0 s S A -> nth_error (ms_calls s) i = Some (o, CRet r) ->
  linv A0 {| ms_map := ms_map s; ms_w := ms_w s; ms_r := ms_r s;
             ms_calls := (firstn i (ms_calls s) ++ (o, CDone) :: skipn (Datatypes.S i) (ms_calls s))%list;
             ms_hist := (ms_hist s ++ [Ret i r])%list |} S A.
Proof.
  intros I Hi. destruct (l_pc _ _ _ _ I _ _ _ Hi) as (Hsing & _ & HinS & Hnr). cbn in HinS, Hnr.
  split; cbn [ms_map ms_w ms_r ms_calls ms_hist].
  - exact (l_legal _ _ _ _ I).
  - exact (l_ids _ _ _ _ I).
  - exact (l_keys _ _ _ _ I).
  - pose proof (set_nth_total wcrit _ _ (o, CDone) _ Hi). rewrite (l_w _ _ _ _ I) in H. change (wcrit (o, CRet r)) with 0%nat in H. change (wcrit (o, CDone)) with 0%nat in H. lia.
  - pose proof (set_nth_total rcrit _ _ (o, CDone) _ Hi). rewrite (l_r _ _ _ _ I) in H. change (rcrit (o, CRet r)) with 0%nat in H. change (rcrit (o, CDone)) with 0%nat in H. lia.
  - exact (l_wr _ _ _ _ I).
  - exact (l_idle _ _ _ _ I).
  - intros j o' p Hj. destruct (Nat.eq_dec i j) as [<-|Hij].
    + rewrite (set_nth_same _ _ _ _ Hi) in Hj. injection Hj as <- <-. split; [exact Hsing|]. split; [exact Logic.I|].
      exists r. split; [exact HinS|]. apply in_or_app. right. left. reflexivity.
    + rewrite (set_nth_other _ _ _ _ _ Hi Hij) in Hj. destruct (l_pc _ _ _ _ I _ _ _ Hj) as (Hs & Hq & Hl).
      split; [exact Hs|]. split; [exact Hq|].
      assert (Hnr' : (forall r', ~ In (Ret j r') (ms_hist s)) -> forall r', ~ In (Ret j r') (ms_hist s ++ [Ret i r])%list).
      { intros H r' Hr. apply in_app_or in Hr as [Hr|[[= Hr _]|[]]]; [exact (H _ Hr)|contradiction]. }
      destruct p; cbn [logged] in *; try (destruct Hl as [Hl1 Hl2]; split; [|apply Hnr']; assumption).
      destruct Hl as (r0 & Hl1 & Hl2). exists r0. split; [assumption|]. apply in_or_app. left. exact Hl2.
  - intros j o' r0 Hin. destruct (l_S _ _ _ _ I _ _ _ Hin) as (q & Hq). destruct (Nat.eq_dec i j) as [<-|Hij].
    + exists CDone. rewrite Hi in Hq. injection Hq as <- _. apply (set_nth_same _ _ _ _ Hi).
    + exists q. rewrite (set_nth_other _ _ _ _ _ Hi Hij). exact Hq.
  - intros j o'. rewrite in_app_iff. rewrite (l_call _ _ _ _ I).
    assert (Hx : (exists p, nth_error (firstn i (ms_calls s) ++ (o, CDone) :: skipn (Datatypes.S i) (ms_calls s))%list j = Some (o', p))
                 <-> exists p, nth_error (ms_calls s) j = Some (o', p)).
    { destruct (Nat.eq_dec i j) as [<-|Hij].
      - rewrite (set_nth_same _ _ _ _ Hi), Hi. split; intros (q & Hq); injection Hq as <- _; eauto.
      - rewrite (set_nth_other _ _ _ _ _ Hi Hij). reflexivity. }
    rewrite Hx. cbn. split; [intros [H|[H|[]]]; [exact H|discriminate]|auto].
  - intros j r0 Hin. apply in_app_or in Hin as [Hin|[[= <- <-]|[]]]; [exact (l_ret _ _ _ _ I _ _ Hin)|]. exists o. exact HinS.
  - intros j r0 k o' Hb Hk. apply before_snoc in Hb as [Hb|[[=] _]]. eapply (l_order _ _ _ _ I); eassumption.
Qed.
