From Coq Require Import ZifyN.
From Verif Require Import GoBase ReqSpec ReqModel.

(** ** Induction on nested requirements. *)
Section RInd.
  Variable P : rlogic -> Prop.
  Hypothesis H : forall ids nested c mn mx, Forall P nested -> P (RL ids nested c mn mx).
  Fixpoint rlogic_ind' (r : rlogic) : P r :=
    match r with RL ids nested c mn mx =>
      H ids nested c mn mx ((fix go l : Forall P l := match l with
        [] => Forall_nil _ | x :: xs => Forall_cons x (rlogic_ind' x) (go xs) end) nested) end.
End RInd.
Section SInd.
  Variable P : sreq -> Prop.
  Hypothesis H : forall a c mn mx from nested, Forall P nested -> P (SR a c mn mx from nested).
  Fixpoint sreq_ind' (r : sreq) : P r :=
    match r with SR a c mn mx from nested =>
      H a c mn mx from nested ((fix go l : Forall P l := match l with
        [] => Forall_nil _ | x :: xs => Forall_cons x (sreq_ind' x) (go xs) end) nested) end.
End SInd.

(** ** C08 *)
Lemma is_len_applicable_iff c mn mx n : is_len_applicable c mn mx n = true <-> window c mn mx n.
Proof.
  unfold is_len_applicable, window.
  destruct ((0 <? c) && negb (n =? c))%bool eqn:E1;
  destruct ((0 <? mn) && (n <? mn))%bool eqn:E2;
  destruct ((0 <? mx) && (mx <? n))%bool eqn:E3; split; intros H; try discriminate; try reflexivity; lia.
Qed.
Lemma is_len_applicable_windowb c mn mx n : is_len_applicable c mn mx n = windowb c mn mx n.
Proof.
  unfold is_len_applicable, windowb.
  destruct (0 <? c) eqn:E1, (0 <? mn) eqn:E2, (0 <? mx) eqn:E3; cbn;
  destruct (n =? c) eqn:E4; cbn; try reflexivity;
  destruct (n <? mn) eqn:E5, (mn <=? n) eqn:E6; cbn; try reflexivity; try lia;
  destruct (mx <? n) eqn:E7, (n <=? mx) eqn:E8; cbn; try reflexivity; lia.
Qed.

Lemma distinct_count_nodup (S : list string) ids :
  distinct_count (fun x => In x S) ids (List.length (nodup string_dec (filter (set_has S) ids))).
Proof.
  exists (nodup string_dec (filter (set_has S) ids)). split; [apply NoDup_nodup|]. split; [|reflexivity].
  intros x. rewrite nodup_In, filter_In. unfold set_has. now rewrite str_in_In.
Qed.
Lemma distinct_count_unique {A} (P : A -> Prop) l n m : distinct_count P l n -> distinct_count P l m -> n = m.
Proof.
  intros (a & Na & Ha & <-) (b & Nb & Hb & <-). apply Nat.le_antisymm; apply NoDup_incl_length; auto.
  - intros x Hx. apply Hb. now apply Ha.
  - intros x Hx. apply Ha. now apply Hb.
Qed.

Scheme verdict_ind2 := Induction for verdict Sort Prop with verdicts_ind2 := Induction for verdicts Sort Prop.

Lemma filter_length_cons {A} (f : A -> bool) x l :
  List.length (filter f (x :: l)) = ((if f x then 1 else 0) + List.length (filter f l))%nat.
Proof. cbn. destruct (f x); reflexivity. Qed.

Lemma is_satisfied_verdict (S : list string) r : verdict (fun x => In x S) r (is_satisfied_by r S).
Proof.
  induction r as [ids nested c mn mx IH] using rlogic_ind'.
  destruct nested as [|r0 rs].
  - cbn [is_satisfied_by]. econstructor; [apply distinct_count_nodup|apply is_len_applicable_iff].
  - cbn [is_satisfied_by]. set (l := r0 :: rs) in *.
    econstructor; [discriminate| |apply is_len_applicable_iff].
    clearbody l. clear -IH. induction IH as [|x xs Hx _ IH]; [constructor|].
    rewrite filter_length_cons. destruct (is_satisfied_by x S); constructor; assumption.
Qed.

Lemma verdict_unique S : (forall r b, verdict S r b -> forall b', verdict S r b' -> b = b').
Proof.
  apply (verdict_ind2 S (fun r b _ => forall b', verdict S r b' -> b = b')
           (fun rs n _ => forall n', verdicts S rs n' -> n = n')).
  - intros ids c mn mx n b Hd Hw b' H'. inversion H' as [? ? ? ? n' ? Hd' Hw'|]; subst; [|congruence].
    assert (n = n') by (eapply distinct_count_unique; eassumption). subst n'.
    destruct b, b'; auto; [symmetry; apply Hw'; now apply Hw|apply Hw; now apply Hw'].
  - intros ids nested c mn mx n b Hne Hv IH Hw b' H'. inversion H' as [|? ? ? ? ? n' ? Hne' Hv' Hw']; subst; [congruence|].
    assert (n = n') by auto. subst n'.
    destruct b, b'; auto; [symmetry; apply Hw'; now apply Hw|apply Hw; now apply Hw'].
  - intros n' H'. now inversion H'.
  - intros r rs n Hr IHr Hrs IHrs n' H'. inversion H'; subst; [f_equal; auto|].
    exfalso. specialize (IHr false). intuition discriminate.
  - intros r rs n Hr IHr Hrs IHrs n' H'. inversion H'; subst; [|auto].
    exfalso. specialize (IHr true). intuition discriminate.
Qed.

Lemma verdict_iff S r b : verdict (fun x => In x S) r b <-> is_satisfied_by r S = b.
Proof.
  split; [|intros <-; apply is_satisfied_verdict].
  intros H. eapply verdict_unique; [apply is_satisfied_verdict|exact H].
Qed.

(** Satisfaction depends on membership of the required descriptors only. *)
Lemma in_all_descriptors_leaf x ids c mn mx : In x (get_all_descriptors (RL ids [] c mn mx)) <-> In x ids.
Proof. cbn. unfold init_from_slice. apply nodup_In. Qed.
Lemma in_all_descriptors_node x ids n0 ns c mn mx :
  In x (get_all_descriptors (RL ids (n0 :: ns) c mn mx)) <-> exists r, In r (n0 :: ns) /\ In x (get_all_descriptors r).
Proof.
  cbn [get_all_descriptors]. rewrite nodup_In, in_concat. split.
  - intros (l & Hl & Hx). apply in_map_iff in Hl as (r & <- & Hr). eauto.
  - intros (r & Hr & Hx). exists (get_all_descriptors r). split; [now apply in_map|assumption].
Qed.
Lemma get_all_nodup r : NoDup (get_all_descriptors r).
Proof. destruct r as [ids [|n0 ns] c mn mx]; cbn; apply NoDup_nodup. Qed.

Lemma filter_ext_In {A} (f g : A -> bool) l : (forall x, In x l -> f x = g x) -> filter f l = filter g l.
Proof.
  induction l as [|x l IH]; cbn; intros H; [reflexivity|].
  rewrite (H x) by auto. rewrite IH by auto. reflexivity.
Qed.

Lemma str_in_ext x a b : (In x a <-> In x b) -> str_in x a = str_in x b.
Proof.
  intros H. destruct (str_in x a) eqn:E1, (str_in x b) eqn:E2; auto.
  - apply str_in_In in E1. apply H in E1. apply str_in_In in E1. congruence.
  - apply str_in_In in E2. apply H in E2. apply str_in_In in E2. congruence.
Qed.

Lemma is_satisfied_ext r S T :
  (forall x, In x (get_all_descriptors r) -> (In x S <-> In x T)) -> is_satisfied_by r S = is_satisfied_by r T.
Proof.
  induction r as [ids nested c mn mx IH] using rlogic_ind'. intros H.
  destruct nested as [|n0 ns].
  - cbn [is_satisfied_by]. do 4 f_equal. apply filter_ext_In. intros x Hx. unfold set_has. apply str_in_ext.
    apply H. now apply in_all_descriptors_leaf.
  - cbn [is_satisfied_by]. do 3 f_equal. apply filter_ext_In. intros x Hx.
    rewrite Forall_forall in IH. apply IH; [assumption|].
    intros y Hy. apply H. apply in_all_descriptors_node. eauto.
Qed.

(** ** Bit selections *)
Local Open Scope N_scope.

(** [sel descs s]: recursion on the list, halving the number. *)
Fixpoint sel (descs : list string) (s : N) : list string :=
  match descs with
  | [] => []
  | d :: ds => if N.odd s then d :: sel ds (N.div2 s) else sel ds (N.div2 s)
  end.
Fixpoint code (descs : list string) (P : string -> bool) : N :=
  match descs with [] => 0 | d :: ds => (if P d then 1 else 0) + 2 * code ds P end.

Lemma current_from_sel descs : forall i s, current_from descs i s = sel descs (N.shiftr s i).
Proof.
  induction descs as [|d ds IH]; intros i s; [reflexivity|]. cbn [current_from sel].
  rewrite !IH. rewrite N.div2_spec, N.shiftr_shiftr.
  rewrite <- N.bit0_odd, N.shiftr_spec'. rewrite N.add_0_l. reflexivity.
Qed.
Lemma current_sel descs s : current descs s = sel descs s.
Proof. unfold current. rewrite current_from_sel. now rewrite N.shiftr_0_r. Qed.

Lemma code_bound ds P : code ds P < 2 ^ N.of_nat (List.length ds).
Proof.
  induction ds as [|d ds IH]; cbn [code List.length]; [reflexivity|].
  rewrite Nat2N.inj_succ, N.pow_succ_r'. destruct (P d); lia.
Qed.
Lemma odd_c b n : N.odd ((if b : bool then 1 else 0) + 2 * n) = b.
Proof. destruct b; destruct n; reflexivity. Qed.
Lemma div2_c b n : N.div2 ((if b : bool then 1 else 0) + 2 * n) = n.
Proof. destruct b; destruct n; reflexivity. Qed.

Lemma sel_code ds P : sel ds (code ds P) = filter P ds.
Proof.
  induction ds as [|d ds IH]; [reflexivity|]. cbn [sel code filter].
  rewrite odd_c, div2_c, IH. reflexivity.
Qed.

Lemma n_dec s : s = (if N.odd s then 1 else 0) + 2 * N.div2 s.
Proof. rewrite (N.div2_odd s) at 1. destruct (N.odd s); cbn [N.b2n]; lia. Qed.

Lemma sel_incl ds : forall s x, In x (sel ds s) -> In x ds.
Proof.
  induction ds as [|d ds IH]; intros s x; cbn [sel]; [tauto|].
  destruct (N.odd s); cbn; intros H; [destruct H; eauto|eauto].
Qed.
Lemma sel_nodup ds : forall s, NoDup ds -> NoDup (sel ds s).
Proof.
  induction ds as [|d ds IH]; intros s H; cbn [sel]; [constructor|].
  inversion H; subst. destruct (N.odd s); [constructor|]; auto. intros Hin. apply sel_incl in Hin. contradiction.
Qed.

(** The code of the selected set is the number itself. *)
Lemma code_sel ds : forall s, NoDup ds -> s < 2 ^ N.of_nat (List.length ds) ->
  code ds (fun x => str_in x (sel ds s)) = s.
Proof.
  induction ds as [|d ds IH]; intros s Hnd Hs; [cbn in *; lia|].
  inversion Hnd as [|? ? Hni Hnd']; subst.
  cbn [List.length] in Hs. rewrite Nat2N.inj_succ, N.pow_succ_r' in Hs.
  cbn [code sel]. transitivity ((if N.odd s then 1 else 0) + 2 * N.div2 s); [|symmetry; apply n_dec].
  assert (Hsub : forall l, (forall x, In x ds -> (In x l <-> In x (sel ds (N.div2 s)))) ->
     code ds (fun x => str_in x l) = N.div2 s).
  { intros l Hl. rewrite <- (IH (N.div2 s)) at 1; [|assumption|].
    - assert (G : forall P Q, (forall x, In x ds -> P x = Q x) -> code ds P = code ds Q).
      { clear. induction ds as [|d ds IH]; intros P Q H; [reflexivity|]. cbn.
        rewrite (H d) by (left; reflexivity). rewrite (IH P Q); [reflexivity|]. intros x Hx. apply H. now right. }
      apply G. intros x Hx. apply str_in_ext. rewrite Hl by assumption. reflexivity.
    - pose proof (n_dec s). destruct (N.odd s); lia. }
  destruct (N.odd s) eqn:Eo.
  - rewrite Hsub.
    { cbn [str_in]. now rewrite String.eqb_refl. }
    intros x Hx. cbn. split; [intros [->|H]; [contradiction|assumption]|auto].
  - assert (E : str_in d (sel ds (N.div2 s)) = false).
    { apply str_in_nIn. intros H. apply sel_incl in H. contradiction. }
    rewrite E, Hsub; [reflexivity|]. tauto.
Qed.

Lemma code_ext ds P Q : (forall x, In x ds -> P x = Q x) -> code ds P = code ds Q.
Proof.
  induction ds as [|d ds IH]; intros H; [reflexivity|]. cbn.
  rewrite (H d) by (left; reflexivity). rewrite IH; [reflexivity|]. intros x Hx. apply H. now right.
Qed.
Lemma code_app a b P : code (a ++ b) P = code a P + 2 ^ N.of_nat (List.length a) * code b P.
Proof.
  induction a as [|d a IH]; cbn [app code List.length]; [change (N.of_nat 0) with 0; rewrite N.pow_0_r; lia|].
  rewrite IH, Nat2N.inj_succ, N.pow_succ_r'. destruct (P d); lia.
Qed.
Lemma sel_app a : forall b s, sel (a ++ b) s = (sel a s ++ sel b (s / 2 ^ N.of_nat (List.length a)))%list.
Proof.
  induction a as [|d a IH]; intros b s; cbn [app sel List.length].
  - now rewrite N.div_1_r.
  - rewrite IH. replace (N.div2 s / 2 ^ N.of_nat (List.length a)) with (s / 2 ^ N.of_nat (S (List.length a))).
    + destruct (N.odd s); reflexivity.
    + rewrite Nat2N.inj_succ, N.pow_succ_r', N.div2_div, N.div_div by (try apply N.pow_nonzero; lia). reflexivity.
Qed.
Lemma sel_nil_iff ds : forall s, sel ds s = [] <-> s mod 2 ^ N.of_nat (List.length ds) = 0.
Proof.
  induction ds as [|d ds IH]; intros s; cbn [sel List.length].
  - rewrite N.mod_1_r. tauto.
  - rewrite Nat2N.inj_succ, N.pow_succ_r'.
    set (m := 2 ^ N.of_nat (List.length ds)) in *.
    assert (Hm : m <> 0) by (apply N.pow_nonzero; lia).
    assert (E : s mod (2 * m) = (if N.odd s then 1 else 0) + 2 * (N.div2 s mod m)).
    { symmetry. apply (N.mod_unique _ _ (N.div2 s / m)).
      - pose proof (N.mod_lt (N.div2 s) m Hm). destruct (N.odd s); lia.
      - rewrite (n_dec s) at 1. rewrite (N.div_mod (N.div2 s) m Hm) at 1. lia. }
    rewrite E. destruct (N.odd s); [split; [discriminate|lia]|]. rewrite IH. lia.
Qed.
Lemma sel_nil_small ds s : s < 2 ^ N.of_nat (List.length ds) -> (sel ds s = [] <-> s = 0).
Proof. intros H. rewrite sel_nil_iff. rewrite N.mod_small by assumption. reflexivity. Qed.

(** ** Exclusion *)
Lemma exclude_indices_ge ds : forall i excl x, In x (exclude_indices ds i excl) -> i <= x.
Proof.
  induction ds as [|d ds IH]; intros i excl x; cbn [exclude_indices]; [intros []|].
  destruct (str_in d excl); intros H; [destruct H as [<-|H]; [lia|]|]; apply IH in H; lia.
Qed.
Lemma remove_indices_ignore ds : forall i idx j, j < i -> remove_indices ds i (j :: idx) = remove_indices ds i idx.
Proof.
  induction ds as [|d ds IH]; intros i idx j Hj; cbn [remove_indices]; [reflexivity|].
  unfold n_in. cbn [existsb]. destruct (N.eqb_spec i j); [lia|]. cbn [orb].
  rewrite IH by lia. reflexivity.
Qed.
Lemma remove_excluded ds : forall i excl,
  remove_indices ds i (exclude_indices ds i excl) = filter (fun d => negb (str_in d excl)) ds.
Proof.
  induction ds as [|d ds IH]; intros i excl; [reflexivity|].
  cbn [exclude_indices remove_indices filter]. destruct (str_in d excl) eqn:E; cbn [negb].
  - unfold n_in. cbn [existsb]. rewrite N.eqb_refl. cbn [orb].
    rewrite remove_indices_ignore by lia. apply IH.
  - assert (Hn : n_in i (exclude_indices ds (i + 1) excl) = false).
    { unfold n_in. destruct (existsb (N.eqb i) _) eqn:Ex; [|reflexivity].
      apply existsb_exists in Ex as (x & Hx & Hxi). apply N.eqb_eq in Hxi. subst x.
      apply exclude_indices_ge in Hx. lia. }
    rewrite Hn. f_equal. apply IH.
Qed.
Lemma exclude_indices_app a : forall b i excl,
  exclude_indices (a ++ b) i excl = (exclude_indices a i excl ++ exclude_indices b (i + N.of_nat (List.length a)) excl)%list.
Proof.
  induction a as [|d a IH]; intros b i excl; cbn [app exclude_indices List.length].
  - now rewrite N.add_0_r.
  - rewrite IH. replace (i + 1 + N.of_nat (List.length a)) with (i + N.of_nat (S (List.length a))) by lia.
    destruct (str_in d excl); reflexivity.
Qed.
Lemma exclude_indices_none ds : forall i excl, (forall d, In d ds -> str_in d excl = false) -> exclude_indices ds i excl = [].
Proof.
  induction ds as [|d ds IH]; intros i excl H; [reflexivity|]. cbn. rewrite (H d) by (left; reflexivity).
  apply IH. intros x Hx. apply H. now right.
Qed.
Lemma exclude_indices_lt ds : forall i excl x, In x (exclude_indices ds i excl) -> x < i + N.of_nat (List.length ds).
Proof.
  induction ds as [|d ds IH]; intros i excl x; cbn [exclude_indices List.length]; [intros []|].
  destruct (str_in d excl); intros H; [destruct H as [<-|H]; [lia|]|]; apply IH in H; lia.
Qed.
Lemma exclude_indices_length ds : forall i excl,
  List.length (exclude_indices ds i excl) = List.length (filter (fun d => str_in d excl) ds).
Proof.
  induction ds as [|d ds IH]; intros i excl; [reflexivity|]. cbn. destruct (str_in d excl); cbn; auto.
Qed.
Lemma fold_max_snoc l k : (forall x, In x l -> x <= k) -> fold_left N.max (l ++ [k]) 0 = k.
Proof.
  rewrite fold_left_app. cbn [fold_left]. intros H.
  assert (G : forall l a, a <= k -> (forall x, In x l -> x <= k) -> fold_left N.max l a <= k).
  { clear. induction l as [|x l IH]; cbn; intros a Ha H; [assumption|].
    apply IH; [|intros y Hy; apply H; auto]. specialize (H x (or_introl eq_refl)). lia. }
  specialize (G l 0 ltac:(lia) H). lia.
Qed.

(** Split the list at its last excluded element. *)
Lemma split_last_excluded excl ds :
  (exists d, In d ds /\ str_in d excl = true) ->
  exists a dk b, ds = (a ++ dk :: b)%list /\ str_in dk excl = true /\ (forall d, In d b -> str_in d excl = false).
Proof.
  induction ds as [|d ds IH]; intros (x & Hx & He); [destruct Hx|].
  destruct (existsb (fun y => str_in y excl) ds) eqn:Ex.
  - destruct IH as (a & dk & b & -> & H1 & H2).
    { apply existsb_exists in Ex as (y & Hy & Hye). eauto. }
    exists (d :: a), dk, b. auto.
  - assert (Hno : forall y, In y ds -> str_in y excl = false).
    { intros y Hy. destruct (str_in y excl) eqn:E; [|reflexivity]. exfalso.
      assert (existsb (fun y => str_in y excl) ds = true) by (apply existsb_exists; eauto). congruence. }
    destruct Hx as [->|Hx]; [|rewrite Hno in He by assumption; discriminate].
    exists [], x, ds. auto.
Qed.

Lemma filter_app' {A} (f : A -> bool) a b : filter f (a ++ b)%list = (filter f a ++ filter f b)%list.
Proof. apply filter_app. Qed.
Lemma filter_all {A} (f : A -> bool) l : (forall x, In x l -> f x = true) -> filter f l = l.
Proof. induction l as [|x l IH]; cbn; intros H; [reflexivity|]. rewrite H by auto. f_equal. auto. Qed.
Lemma filter_negb_length {A} (f : A -> bool) l :
  (List.length (filter f l) + List.length (filter (fun x => negb (f x)) l) = List.length l)%nat.
Proof. induction l as [|x l IH]; cbn; [reflexivity|]. destruct (f x); cbn; lia. Qed.

(** The arithmetic heart: state after exclusion, and comparison of codes. *)
Lemma exclude_state it excl a dk b :
  it_descs it = (a ++ dk :: b)%list -> str_in dk excl = true -> (forall d, In d b -> str_in d excl = false) ->
  N.testbit (it_state it) (N.of_nat (List.length a)) = true ->
  let it' := exclude_descriptors it (exclude_indices (it_descs it) 0 excl) in
  let a' := filter (fun d => negb (str_in d excl)) a in
  it_descs it' = (a' ++ b)%list /\
  it_state it' = (it_state it / 2 ^ N.of_nat (S (List.length a)) + 1) * 2 ^ N.of_nat (List.length a') /\
  it_req it' = it_req it /\ it_done it' = it_done it.
Proof.
  intros Hd Hk Hb Hbit it' a'. subst it'. unfold exclude_descriptors. cbn [it_descs it_state it_req it_done].
  split; [|split; [|split; reflexivity]].
  - rewrite remove_excluded, Hd, filter_app. cbn [filter]. rewrite Hk. cbn [negb].
    rewrite (filter_all _ b); [reflexivity|]. intros x Hx. now rewrite Hb.
  - rewrite Hd, exclude_indices_app. cbn [exclude_indices]. rewrite Hk.
    rewrite (exclude_indices_none b) by assumption. rewrite N.add_0_l.
    rewrite fold_max_snoc.
    2:{ intros x Hx. apply exclude_indices_lt in Hx. lia. }
    set (k := N.of_nat (List.length a)) in *.
    rewrite app_length, exclude_indices_length. cbn [List.length].
    assert (Hlen : (List.length (filter (fun d => str_in d excl) a) + List.length a' = List.length a)%nat)
      by exact (filter_negb_length (fun d => str_in d excl) a).
    rewrite N.shiftl_1_l.
    assert (Hc : N.ldiff (it_state it) (2 ^ k - 1) = 2 ^ k * (it_state it / 2 ^ k)).
    { replace (2 ^ k - 1) with (N.ones k) by (rewrite N.ones_equiv; lia).
      rewrite N.ldiff_ones_r, N.shiftl_mul_pow2, N.shiftr_div_pow2. lia. }
    rewrite Hc.
    assert (Hodd : it_state it / 2 ^ k = 1 + 2 * (it_state it / 2 ^ N.of_nat (S (List.length a)))).
    { rewrite <- N.shiftr_div_pow2. rewrite (n_dec (N.shiftr (it_state it) k)).
      rewrite <- N.bit0_odd, N.shiftr_spec', N.add_0_l. rewrite Hbit. f_equal. f_equal.
      rewrite N.div2_spec, N.shiftr_shiftr, N.shiftr_div_pow2. f_equal. f_equal. lia. }
    rewrite Hodd. rewrite N.shiftr_div_pow2.
    set (hi := it_state it / 2 ^ N.of_nat (S (List.length a))).
    replace (2 ^ k * (1 + 2 * hi) + 2 ^ k) with ((hi + 1) * 2 ^ (k + 1)) by (rewrite N.pow_add_r; lia).
    assert (Hke : k + 1 = N.of_nat (List.length a') + N.of_nat (List.length (filter (fun d => str_in d excl) a) + 1)) by (subst k; lia). rewrite Hke.
    rewrite N.pow_add_r, N.mul_assoc. apply N.div_mul. apply N.pow_nonzero. lia.
Qed.

(** For a set avoiding the excluded elements: "code at most the old state" is "new code below new state". *)
Lemma code_compare s a dk b a' (P : string -> bool) :
  P dk = false -> (forall d, In d a -> In d a' \/ P d = false) ->
  N.testbit s (N.of_nat (List.length a)) = true ->
  (code (a ++ dk :: b) P <= s <->
   code (a' ++ b) P < (s / 2 ^ N.of_nat (S (List.length a)) + 1) * 2 ^ N.of_nat (List.length a')).
Proof.
  intros HP _ Hbit.
  rewrite !code_app. cbn [code]. rewrite HP.
  rewrite Nat2N.inj_succ, N.pow_succ_r'.
  pose proof (code_bound a P) as B1. pose proof (code_bound a' P) as B2.
  set (k := N.of_nat (List.length a)) in *. set (k' := N.of_nat (List.length a')) in *.
  assert (Hk : 2 ^ k <> 0) by (apply N.pow_nonzero; lia).
  assert (Hodd : s / 2 ^ k = 1 + 2 * (s / (2 * 2 ^ k))).
  { rewrite <- N.shiftr_div_pow2. rewrite (n_dec (N.shiftr s k)).
    rewrite <- N.bit0_odd, N.shiftr_spec', N.add_0_l. rewrite Hbit. f_equal. f_equal.
    rewrite N.div2_div, N.shiftr_div_pow2, N.div_div by lia. f_equal. lia. }
  pose proof (N.div_mod s (2 ^ k) Hk) as Dm. pose proof (N.mod_lt s (2 ^ k) Hk) as Ml.
  rewrite Hodd in Dm. set (hi := s / (2 * 2 ^ k)) in *. set (c := code b P) in *.
  set (m := 2 ^ k) in *. set (m' := 2 ^ k') in *. rewrite Dm. clear Dm Hodd.
  set (r := s mod m) in *. rewrite N.add_0_l.
  replace (m * (2 * c)) with (2 * (m * c)) by lia.
  replace (m * (1 + 2 * hi)) with (m + 2 * (m * hi)) by lia.
  replace ((hi + 1) * m') with (m' * hi + m') by lia.
  destruct (N.le_gt_cases c hi) as [L|L].
  - pose proof (N.mul_le_mono_l c hi m L). pose proof (N.mul_le_mono_l c hi m' L). lia.
  - assert (L' : hi + 1 <= c) by lia.
    pose proof (N.mul_le_mono_l _ _ m L'). pose proof (N.mul_le_mono_l _ _ m' L'). lia.
Qed.
