(** Linearizability of the in-memory store. *)
From Verif Require Import GoBase StrLemmas DiProofs RrProofs MemSpec MemModel.
From Coq Require Import Lia Permutation.

Definition absm (m : gomap entry) : db := fun k => mget m k.
Lemma same_refl A : same A A. Proof. intros k. reflexivity. Qed.
Lemma same_sym A B : same A B -> same B A. Proof. intros H k. symmetry. apply H. Qed.
Lemma same_trans A B C : same A B -> same B C -> same A C. Proof. intros H H' k. rewrite H. apply H'. Qed.
#[export] Hint Resolve same_refl : core.

(** *** Text *)
Lemma has_colon_spec s : has_colon s = false <-> free_of ":" s.
Proof.
  unfold has_colon. split.
  - destruct (split_on ":" s) as [|x l] eqn:E; cbn; [discriminate|]. intros H.
    apply split_on_cons_inv in E as [E _]. destruct l; [|discriminate]. destruct (E eq_refl) as [_ Hf]. exact Hf.
  - intros H. rewrite split_on_free by exact H. reflexivity.
Qed.
Lemma tag_bad_spec ts : existsb tag_bad ts = false <-> Forall tag_fine ts.
Proof.
  induction ts as [|t ts IH]; cbn [existsb]; [split; auto|].
  rewrite orb_false_iff, Forall_cons_iff, IH. unfold tag_bad, tag_fine. rewrite orb_false_iff, !has_colon_spec. tauto.
Qed.
Lemma tag_bad_true ts : existsb tag_bad ts = true -> ~ Forall tag_fine ts.
Proof. intros H Hf. apply tag_bad_spec in Hf. congruence. Qed.
Lemma parse_conj_spec t c : parse_conj t = Some c <-> conj_text t c.
Proof.
  unfold parse_conj. split.
  - destruct (split_on ":" t) as [|n [|v [|? ?]]] eqn:E; try discriminate; intros [= <-].
    + apply split_on_cons_inv in E as [E _]. destruct (E eq_refl) as [-> Hf]. apply ct_name. exact Hf.
    + apply split_on_cons_inv in E as [_ E]. destruct (E ltac:(discriminate)) as (q & -> & Hq & Hf).
      apply split_on_cons_inv in Hq as [Hq _]. destruct (Hq eq_refl) as [-> Hf']. apply ct_value; assumption.
  - intros [n Hf|n v Hn Hv].
    + rewrite split_on_free by assumption. reflexivity.
    + rewrite split_on_app by assumption. rewrite split_on_free by assumption. reflexivity.
Qed.
Lemma parse_conj_none t : parse_conj t = None <-> bad_conj t.
Proof.
  unfold bad_conj. split.
  - intros H c Hc. apply parse_conj_spec in Hc. congruence.
  - intros H. destruct (parse_conj t) as [c|] eqn:E; [|reflexivity]. exfalso. apply parse_conj_spec in E. exact (H _ E).
Qed.
Lemma split_and_free t : free_of "&" t -> split_and t = [t].
Proof.
  induction t as [|c t IH]; intros H; [reflexivity|]. apply free_of_cons in H as [Hc Ht]. specialize (IH Ht).
  cbn [split_and]. destruct t as [|c' t]; [reflexivity|].
  destruct (Ascii.eqb_spec c "&"); [congruence|]. cbn [andb]. rewrite IH. reflexivity.
Qed.
Lemma split_and_app t s : free_of "&" t -> split_and (t ++ "&&" ++ s) = t :: split_and s.
Proof.
  induction t as [|c t IH]; intros H; [reflexivity|]. apply free_of_cons in H as [Hc Ht]. specialize (IH Ht).
  change (String c t ++ "&&" ++ s) with (String c (t ++ "&&" ++ s)). cbn [split_and].
  destruct (t ++ "&&" ++ s) as [|c' r] eqn:E.
  - destruct t; discriminate.
  - destruct (Ascii.eqb_spec c "&"); [congruence|]. cbn [andb]. rewrite IH. reflexivity.
Qed.
Lemma split_and_concat ts : ts <> [] -> Forall (free_of "&") ts -> split_and (String.concat "&&" ts) = ts.
Proof.
  induction ts as [|t ts IH]; intros Hne Hf; [contradiction|]. inversion Hf as [|? ? Ht Hts]; subst.
  destruct ts as [|t' ts]; [apply split_and_free; assumption|].
  change (String.concat "&&" (t :: t' :: ts)) with (t ++ "&&" ++ String.concat "&&" (t' :: ts)).
  rewrite split_and_app by assumption. f_equal. apply IH; [discriminate|assumption].
Qed.
Lemma entry_matches_spec c e : entry_matches c e = true <-> has_tag e c.
Proof.
  unfold entry_matches, has_tag. rewrite existsb_exists. unfold tag_matches. split; intros (t & Hin & H); exists t; (split; [exact Hin|]).
  - apply andb_prop in H as [H1 H2]. apply String.eqb_eq in H1. split; [assumption|].
    apply orb_prop in H2 as [H2|H2]; apply String.eqb_eq in H2; auto.
  - destruct H as [H1 H2]. rewrite (proj2 (String.eqb_eq _ _) H1). cbn [andb]. apply orb_true_iff.
    destruct H2 as [H2|H2]; [left|right]; apply String.eqb_eq; assumption.
Qed.

(** *** commonDBEntries *)
Section Common.
Definition inc (m : gomap nat) (k : string) : nat := match mget m k with Some n => n | None => 0%nat end.
Lemma count_one (l : list (string * entry)) : NoDup (map fst l) -> forall (m : gomap nat) k,
  mget (fold_left (fun m x => mset m (fst x) (S (inc m (fst x)))) l m) k
  = if str_in k (map fst l) then Some (S (inc m k)) else mget m k.
Proof.
  induction l as [|x l IH]; intros Hnd m k; [reflexivity|]. inversion Hnd as [|? ? Hn Hnd']; subst.
  cbn [fold_left map str_in]. rewrite IH by assumption. unfold inc at 2. rewrite mget_mset.
  destruct (str_in k (map fst l)) eqn:Ek.
  - rewrite orb_true_r. destruct (String.eqb_spec k (fst x)) as [->|Hkx].
    + apply str_in_In in Ek. contradiction.
    + f_equal. unfold inc. rewrite mget_mset. destruct (String.eqb_spec k (fst x)); [contradiction|reflexivity].
  - rewrite orb_false_r. destruct (String.eqb_spec k (fst x)) as [->|Hkx]; reflexivity.
Qed.
Definition times (k : string) (ord : qresults) : nat := List.length (filter (fun r => str_in k (map fst (snd r))) ord).
Lemma count_all (ord : qresults) : Forall (fun r => NoDup (map fst (snd r))) ord -> forall (m : gomap nat) k,
  inc (fold_left (fun m r => fold_left (fun m x => mset m (fst x) (S (inc m (fst x)))) (snd r) m) ord m) k
  = (inc m k + times k ord)%nat.
Proof.
  induction ord as [|r ord IH]; intros Hf m k; [cbn; lia|]. inversion Hf as [|? ? Hr Hf']; subst.
  cbn [fold_left]. rewrite IH by assumption. unfold times. cbn [filter]. unfold inc at 1. rewrite count_one by assumption.
  destruct (str_in k (map fst (snd r))); cbn [List.length]; [lia|]. unfold inc. lia.
Qed.
Lemma count_keys_spec ord k : Forall (fun r => NoDup (map fst (snd r))) ord -> inc (count_keys ord) k = times k ord.
Proof.
  intros Hf. unfold count_keys. pose proof (count_all ord Hf [] k) as H. unfold inc in *. cbn [mget] in H. exact H.
Qed.
Lemma fold_inner_nodup {V} (f : gomap V -> string * entry -> V) (l : list (string * entry)) : forall m : gomap V,
  NoDup (map fst m) -> NoDup (map fst (fold_left (fun m x => mset m (fst x) (f m x)) l m)).
Proof. induction l as [|x l IH]; intros m Hm; [exact Hm|]. cbn [fold_left]. apply IH. apply mset_nodup. exact Hm. Qed.
Lemma count_keys_nodup ord : NoDup (map fst (count_keys ord)).
Proof.
  unfold count_keys. assert (H : NoDup (map fst (@nil (string * nat)))) by constructor. revert H. generalize (@nil (string * nat)).
  induction ord as [|r ord IH]; intros m Hm; [exact Hm|]. cbn [fold_left]. apply IH.
  apply (fold_inner_nodup (fun m x => S (match mget m (fst x) with Some n => n | None => 0%nat end))). exact Hm.
Qed.
Lemma value_inner l : forall (m : gomap entry) k e, mget (fold_left (fun m x => mset m (fst x) (snd x)) l m) k = Some e ->
  In (k, e) l \/ mget m k = Some e.
Proof.
  induction l as [|x l IH]; intros m k e H; [right; exact H|]. cbn [fold_left] in H. apply IH in H as [H|H]; [left; right; exact H|].
  rewrite mget_mset in H. destruct (String.eqb_spec k (fst x)) as [->|]; [|right; exact H].
  injection H as <-. left. left. destruct x; reflexivity.
Qed.
Lemma value_inner_some l : forall (m : gomap entry) k, In k (map fst l) \/ mget m k <> None ->
  mget (fold_left (fun m x => mset m (fst x) (snd x)) l m) k <> None.
Proof.
  induction l as [|x l IH]; intros m k H; [destruct H as [[]|H]; exact H|]. cbn [fold_left]. apply IH.
  rewrite mget_mset. destruct (String.eqb_spec k (fst x)) as [->|Hne]; [right; discriminate|].
  destruct H as [[H|H]|H]; [congruence|left; exact H|right; exact H].
Qed.
Lemma value_map_spec ord k e : mget (value_map ord) k = Some e -> exists r, In r ord /\ In (k, e) (snd r).
Proof.
  unfold value_map.
  assert (H : forall m : gomap entry, mget (fold_left (fun m r => fold_left (fun m x => mset m (fst x) (snd x)) (snd r) m) ord m) k = Some e ->
            (exists r, In r ord /\ In (k, e) (snd r)) \/ mget m k = Some e).
  { induction ord as [|r ord IH]; intros m H; [right; exact H|]. cbn [fold_left] in H.
    apply IH in H as [(r' & Hr & Hin)|H]; [left; exists r'; split; [right|]; assumption|].
    apply value_inner in H as [H|H]; [left; exists r; split; [left; reflexivity|exact H]|right; exact H]. }
  intros Hm. destruct (H [] Hm) as [Hx|Hx]; [exact Hx|discriminate].
Qed.
Lemma value_map_some ord k : (exists r, In r ord /\ In k (map fst (snd r))) -> mget (value_map ord) k <> None.
Proof.
  unfold value_map.
  assert (H : forall m : gomap entry, (exists r, In r ord /\ In k (map fst (snd r))) \/ mget m k <> None ->
            mget (fold_left (fun m r => fold_left (fun m x => mset m (fst x) (snd x)) (snd r) m) ord m) k <> None).
  { induction ord as [|r ord IH]; intros m Hx; [destruct Hx as [(r & [] & _)|Hx]; exact Hx|]. cbn [fold_left]. apply IH.
    destruct Hx as [(r' & [<-|Hr] & Hin)|Hx].
    - right. apply value_inner_some. left. exact Hin.
    - left. exists r'. auto.
    - right. apply value_inner_some. right. exact Hx. }
  intros Hx. apply H. left. exact Hx.
Qed.
Lemma times_all k ord : times k ord = List.length ord <-> Forall (fun r => In k (map fst (snd r))) ord.
Proof.
  unfold times. induction ord as [|r ord IH]; [split; auto|]. cbn [filter List.length]. rewrite Forall_cons_iff.
  assert (Hle : (List.length (filter (fun r => str_in k (map fst (snd r))) ord) <= List.length ord)%nat).
  { clear. induction ord as [|r ord IH]; [cbn; lia|]. cbn [filter]. destruct (str_in _ _); cbn [List.length]; lia. }
  destruct (str_in k (map fst (snd r))) eqn:E.
  - apply str_in_In in E. cbn [List.length]. split; [intros H; split; [exact E|apply IH; lia]|intros [_ H]; apply IH in H; lia].
  - apply str_in_nIn in E. split; [intros H; lia|intros [H _]; contradiction].
Qed.
Lemma flat_map_fst_nodup {V} (g : string * V -> list (string * entry)) (l : list (string * V)) :
  NoDup (map fst l) -> (forall x, exists o : option entry, g x = match o with Some e => [(fst x, e)] | None => [] end) ->
  NoDup (map fst (flat_map g l)).
Proof.
  intros Hnd Hg. induction l as [|x l IH]; [constructor|]. inversion Hnd as [|? ? Hn Hnd']; subst. cbn [flat_map].
  destruct (Hg x) as [[e|] Hx]; rewrite Hx; cbn [app map fst]; [|auto].
  constructor; [|auto]. intros Hin. apply in_map_iff in Hin as ([k e'] & Hk & Hin). cbn in Hk. subst k.
  apply in_flat_map in Hin as (y & Hy & Hin). destruct (Hg y) as [[e2|] Hgy]; rewrite Hgy in Hin; [|destruct Hin].
  destruct Hin as [[= Hf _]|[]]. apply Hn. rewrite <- Hf. apply in_map. exact Hy.
Qed.
Lemma common_spec ord : ord <> [] -> Forall (fun r => NoDup (map fst (snd r))) ord ->
  NoDup (map fst (common ord)) /\
  (forall k e, In (k, e) (common ord) -> (exists r, In r ord /\ In (k, e) (snd r)) /\ Forall (fun r => In k (map fst (snd r))) ord) /\
  (forall k, Forall (fun r => In k (map fst (snd r))) ord -> In k (map fst (common ord))).
Proof.
  intros Hne Hf. split; [|split].
  - unfold common. apply flat_map_fst_nodup; [apply count_keys_nodup|]. intros [k n]. cbn [fst snd].
    destruct (Nat.eqb n (List.length ord)); [|exists None; reflexivity].
    destruct (mget (value_map ord) k) as [e|]; [exists (Some e)|exists None]; reflexivity.
  - intros k e Hin. unfold common in Hin. apply in_flat_map in Hin as ([k' n] & Hin & Hx). cbn [fst snd] in Hx.
    destruct (Nat.eqb_spec n (List.length ord)) as [->|]; [|destruct Hx].
    destruct (mget (value_map ord) k') as [e'|] eqn:Ev; [|destruct Hx]. destruct Hx as [[= <- <-]|[]].
    split; [apply value_map_spec; exact Ev|]. apply times_all. rewrite <- count_keys_spec by assumption.
    unfold inc. rewrite (mget_In_nodup _ _ _ (count_keys_nodup ord) Hin). reflexivity.
  - intros k Hall. pose proof Hall as Ht. apply times_all in Ht. rewrite <- count_keys_spec in Ht by assumption.
    unfold inc in Ht. destruct (mget (count_keys ord) k) as [n|] eqn:En.
    2:{ destruct ord; [contradiction|discriminate Ht]. }
    subst n. destruct (mget (value_map ord) k) as [e|] eqn:Ev.
    2:{ exfalso. refine (value_map_some ord k _ Ev). destruct ord as [|r ord]; [contradiction|]. exists r.
        inversion Hall; subst. split; [left; reflexivity|assumption]. }
    apply in_map_iff. exists (k, e). split; [reflexivity|]. unfold common. apply in_flat_map. exists (k, List.length ord).
    split; [apply mget_In; exact En|]. cbn [fst snd]. rewrite Nat.eqb_refl, Ev. left. reflexivity.
Qed.
End Common.
