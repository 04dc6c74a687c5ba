(** C332: counting combinations, complements and comparing (presexch/internal/requirementlogic/combinatorics.go). *)
From Coq Require Import Lia PeanoNat Permutation Sorted.
From Verif Require Import GoBase CombModel CombProps.
Open Scope nat_scope.

(** binomial coefficients by Pascal's rule *)
Fixpoint binom (n k : nat) : nat :=
  match k, n with
  | O, _ => 1
  | S _, O => 0
  | S k', S n' => binom n' k' + binom n' k
  end.
Lemma binom_0 n : binom n 0 = 1. Proof. now destruct n. Qed.
Lemma binom_gt n : forall k, n < k -> binom n k = 0.
Proof. induction n as [|n IH]; intros [|k] H; try lia; [reflexivity|]. cbn [binom]. rewrite !IH by lia. reflexivity. Qed.
Lemma binom_same n : binom n n = 1.
Proof. induction n as [|n IH]; [reflexivity|]. cbn [binom]. rewrite IH, binom_gt by lia. reflexivity. Qed.
Lemma binom_mirror n : forall m, m <= n -> binom n (n - m) = binom n m.
Proof.
  induction n as [|n IH]; intros m H; [now replace m with 0 by lia|]. destruct m as [|m]; [now rewrite Nat.sub_0_r, binom_same, binom_0|].
  replace (S n - S m) with (n - m) by lia. destruct (Nat.eq_dec m n) as [->|Hn].
  - rewrite Nat.sub_diag, binom_0, binom_same. reflexivity.
  - replace (n - m) with (S (n - S m)) by lia. cbn [binom]. rewrite IH by lia. replace (S (n - S m)) with (n - m) by lia. rewrite IH by lia. lia.
Qed.
Lemma binom_step n : forall k, (k + 1) * binom n (S k) = (n - k) * binom n k.
Proof.
  induction n as [|n IH]; intros k; [cbn; lia|]. destruct k as [|k].
  - cbn [binom]. rewrite binom_0. specialize (IH 0). rewrite binom_0 in IH. lia.
  - cbn [binom]. pose proof (IH k) as H1. pose proof (IH (S k)) as H2. destruct (Nat.lt_ge_cases n (S k)) as [Hl|Hl].
    + rewrite (binom_gt n (S k)) in * by lia. rewrite (binom_gt n (S (S k))) in * by lia. replace (S n - S k) with 0 by lia. lia.
    + replace (S n - S k) with (n - k) by lia. replace (n - k) with (S (n - S k)) in * by lia. nia.
Qed.
Lemma loop_binom n m : forall i, choose_loop n i m (binom n i) = binom n (i + m).
Proof.
  induction m as [|m IH]; intros i; [now rewrite Nat.add_0_r|]. cbn [choose_loop].
  assert (E : binom n i * (n - i) / (i + 1) = binom n (S i)).
  { symmetry. apply Nat.div_unique_exact; [lia|]. rewrite (Nat.mul_comm (binom n i)). symmetry. apply binom_step. }
  rewrite E, IH. f_equal. lia.
Qed.
Lemma choose_binom n m : n_choose_m n m = if n =? 0 then 0 else binom n m.
Proof.
  unfold n_choose_m. destruct (Nat.ltb_spec n m) as [H|H]; [cbn [orb]; rewrite binom_gt by lia; now destruct (n =? 0)|]. destruct (Nat.eqb_spec n 0) as [|Hn]; [reflexivity|]. cbn [orb].
  destruct (Nat.eqb_spec m n) as [->|]; [now rewrite binom_same|]. destruct (Nat.eqb_spec m 0) as [->|]; [now rewrite binom_0|]. cbn [orb].
  replace 1 with (binom n 0) by apply binom_0. destruct (n - m <? m); rewrite loop_binom; cbn [Nat.add]; [now apply binom_mirror|reflexivity].
Qed.

(** the combinations, listed in another way *)
Fixpoint subs (m n : nat) : list (list nat) :=
  match m, n with
  | O, _ => [[]]
  | S _, O => []
  | S m', S n' => (subs m n' ++ map (fun l => (l ++ [n'])%list) (subs m' n'))%list
  end.
Lemma subs_length n : forall m, List.length (subs m n) = binom n m.
Proof. induction n as [|n IH]; intros [|m]; try reflexivity. cbn [subs binom]. rewrite app_length, map_length, !IH. lia. Qed.
Lemma asc_app l x : StronglySorted lt l -> Forall (fun y => y < x) l -> StronglySorted lt (l ++ [x])%list.
Proof.
  induction 1 as [|y l A IH F]; intros H; cbn [app]; [repeat constructor|]. inversion H; subst. constructor; [auto|]. apply Forall_app. split; [assumption|]. now repeat constructor.
Qed.
Lemma asc_app_inv l x : StronglySorted lt (l ++ [x])%list -> StronglySorted lt l /\ Forall (fun y => y < x) l.
Proof.
  induction l as [|y l IH]; cbn [app]; intros H; [split; constructor|]. inversion H as [|? ? A F]; subst. apply IH in A as [A B]. apply Forall_app in F as [F G]. inversion G; subst.
  split; constructor; assumption.
Qed.
Lemma subs_in n : forall m l, In l (subs m n) <-> combination m n l.
Proof.
  unfold combination. induction n as [|n IH]; intros [|m] l; cbn [subs].
  - split; [intros [<-|[]]; repeat split; constructor|]. intros (L & _). left. now destruct l.
  - split; [intros []|]. intros (L & _ & D). destruct l; [discriminate|]. inversion D; lia.
  - split; [intros [<-|[]]; repeat split; constructor|]. intros (L & _). left. now destruct l.
  - rewrite in_app_iff, in_map_iff. split.
    + intros [H|(l' & <- & H)].
      * apply IH in H as (L & A & D). repeat split; auto. eapply Forall_impl; [|exact D]. cbn. lia.
      * apply IH in H as (L & A & D). split; [rewrite app_length; cbn; lia|]. split; [now apply asc_app|]. apply Forall_app. split; [eapply Forall_impl; [|exact D]; cbn; lia|repeat constructor].
    + intros (L & A & D). destruct (exists_last (l := l)) as (l' & x & ->); [now destruct l|]. rewrite app_length in L. cbn in L. pose proof A as A0. apply asc_app_inv in A0 as [A0 B]. apply Forall_app in D as [D D'].
      inversion D' as [|? ? Dx _]; subst. destruct (Nat.eq_dec x n) as [->|Hx].
      * right. exists l'. split; [reflexivity|]. apply IH. repeat split; [lia|assumption|assumption].
      * left. apply IH. split; [rewrite app_length; cbn; lia|]. split; [assumption|]. apply Forall_app. split; [eapply Forall_impl; [|exact B]; cbn; lia|]. repeat constructor. lia.
Qed.
Lemma subs_nodup n : forall m, NoDup (subs m n).
Proof.
  induction n as [|n IH]; intros [|m]; cbn [subs]; try (repeat constructor; intros []). 
  assert (Hn : NoDup (map (fun l => (l ++ [n])%list) (subs m n))).
  { pose proof (IH m) as N. induction N as [|l r Hi N IHN]; cbn [map]; constructor; [|assumption]. intros Hc. apply in_map_iff in Hc as (l' & He & Hl). apply app_inj_tail in He as [-> _]. contradiction. }
  assert (D : forall l, In l (subs (S m) n) -> ~ In l (map (fun l => (l ++ [n])%list) (subs m n))).
  { intros l Hl Hc. apply in_map_iff in Hc as (l' & <- & _). apply subs_in in Hl as (_ & _ & Dl). apply Forall_app in Dl as [_ Dl]. inversion Dl; lia. }
  pose proof (IH (S m)) as N. induction N as [|l r Hi N IHN]; cbn [app]; [assumption|]. constructor.
  - rewrite in_app_iff. intros [H|H]; [contradiction|]. apply (D l); [now left|assumption].
  - apply IHN. intros l' Hl. apply D. now right.
Qed.

(** ** C332  nChooseM gives the number of combinations that getMCombinationsOfN returns (from a set that is not empty), the binomial coefficient. *)
Theorem C332_counts : forall m n, 0 < n -> n_choose_m n m = binom n m /\
  exists out, (forall fuel, n ^ m <= fuel -> combinations fuel m n = Some out) /\ List.length out = n_choose_m n m.
Proof.
  intros m n Hn. rewrite choose_binom. destruct (Nat.eqb_spec n 0) as [|_]; [lia|]. split; [reflexivity|]. destruct (C07_combinations m n) as (out & Hf & Hin & Nd & _). exists out. split; [assumption|].
  rewrite <- (subs_length n m). apply Permutation_length. apply NoDup_Permutation; [assumption|apply subs_nodup|]. intros l. now rewrite Hin, subs_in.
Qed.
(** of the empty set there is one combination, the empty one, but nChooseM says 0 (the capacity is then too small, and the list is the same) *)
Theorem C332_empty : forall m, n_choose_m 0 m = 0 /\ exists out, (forall fuel, combinations fuel m 0 = Some out) /\ List.length out = if m =? 0 then 1 else 0.
Proof.
  intros m. split; [rewrite choose_binom; reflexivity|]. destruct m as [|m]; [exists [[]]|exists []]; split; intros; reflexivity.
Qed.
(** complement: the others, in ascending order *)
Lemma compl_in l : forall count i, StronglySorted lt l -> Forall (fun x => i <= x) l -> StronglySorted lt (compl_loop l i count) /\ forall x, In x (compl_loop l i count) <-> i <= x < i + count /\ ~ In x l.
Proof.
  intros count. revert l. induction count as [|c IH]; intros l i A F; cbn [compl_loop]; [split; [constructor|]; intros x; split; [intros []|lia]|].
  assert (G : forall l', StronglySorted lt l' -> Forall (fun x => S i <= x) l' ->
    StronglySorted lt (i :: compl_loop l' (S i) c) /\ forall x, In x (i :: compl_loop l' (S i) c) <-> i <= x < i + S c /\ ~ In x l').
  { intros l' A' F'. destruct (IH l' (S i) A' F') as [S1 I1]. split.
    - constructor; [exact S1|]. apply Forall_forall. intros x Hx. apply I1 in Hx. lia.
    - intros x. cbn [In]. rewrite I1. split; [intros [<-|H]; [|split; [lia|tauto]]|].
      + split; [lia|]. rewrite Forall_forall in F'. intros Hx. apply F' in Hx. lia.
      + intros [H N]. destruct (Nat.eq_dec i x); [now left|right]. split; [lia|assumption]. }
  destruct l as [|y l]; [apply G; constructor|]. inversion A as [|? ? A' F']; subst. inversion F as [|? ? Hy Fy]; subst. destruct (Nat.eqb_spec i y) as [<-|Hne].
  - destruct (IH l (S i) A') as [S1 I1]; [eapply Forall_impl; [|exact F']; cbn; lia|]. split; [assumption|]. intros x. rewrite I1. cbn [In]. rewrite Forall_forall in F'.
    split; [intros [H N]; split; [lia|]; intros [->|Hx]; [lia|contradiction]|]. intros [H N]. split; [|tauto]. destruct (Nat.eq_dec i x); [tauto|lia].
  - apply G; [assumption|]. constructor; [lia|]. eapply Forall_impl; [|exact F']. cbn. lia.
Qed.
Theorem C332_complement : forall m n l, combination m n l -> combination (n - m) n (complement l n) /\ forall x, In x (complement l n) <-> x < n /\ ~ In x l.
Proof.
  intros m n l (L & A & D). assert (E : complement l n = compl_loop l 0 n).
  { destruct l; [|reflexivity]. cbn [complement]. unfold range_int. rewrite Nat.sub_0_r. clear. generalize 0. induction n as [|n IH]; intros i; [reflexivity|]. cbn [compl_loop seq]. now rewrite <- IH. }
  rewrite E. destruct (compl_in l n 0 A) as [S1 I1]; [apply Forall_forall; lia|]. split; [|intros x; rewrite I1; split; intros [? ?]; split; auto; lia].
  split; [|split; [assumption|apply Forall_forall; intros x Hx; apply I1 in Hx; lia]].
  assert (N : forall l', StronglySorted lt l' -> NoDup l').
  { intros l' A'. induction A' as [|x l' A' IH F]; constructor; auto. intros Hi. rewrite Forall_forall in F. specialize (F x Hi). lia. }
  assert (P : Permutation (seq 0 n) (l ++ compl_loop l 0 n)).
  { apply NoDup_Permutation; [apply seq_NoDup| |].
    - assert (Dj : forall x, In x l -> ~ In x (compl_loop l 0 n)) by (intros x Hx Hc; apply I1 in Hc; tauto).
      pose proof (N _ A) as Nl. pose proof (N _ S1) as Nc. remember (compl_loop l 0 n) as q. clear - Nl Nc Dj. induction Nl as [|x l Hi Nl IH]; [assumption|]. cbn [app]. constructor.
      + rewrite in_app_iff. intros [H|H]; [contradiction|]. apply (Dj x); [now left|assumption].
      + apply IH. intros y Hy. apply Dj. now right.
    - intros x. rewrite in_seq, in_app_iff, I1. rewrite Forall_forall in D. destruct (in_dec Nat.eq_dec x l) as [Hi|Hi]; [apply D in Hi as Hd; split; [tauto|lia]|]. split; [intros H; right; split; [lia|assumption]|intros [H|H]; [contradiction|lia]]. }
  apply Permutation_length in P. rewrite seq_length, app_length in P. lia.
Qed.
Theorem C332_match : forall a b, match_combination a b = true <-> a = b.
Proof.
  induction a as [|x a IH]; intros [|y b]; cbn [match_combination]; try (split; [discriminate|discriminate]); [tauto|]. rewrite andb_true_iff, IH, Nat.eqb_eq. split; [intros [-> ->]; reflexivity|]. intros H. injection H as -> ->. auto.
Qed.
Example C332_example : n_choose_m 6 4 = 15 /\ n_choose_m 6 2 = 15 /\ n_choose_m 3 5 = 0 /\ combination 2 5 [1; 3] /\ complement [1; 3] 5 = [0; 2; 4] /\ complement [] 3 = [0; 1; 2].
Proof. repeat split; try reflexivity; repeat constructor. Qed.
Print Assumptions C332_counts. Print Assumptions C332_empty. Print Assumptions C332_complement. Print Assumptions C332_match.
