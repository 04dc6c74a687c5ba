(** Proofs about PrModel, continued: the calls. *)
From Coq Require Import String List Arith Bool Lia.
From Verif Require Import GoBase PrModel PrSpec PrProofs.
Import ListNotations.
Local Open Scope list_scope.
Local Open Scope nat_scope.

Notation vl := (list (nat * list string)).
Definition vpush (s : vl) (v : nat) (x : string) : vl := put_nth s v (fst (at_ [] s v), snd (at_ [] s v) ++ [x]).
Definition vpushes (s : vl) (v : nat) (xs : list string) : vl := fold_left (fun s x => vpush s v x) xs s.
Lemma pushes_v (s : vl) v xs : pushes (W := value_store) s v xs = vpushes s v xs. Proof. reflexivity. Qed.
Definition fams (s : vl) : Prop := forall i, i < List.length s -> fst (at_ [] s i) < List.length s.
Definition own (s : vl) (v : nat) : Prop := forall i, i < List.length s -> i <> v -> fst (at_ [] s i) <> fst (at_ [] s v).

Lemma vpush_len s v x : List.length (vpush s v x) = List.length s.
Proof. apply put_nth_length. Qed.
Lemma vpush_fst s v x i : fst (at_ [] (vpush s v x) i) = fst (at_ [] s i).
Proof. unfold vpush. rewrite at_put. destruct (Nat.eqb_spec i v) as [->|]; cbn [andb]; [destruct (v <? List.length s); reflexivity|reflexivity]. Qed.
Lemma vpush_other s v x i : i <> v -> at_ [] (vpush s v x) i = at_ [] s i.
Proof. intros Hne. unfold vpush. rewrite at_put. destruct (Nat.eqb_spec i v); [contradiction|reflexivity]. Qed.
Lemma vpush_longest s v x : longest s v = true -> longest (vpush s v x) v = true.
Proof.
  intros Hl. destruct (Nat.lt_ge_cases v (List.length s)) as [Hv|Hv].
  2:{ unfold vpush. rewrite put_out by exact Hv. exact Hl. }
  unfold longest. apply forallb_forall. intros e He. apply In_nth_error in He. destruct He as [i Hi].
  assert (Hil : i < List.length s). { rewrite <- (vpush_len s v x). apply nth_error_Some. rewrite Hi. discriminate. }
  rewrite at_in with (z := []) in Hi by (rewrite vpush_len; exact Hil). injection Hi as <-. rewrite !vpush_fst.
  destruct (Nat.eqb_spec (fst (at_ [] s i)) (fst (at_ [] s v))) as [E|]; [|reflexivity]. cbn. apply Nat.leb_le.
  pose proof (longest_spec s v i Hl Hil E) as Hle. unfold vpush. rewrite !at_put, Nat.eqb_refl, (proj2 (Nat.ltb_lt _ _) Hv). cbn [andb snd]. rewrite app_length.
  destruct (i =? v); cbn [andb snd]; [rewrite app_length; lia|lia].
Qed.
Lemma own_longest s v : own s v -> longest s v = true.
Proof.
  intros Ho. unfold longest. apply forallb_forall. intros e He. apply In_nth_error in He. destruct He as [i Hi].
  assert (Hil : i < List.length s) by (apply nth_error_Some; rewrite Hi; discriminate). rewrite at_in with (z := []) in Hi by exact Hil. injection Hi as <-.
  destruct (Nat.eq_dec i v) as [->|Hne]; [rewrite Nat.leb_refl, orb_true_r; reflexivity|].
  rewrite (proj2 (Nat.eqb_neq _ _) (Ho i Hil Hne)). reflexivity.
Qed.
Lemma vpushes_len xs : forall s v, List.length (vpushes s v xs) = List.length s.
Proof. induction xs; intros; [reflexivity|]. unfold vpushes in *. cbn [fold_left]. rewrite IHxs. apply vpush_len. Qed.
Lemma vpushes_fst xs : forall s v i, fst (at_ [] (vpushes s v xs) i) = fst (at_ [] s i).
Proof. induction xs; intros; [reflexivity|]. unfold vpushes in *. cbn [fold_left]. rewrite IHxs. apply vpush_fst. Qed.
Lemma vpushes_other xs : forall s v i, i <> v -> at_ [] (vpushes s v xs) i = at_ [] s i.
Proof. induction xs; intros; [reflexivity|]. unfold vpushes in *. cbn [fold_left]. rewrite IHxs by assumption. apply vpush_other. assumption. Qed.
Lemma vpushes_own xs s v w : own s w -> own (vpushes s v xs) w.
Proof. intros Ho i. rewrite vpushes_len, !vpushes_fst. apply Ho. Qed.
Lemma vpushes_fams xs s v : fams s -> fams (vpushes s v xs).
Proof. intros Hf i. rewrite vpushes_len, !vpushes_fst. apply Hf. Qed.
Lemma Rl_pushes grow xs : (forall n, n < grow n) -> forall g s v, Rl g s -> longest s v = true -> Rl (pushes (W := go_store grow) g v xs) (vpushes s v xs).
Proof.
  intros Hgrow. induction xs as [|x xs IH]; intros g s v HR Hl; [exact HR|].
  change (Rl (pushes (W := go_store grow) (g_push grow g v x) v xs) (vpushes (vpush s v x) v xs)). apply IH; [apply Rl_push; assumption|apply vpush_longest, Hl].
Qed.
Lemma fams_make s xs : fams s -> fams (s ++ [(List.length s, xs)]).
Proof.
  intros Hf i Hi. rewrite app_length in *. cbn [List.length] in *. destruct (Nat.eq_dec i (List.length s)) as [->|Hne]; [rewrite at_last; cbn; lia|].
  assert (i < List.length s) by lia. rewrite at_app by assumption. specialize (Hf i ltac:(assumption)). lia.
Qed.
Lemma fams_share s v : fams s -> fams (s ++ [at_ [] s v]).
Proof.
  intros Hf i Hi. rewrite app_length in *. cbn [List.length] in *. destruct (Nat.eq_dec i (List.length s)) as [->|Hne].
  - rewrite at_last. destruct (Nat.lt_ge_cases v (List.length s)) as [H|H]; [specialize (Hf v H); lia|rewrite at_out by exact H; cbn; lia].
  - assert (i < List.length s) by lia. rewrite at_app by assumption. specialize (Hf i ltac:(assumption)). lia.
Qed.
Lemma own_make s xs : fams s -> own (s ++ [(List.length s, xs)]) (List.length s).
Proof.
  intros Hf i Hi Hne. rewrite app_length in Hi. cbn in Hi. assert (Hil : i < List.length s) by lia. rewrite at_last, at_app by exact Hil. cbn. specialize (Hf i Hil). lia.
Qed.
Lemma own_keep s xs v : fams s -> v < List.length s -> own s v -> own (s ++ [(List.length s, xs)]) v.
Proof.
  intros Hf Hv Ho i Hi Hne. rewrite app_length in Hi. cbn in Hi. rewrite (at_app [] s _ v) by exact Hv. destruct (Nat.eq_dec i (List.length s)) as [->|].
  - rewrite at_last. cbn. specialize (Hf v Hv). lia.
  - rewrite at_app by lia. apply Ho; lia.
Qed.

(** ** The two machines run together *)
Definition in_range (w : world value_store) : Prop := forall i p m, nth_error (w_pres w) i = Some p -> p_fields p = Some m -> m < List.length (w_m w).
Definition R grow (g : world (go_store grow)) (w : world value_store) : Prop :=
  w_pres g = w_pres w /\ w_lists g = w_lists w /\ Rl (w_l g) (w_l w) /\ Rm (w_m g) (w_m w) /\ fams (w_l w) /\ in_range w.
Lemma R_see grow g w i : R grow g w -> see g i = see w i.
Proof.
  intros (Hp & _ & Hl & Hm & _ & Hr). unfold see. rewrite Hp. destruct (nth_error (w_pres w) i) as [p|] eqn:E; [|reflexivity]. cbn [l_read m_read go_store value_store].
  rewrite !(Rl_read _ _ _ Hl). destruct (p_fields p) as [m|] eqn:Em; [|reflexivity]. rewrite (Rm_read _ _ _ Hm (Hr i p m E Em)). reflexivity.
Qed.
Lemma R_see_list grow g w h : R grow g w -> see_list g h = see_list w h.
Proof. intros (_ & Hh & Hl & _). unfold see_list. rewrite Hh. destruct (nth_error (w_lists w) h); [|reflexivity]. cbn [l_read go_store value_store]. rewrite (Rl_read _ _ _ Hl). reflexivity. Qed.
Lemma range_app w (l : vl) m p ls : in_range w -> List.length (w_m w) <= List.length m -> (forall k, p_fields p = Some k -> k < List.length m) ->
  in_range (Build_world (W := value_store) l m (w_pres w ++ [p]) ls).
Proof.
  intros Hr Hle Hk i q k. cbn [w_pres w_m]. intros Hi Hq. destruct (Nat.lt_ge_cases i (List.length (w_pres w))) as [H|H].
  - rewrite nth_error_app1 in Hi by exact H. specialize (Hr i q k Hi Hq). lia.
  - rewrite nth_error_app2 in Hi by exact H. destruct (i - List.length (w_pres w)) as [|d]; [injection Hi as <-; apply Hk, Hq|]. cbn in Hi. destruct d; discriminate Hi.
Qed.
Lemma range_set w i p q : in_range w -> nth_error (w_pres w) i = Some p -> p_fields q = p_fields p -> in_range (set_pres value_store w i q).
Proof.
  intros Hr Hp Hf j x k. cbn [set_pres w_pres w_m]. rewrite nth_put. destruct (Nat.eqb_spec j i) as [->|]; cbn [andb]; [|apply Hr].
  destruct (i <? List.length (w_pres w)); [|apply Hr]. intros E Hx. injection E as <-. rewrite Hf in Hx. exact (Hr i p k Hp Hx).
Qed.
Lemma R_clone grow g w i p jwt : R grow g w -> nth_error (w_pres w) i = Some p -> R grow (clone g p jwt) (clone w p jwt).
Proof.
  intros (Hp & Hh & Hl & Hm & Hf & Hr) Hi. unfold clone. cbn [l_share m_share l_count m_count go_store value_store w_l w_m w_pres w_lists].
  assert (Hn : List.length (g_vars (w_l g)) = List.length (w_l w)) by apply Hl. assert (Hnm : List.length (g_refs (w_m g)) = List.length (w_m w)) by apply Hm.
  unfold R. cbn [w_l w_m w_pres w_lists]. rewrite Hp, Hh, Hn, Hnm. split; [reflexivity|]. split; [reflexivity|]. split; [|split; [|split]].
  - apply Rl_share, Rl_share, Rl_share, Hl.
  - destruct (p_fields p) as [m|] eqn:Em; [|exact Hm]. apply Rm_share; [exact Hm|exact (Hr i p m Hi Em)].
  - apply fams_share, fams_share, fams_share, Hf.
  - apply range_app; [exact Hr|destruct (p_fields p); [rewrite app_length; lia|lia]|]. cbn [p_fields]. intros k. destruct (p_fields p); [|discriminate]. intros E. injection E as <-. rewrite app_length. cbn. lia.
Qed.
Lemma R_lists grow g w (gl : gomem) (sl : vl) : R grow g w -> Rl gl sl -> fams sl -> R grow (with_lists (go_store grow) g gl) (with_lists value_store w sl).
Proof. intros (Hp & Hh & _ & Hm & _ & Hr) Hl Hf. unfold R, with_lists. cbn [w_l w_m w_pres w_lists]. repeat (split; [assumption|]). exact Hr. Qed.
Lemma R_set grow g w i p q : R grow g w -> nth_error (w_pres w) i = Some p -> p_fields q = p_fields p -> R grow (set_pres (go_store grow) g i q) (set_pres value_store w i q).
Proof.
  intros (Hp & Hh & Hl & Hm & Hf & Hr) Hi Hq. split; [cbn [set_pres w_pres]; rewrite Hp; reflexivity|]. split; [exact Hh|]. split; [exact Hl|]. split; [exact Hm|]. split; [exact Hf|].
  exact (range_set w i p q Hr Hi Hq).
Qed.
Lemma R_handle grow g w h : R grow g w -> handle g h = handle w h.
Proof. intros (_ & Hh & Hl & _). unfold handle. rewrite Hh. cbn [l_count go_store value_store]. rewrite (proj1 Hl). reflexivity. Qed.
Lemma fams_put s v x : fst x = fst (at_ [] s v) -> fams s -> fams (put_nth s v x).
Proof.
  intros E Hf i. rewrite put_nth_length, at_put. intros Hi. destruct (Nat.eqb_spec i v) as [->|]; cbn [andb]; [|apply Hf, Hi]. rewrite (proj2 (Nat.ltb_lt _ _) Hi), E. apply Hf, Hi.
Qed.
Lemma R_step grow g w o : (forall n, n < grow n) -> R grow g w -> fine w o = true -> R grow (step g o) (step w o).
Proof.
  intros Hgrow HR Hfine. pose proof HR as (Hp & Hh & Hl & Hm & Hf & Hr).
  assert (Hn : List.length (g_vars (w_l g)) = List.length (w_l w)) by apply Hl. assert (Hnm : List.length (g_refs (w_m g)) = List.length (w_m w)) by apply Hm.
  destruct o; cbn [step fine] in *.
  - cbn [l_make l_count go_store value_store]. unfold R. cbn [w_l w_m w_pres w_lists]. rewrite Hn, Hh.
    repeat (split; [first [assumption|reflexivity]|]). split; [apply Rl_make, Hl|]. split; [exact Hm|]. split; [apply fams_make, Hf|exact Hr].
  - rewrite (R_handle grow g w h HR). cbn [l_make l_count l_read go_store value_store]. rewrite (Rl_read _ _ _ Hl), Hn, Hp, Hh.
    remember (w_l w ++ [(List.length (w_l w), [])]) as s1 eqn:E1. remember (s1 ++ [(List.length s1, [base])]) as s2 eqn:E2. remember (s2 ++ [(List.length s2, ["VerifiablePresentation"%string])]) as s3 eqn:E3.
    assert (L1 : List.length s1 = List.length (w_l w) + 1) by (rewrite E1, app_length; reflexivity). assert (L2 : List.length s2 = List.length (w_l w) + 2) by (rewrite E2, app_length, L1; cbn; lia).
    assert (F1 : fams s1) by (rewrite E1; apply fams_make, Hf). assert (F2 : fams s2) by (rewrite E2; apply fams_make, F1). assert (F3 : fams s3) by (rewrite E3; apply fams_make, F2).
    assert (O1 : own s1 (List.length (w_l w))) by (rewrite E1; apply own_make, Hf).
    assert (O2 : own s2 (List.length (w_l w))) by (rewrite E2; apply own_keep; [exact F1|lia|exact O1]). assert (O3 : own s3 (List.length (w_l w))) by (rewrite E3; apply own_keep; [exact F2|lia|exact O2]).
    assert (R3 : Rl (g_make (g_make (g_make (w_l g) []) [base]) ["VerifiablePresentation"%string]) s3). { rewrite E3. apply Rl_make. rewrite E2. apply Rl_make. rewrite E1. apply Rl_make, Hl. }
    unfold R. cbn [w_l w_m w_pres w_lists]. split; [reflexivity|]. split; [reflexivity|]. split; [apply Rl_pushes; [exact Hgrow|exact R3|apply own_longest, O3]|]. split; [exact Hm|]. split; [apply vpushes_fams, F3|].
    apply range_app; [exact Hr|lia|]. cbn [p_fields]. discriminate.
  - cbn [l_make l_count l_read m_make m_count go_store value_store]. rewrite Hn, Hnm, Hp, Hh.
    remember (w_l w ++ [(List.length (w_l w), [])]) as s1 eqn:E1. remember (s1 ++ [(List.length s1, [])]) as s2 eqn:E2. remember (s2 ++ [(List.length s2, [])]) as s3 eqn:E3.
    assert (L1 : List.length s1 = List.length (w_l w) + 1) by (rewrite E1, app_length; reflexivity). assert (L2 : List.length s2 = List.length (w_l w) + 2) by (rewrite E2, app_length, L1; cbn; lia).
    assert (F1 : fams s1) by (rewrite E1; apply fams_make, Hf). assert (F2 : fams s2) by (rewrite E2; apply fams_make, F1). assert (F3 : fams s3) by (rewrite E3; apply fams_make, F2).
    assert (O1 : own s1 (List.length (w_l w))) by (rewrite E1; apply own_make, Hf).
    assert (O2 : own s2 (List.length (w_l w))) by (rewrite E2; apply own_keep; [exact F1|lia|exact O1]). assert (O3 : own s3 (List.length (w_l w))) by (rewrite E3; apply own_keep; [exact F2|lia|exact O2]).
    assert (P2 : own s2 (List.length s1)) by (rewrite E2; apply own_make, F1). assert (P3 : own s3 (List.length s1)) by (rewrite E3; apply own_keep; [exact F2|lia|exact P2]).
    assert (Q3 : own s3 (List.length s2)) by (rewrite E3; apply own_make, F2). rewrite L1 in P3. rewrite L2 in Q3.
    assert (R3 : Rl (g_make (g_make (g_make (w_l g) []) []) []) s3). { rewrite E3. apply Rl_make. rewrite E2. apply Rl_make. rewrite E1. apply Rl_make, Hl. }
    unfold R. cbn [w_l w_m w_pres w_lists]. split; [reflexivity|]. split; [reflexivity|]. split; [|split; [apply Rm_make, Hm|split]].
    + apply Rl_pushes; [exact Hgrow| |apply own_longest, vpushes_own, vpushes_own, Q3]. apply Rl_pushes; [exact Hgrow| |apply own_longest, vpushes_own, P3].
      apply Rl_pushes; [exact Hgrow|exact R3|apply own_longest, O3].
    + apply vpushes_fams, vpushes_fams, vpushes_fams, F3.
    + apply range_app; [exact Hr|rewrite app_length; lia|]. cbn [p_fields]. intros k E. injection E as <-. rewrite app_length. cbn. lia.
  - rewrite Hp. destruct (nth_error (w_pres w) p) as [q|]; [|exact HR]. rewrite (R_handle grow g w h HR). cbn [l_read go_store value_store]. rewrite (Rl_read _ _ _ Hl).
    apply R_lists; [exact HR|apply Rl_pushes; assumption|apply vpushes_fams, Hf].
  - rewrite Hp. destruct (nth_error (w_pres w) p) as [q|]; [|exact HR]. cbn [l_push go_store value_store]. apply R_lists; [exact HR|apply Rl_push; assumption|apply fams_put; [reflexivity|exact Hf]].
  - rewrite Hp. destruct (nth_error (w_pres w) p) as [q|]; [|exact HR]. cbn [l_share l_count go_store value_store]. unfold R. cbn [w_l w_m w_pres w_lists]. rewrite Hn, Hh.
    repeat (split; [first [assumption|reflexivity]|]). split; [apply Rl_share, Hl|]. split; [exact Hm|]. split; [apply fams_share, Hf|exact Hr].
  - rewrite Hh. destruct (nth_error (w_lists w) h) as [v|]; [|exact HR]. cbn [l_write go_store value_store]. apply R_lists; [exact HR|apply Rl_write; assumption|apply fams_put; [reflexivity|exact Hf]].
  - rewrite Hh. destruct (nth_error (w_lists w) h) as [v|]; [|exact HR]. cbn [l_push go_store value_store]. apply R_lists; [exact HR|apply Rl_push; assumption|apply fams_put; [reflexivity|exact Hf]].
  - rewrite Hp. destruct (nth_error (w_pres w) p) as [q|] eqn:E; [|exact HR]. eapply R_clone; [exact HR|exact E].
  - rewrite Hp. destruct (nth_error (w_pres w) p) as [q|] eqn:E; [|exact HR]. eapply R_clone; [exact HR|exact E].
  - rewrite Hp. destruct (nth_error (w_pres w) p) as [q|] eqn:E; [|exact HR]. eapply R_set; [exact HR|exact E|reflexivity].
  - rewrite Hp. destruct (nth_error (w_pres w) p) as [q|] eqn:E; [|exact HR]. eapply R_set; [exact HR|exact E|reflexivity].
  - rewrite Hp. destruct (nth_error (w_pres w) p) as [q|] eqn:E; [|exact HR]. eapply R_set; [exact HR|exact E|reflexivity].
  - rewrite Hp. destruct (nth_error (w_pres w) p) as [q|] eqn:E; [|exact HR]. destruct (p_fields q) as [m|] eqn:Em; [|exact HR].
    cbn [m_put go_store value_store]. unfold R. cbn [w_l w_m w_pres w_lists]. split; [first [reflexivity|exact Hp]|]. split; [exact Hh|]. split; [exact Hl|]. split; [apply Rm_put; [exact Hm|exact (Hr p q m E Em)|exact Hfine]|].
    split; [exact Hf|]. intros i x j Hi Hj. cbn [w_m w_pres] in *. rewrite put_nth_length. exact (Hr i x j Hi Hj).
Qed.
Lemma R_run grow : (forall n, n < grow n) -> forall l g w, R grow g w -> fair_from w l = true -> R grow (run g l) (run w l).
Proof.
  intros Hgrow. induction l as [|o l IH]; intros g w HR Hf; [exact HR|]. cbn [fair_from] in Hf. apply andb_prop in Hf. destruct Hf as [Ho Hf].
  cbn [run fold_left]. apply IH; [apply R_step; assumption|exact Hf].
Qed.
Lemma R_start grow : R grow (go_start grow) value_start.
Proof.
  split; [reflexivity|]. split; [reflexivity|]. split; [|split; [|split]].
  - split; [reflexivity|]. split; [intros v; cbn; rewrite (slice_out _ v) by (cbn; lia); rewrite at_out by (cbn; lia); apply good_nil|]. intros i j a Hi. rewrite slice_out in Hi by (cbn; lia). discriminate Hi.
  - split; [reflexivity|]. split; [intros v Hv; cbn in Hv; lia|intros i j Hi; cbn in Hi; lia].
  - intros i Hi. cbn in Hi. lia.
  - intros i p m Hi. destruct i; discriminate Hi.
Qed.
Lemma R_runs grow l : (forall n, n < grow n) -> fair l = true -> R grow (go_run grow l) (value_run l).
Proof. intros Hgrow Hf. apply R_run; [exact Hgrow|apply R_start|exact Hf]. Qed.

(** ** Without sharing, calls change what they name *)
Definition apart (w : world value_store) : Prop :=
  (forall i p f, nth_error (w_pres w) i = Some p -> list_of p f < List.length (w_l w)) /\
  (forall i j p q f f', i <> j -> nth_error (w_pres w) i = Some p -> nth_error (w_pres w) j = Some q -> list_of p f <> list_of q f') /\
  (forall i p f h v, nth_error (w_pres w) i = Some p -> nth_error (w_lists w) h = Some v -> list_of p f <> v) /\
  (forall h v, nth_error (w_lists w) h = Some v -> v < List.length (w_l w)) /\
  (forall i j p q m, i <> j -> nth_error (w_pres w) i = Some p -> nth_error (w_pres w) j = Some q -> p_fields p = Some m -> p_fields q <> Some m) /\
  in_range w.
Lemma nth_snoc {A} (l : list A) x i y : nth_error (l ++ [x]) i = Some y -> (i < List.length l /\ nth_error l i = Some y) \/ (i = List.length l /\ y = x).
Proof.
  intros H. destruct (Nat.lt_ge_cases i (List.length l)) as [Hi|Hi].
  - left. rewrite nth_error_app1 in H by exact Hi. split; assumption.
  - right. rewrite nth_error_app2 in H by exact Hi. destruct (i - List.length l) as [|k] eqn:E; cbn in H; [injection H as <-; split; [lia|reflexivity]|destruct k; discriminate H].
Qed.
Lemma apart_new (w : world value_store) (l : vl) (m : list (nat * gomap json)) p : apart w -> List.length (w_l w) <= List.length l -> List.length (w_m w) <= List.length m ->
  (forall f, List.length (w_l w) <= list_of p f < List.length l) -> (forall k, p_fields p = Some k -> List.length (w_m w) <= k < List.length m) ->
  apart (Build_world (W := value_store) l m (w_pres w ++ [p]) (w_lists w)).
Proof.
  intros (A1 & A2 & A3 & A4 & A5 & A6) Hl Hm Hp Hk. unfold apart. cbn [w_l w_m w_pres w_lists]. repeat split.
  - intros i q f Hi. apply nth_snoc in Hi. destruct Hi as [[_ Hi]|[_ ->]]; [specialize (A1 i q f Hi); cbn in *; lia|apply Hp].
  - intros i j q q' f f' Hij Hi Hj. apply nth_snoc in Hi. apply nth_snoc in Hj. destruct Hi as [[Hli Hi]|[Hli ->]]; destruct Hj as [[Hlj Hj]|[Hlj ->]].
    + exact (A2 i j q q' f f' Hij Hi Hj).
    + specialize (A1 i q f Hi). specialize (Hp f'). cbn in *. lia.
    + specialize (A1 j q' f' Hj). specialize (Hp f). cbn in *. lia.
    + congruence.
  - intros i q f h v Hi Hh. apply nth_snoc in Hi. destruct Hi as [[_ Hi]|[_ ->]]; [exact (A3 i q f h v Hi Hh)|]. specialize (A4 h v Hh). specialize (Hp f). cbn in *. lia.
  - intros h v Hh. specialize (A4 h v Hh). cbn in *. lia.
  - intros i j q q' k Hij Hi Hj Hq Hq'. apply nth_snoc in Hi. apply nth_snoc in Hj. destruct Hi as [[Hli Hi]|[Hli ->]]; destruct Hj as [[Hlj Hj]|[Hlj ->]].
    + exact (A5 i j q q' k Hij Hi Hj Hq Hq').
    + specialize (A6 i q k Hi Hq). specialize (Hk k Hq'). cbn in *. lia.
    + specialize (A6 j q' k Hj Hq'). specialize (Hk k Hq). cbn in *. lia.
    + congruence.
  - apply range_app; [exact A6|exact Hm|]. intros k E. specialize (Hk k E). lia.
Qed.
Lemma apart_handle (w : world value_store) x : apart w -> apart (Build_world (W := value_store) (w_l w ++ [x]) (w_m w) (w_pres w) (w_lists w ++ [List.length (w_l w)])).
Proof.
  intros (A1 & A2 & A3 & A4 & A5 & A6). unfold apart. cbn [w_l w_m w_pres w_lists]. split; [|split; [exact A2|split; [|split; [|split; [exact A5|exact A6]]]]].
  - intros i q f Hi. specialize (A1 i q f Hi). cbn in *. rewrite app_length. lia.
  - intros i q f h v Hi Hh. apply nth_snoc in Hh. destruct Hh as [[_ Hh]|[_ ->]]; [exact (A3 i q f h v Hi Hh)|]. specialize (A1 i q f Hi). cbn in *. lia.
  - intros h v Hh. rewrite app_length. cbn. apply nth_snoc in Hh. destruct Hh as [[_ Hh]|[_ ->]]; [specialize (A4 h v Hh)|]; cbn in *; lia.
Qed.
Lemma apart_same (w : world value_store) (l : vl) (m : list (nat * gomap json)) : apart w -> List.length l = List.length (w_l w) -> List.length m = List.length (w_m w) -> apart (Build_world (W := value_store) l m (w_pres w) (w_lists w)).
Proof.
  intros (A1 & A2 & A3 & A4 & A5 & A6) Hl Hm. unfold apart, in_range in *. cbn [w_l w_m w_pres w_lists] in *. rewrite Hl, Hm. repeat (split; [assumption|]). exact A6.
Qed.
Lemma nth_set w i p j q : nth_error (put_nth (w_pres (W := value_store) w) i p) j = Some q -> (j = i /\ q = p) \/ nth_error (w_pres w) j = Some q.
Proof. rewrite nth_put. destruct (Nat.eqb_spec j i) as [->|]; cbn [andb]; [|auto]. destruct (i <? List.length (w_pres w)); [|auto]. intros E. injection E as <-. left. auto. Qed.
Lemma apart_set (w : world value_store) i p q : apart w -> nth_error (w_pres w) i = Some p -> (forall f, list_of q f = list_of p f) -> p_fields q = p_fields p -> apart (set_pres value_store w i q).
Proof.
  intros (A1 & A2 & A3 & A4 & A5 & A6) Hi Hq Hf.
  assert (Hx : forall j x, nth_error (put_nth (w_pres w) i q) j = Some x -> exists y, nth_error (w_pres w) j = Some y /\ (forall f, list_of x f = list_of y f) /\ p_fields x = p_fields y).
  { intros j x Hj. apply nth_set in Hj. destruct Hj as [[-> ->]|Hj]; [exists p; auto|exists x; auto]. }
  unfold apart, set_pres. cbn [w_l w_m w_pres w_lists]. split; [|split; [|split; [|split; [exact A4|split]]]].
  - intros j x f Hj. destruct (Hx j x Hj) as (y & Hy & E & _). rewrite E. exact (A1 j y f Hy).
  - intros j k x x' f f' Hjk Hj Hk. destruct (Hx j x Hj) as (y & Hy & E & _). destruct (Hx k x' Hk) as (y' & Hy' & E' & _). rewrite E, E'. exact (A2 j k y y' f f' Hjk Hy Hy').
  - intros j x f h v Hj Hh. destruct (Hx j x Hj) as (y & Hy & E & _). rewrite E. exact (A3 j y f h v Hy Hh).
  - intros j k x x' m Hjk Hj Hk. destruct (Hx j x Hj) as (y & Hy & _ & E). destruct (Hx k x' Hk) as (y' & Hy' & _ & E'). rewrite E, E'. exact (A5 j k y y' m Hjk Hy Hy').
  - exact (range_set w i p q A6 Hi Hf).
Qed.
Lemma see_lists (w : world value_store) (l : vl) q : (forall p f, nth_error (w_pres w) q = Some p -> at_ [] l (list_of p f) = at_ [] (w_l w) (list_of p f)) -> see (with_lists value_store w l) q = see w q.
Proof.
  intros H. unfold see, with_lists. cbn [w_pres w_l w_m]. destruct (nth_error (w_pres w) q) as [p|]; [|reflexivity].
  cbn [l_read m_read value_store]. pose proof (H p FCreds eq_refl) as H1. pose proof (H p FContext eq_refl) as H2. pose proof (H p FType eq_refl) as H3. cbn [list_of] in *. rewrite H1, H2, H3. reflexivity.
Qed.
Lemma see_grown (w : world value_store) (l : vl) (m : list (nat * gomap json)) ps ls q : apart w -> q < List.length (w_pres w) ->
  (forall v, v < List.length (w_l w) -> at_ [] l v = at_ [] (w_l w) v) -> (forall v, v < List.length (w_m w) -> at_ no_fields m v = at_ no_fields (w_m w) v) ->
  see (Build_world (W := value_store) l m (w_pres w ++ ps) ls) q = see w q.
Proof.
  intros (A1 & _ & _ & _ & _ & A6) Hq Hl Hm. unfold see. cbn [w_pres w_l w_m]. rewrite nth_error_app1 by exact Hq. destruct (nth_error (w_pres w) q) as [p|] eqn:E; [|reflexivity].
  cbn [l_read m_read value_store]. rewrite (Hl (p_creds p) (A1 q p FCreds E)), (Hl (p_context p) (A1 q p FContext E)), (Hl (p_type p) (A1 q p FType E)).
  destruct (p_fields p) as [k|] eqn:Ek; [|reflexivity]. rewrite (Hm k (A6 q p k E Ek)). reflexivity.
Qed.
Lemma at_app_l s x v : v < List.length s -> at_ ([] : list string) (s ++ x) v = at_ [] s v.
Proof. intros Hv. unfold at_. rewrite nth_error_app1 by exact Hv. destruct (nth_error s v) eqn:E; [reflexivity|]. apply nth_error_None in E. lia. Qed.
Lemma apart_step (w : world value_store) o : apart w -> apart (step w o).
Proof.
  intros HA. destruct o; cbn [step].
  - apply apart_handle, HA.
  - cbn [l_make l_count l_read value_store]. apply apart_new; [exact HA| |lia| |cbn [p_fields]; discriminate].
    + rewrite !pushes_v. rewrite vpushes_len, !app_length. cbn. lia.
    + intros f. rewrite !pushes_v. rewrite vpushes_len, !app_length. destruct f; cbn; lia.
  - cbn [l_make l_count l_read m_make m_count value_store]. rewrite !pushes_v. apply apart_new; [exact HA| | | |]; rewrite ?vpushes_len, ?app_length; cbn [List.length]; try (cbn; lia).
    + intros f. destruct f; cbn; lia.
    + cbn [p_fields]. intros k E. injection E as <-. cbn. lia.
  - destruct (nth_error (w_pres w) p); [|exact HA]. apply apart_same; [exact HA|apply vpushes_len|reflexivity].
  - destruct (nth_error (w_pres w) p); [|exact HA]. apply apart_same; [exact HA|apply put_nth_length|reflexivity].
  - destruct (nth_error (w_pres w) p); [|exact HA]. apply apart_handle, HA.
  - destruct (nth_error (w_lists w) h); [|exact HA]. apply apart_same; [exact HA|apply put_nth_length|reflexivity].
  - destruct (nth_error (w_lists w) h); [|exact HA]. apply apart_same; [exact HA|apply put_nth_length|reflexivity].
  - destruct (nth_error (w_pres w) p) as [q|]; [|exact HA]. apply apart_new; [exact HA| | | |]; cbn [l_share m_share l_count m_count value_store p_fields].
    + rewrite !app_length. cbn. lia.
    + destruct (p_fields q); [rewrite app_length; cbn; lia|cbn; lia].
    + intros f. rewrite !app_length. destruct f; cbn; lia.
    + intros k. destruct (p_fields q); [|discriminate]. intros E. injection E as <-. rewrite app_length. cbn. lia.
  - destruct (nth_error (w_pres w) p) as [q|]; [|exact HA]. apply apart_new; [exact HA| | | |]; cbn [l_share m_share l_count m_count value_store p_fields].
    + rewrite !app_length. cbn. lia.
    + destruct (p_fields q); [rewrite app_length; cbn; lia|cbn; lia].
    + intros f. rewrite !app_length. destruct f; cbn; lia.
    + intros k. destruct (p_fields q); [|discriminate]. intros E. injection E as <-. rewrite app_length. cbn. lia.
  - destruct (nth_error (w_pres w) p) as [q|] eqn:E; [|exact HA]. eapply apart_set; [exact HA|exact E|intros []; reflexivity|reflexivity].
  - destruct (nth_error (w_pres w) p) as [q|] eqn:E; [|exact HA]. eapply apart_set; [exact HA|exact E|intros []; reflexivity|reflexivity].
  - destruct (nth_error (w_pres w) p) as [q|] eqn:E; [|exact HA]. eapply apart_set; [exact HA|exact E|intros []; reflexivity|reflexivity].
  - destruct (nth_error (w_pres w) p) as [q|] eqn:E; [|exact HA]. destruct (p_fields q); [|exact HA]. apply apart_same; [exact HA|reflexivity|apply put_nth_length].
Qed.
Lemma see_set (w : world value_store) i p q : i <> q -> see (set_pres value_store w i p) q = see w q.
Proof. intros Hne. unfold see, set_pres. cbn [w_pres w_l w_m]. rewrite nth_put. destruct (Nat.eqb_spec q i); [congruence|]. reflexivity. Qed.
Lemma see_step (w : world value_store) o q : apart w -> q < List.length (w_pres w) -> names q o = false -> see (step w o) q = see w q.
Proof.
  intros HA Hq Hn. pose proof HA as (A1 & A2 & A3 & A4 & A5 & A6). destruct o; cbn [step names] in *.
  - rewrite <- (app_nil_r (w_pres w)) at 1. apply see_grown; [exact HA|exact Hq| |reflexivity]. intros v Hv. apply at_app_l, Hv.
  - apply see_grown; [exact HA|exact Hq| |reflexivity]. intros v Hv. cbn [l_make l_count l_read value_store]. rewrite !pushes_v.
    rewrite vpushes_other by (cbn in *; lia). rewrite <- !app_assoc. apply at_app_l, Hv.
  - apply see_grown; [exact HA|exact Hq| |].
    + intros v Hv. cbn [l_make l_count l_read value_store]. rewrite !pushes_v. cbn in Hv. rewrite !vpushes_other by lia. rewrite <- !app_assoc. apply at_app_l, Hv.
    + intros v Hv. cbn [m_make value_store]. apply at_app, Hv.
  - destruct (nth_error (w_pres w) p) as [z|] eqn:E; [|reflexivity]. apply see_lists. intros y f Hy. rewrite !pushes_v. apply vpushes_other.
    apply Nat.eqb_neq in Hn. exact (A2 q p y z f FCreds ltac:(congruence) Hy E).
  - destruct (nth_error (w_pres w) p) as [z|] eqn:E; [|reflexivity]. apply see_lists. intros y f' Hy. apply vpush_other. apply Nat.eqb_neq in Hn. exact (A2 q p y z f' f ltac:(congruence) Hy E).
  - destruct (nth_error (w_pres w) p) as [z|] eqn:E; [|reflexivity]. rewrite <- (app_nil_r (w_pres w)) at 1. apply see_grown; [exact HA|exact Hq| |reflexivity]. intros v Hv. apply at_app_l, Hv.
  - destruct (nth_error (w_lists w) h) as [v|] eqn:E; [|reflexivity]. apply see_lists. intros y f Hy. cbn [l_write value_store]. rewrite at_put. pose proof (A3 q y f h v Hy E) as Hne.
    destruct (Nat.eqb_spec (list_of y f) v); [contradiction|reflexivity].
  - destruct (nth_error (w_lists w) h) as [v|] eqn:E; [|reflexivity]. apply see_lists. intros y f Hy. apply vpush_other. exact (A3 q y f h v Hy E).
  - destruct (nth_error (w_pres w) p) as [z|] eqn:E; [|reflexivity]. apply see_grown; [exact HA|exact Hq| |].
    + intros v Hv. cbn [l_share value_store]. rewrite <- !app_assoc. apply at_app_l, Hv.
    + intros v Hv. cbn [m_share value_store]. destruct (p_fields z); [apply at_app, Hv|reflexivity].
  - destruct (nth_error (w_pres w) p) as [z|] eqn:E; [|reflexivity]. apply see_grown; [exact HA|exact Hq| |].
    + intros v Hv. cbn [l_share value_store]. rewrite <- !app_assoc. apply at_app_l, Hv.
    + intros v Hv. cbn [m_share value_store]. destruct (p_fields z); [apply at_app, Hv|reflexivity].
  - destruct (nth_error (w_pres w) p) as [z|] eqn:E; [|reflexivity]. apply see_set. apply Nat.eqb_neq, Hn.
  - destruct (nth_error (w_pres w) p) as [z|] eqn:E; [|reflexivity]. apply see_set. apply Nat.eqb_neq, Hn.
  - destruct (nth_error (w_pres w) p) as [z|] eqn:E; [|reflexivity]. apply see_set. apply Nat.eqb_neq, Hn.
  - destruct (nth_error (w_pres w) p) as [z|] eqn:E; [|reflexivity]. destruct (p_fields z) as [m|] eqn:Em; [|reflexivity]. unfold see. cbn [w_pres w_l w_m].
    destruct (nth_error (w_pres w) q) as [y|] eqn:Ey; [|reflexivity]. destruct (p_fields y) as [m'|] eqn:Em'; [|reflexivity]. cbn [m_read m_put value_store]. rewrite at_put.
    destruct (Nat.eqb_spec m' m) as [->|]; [|reflexivity]. apply Nat.eqb_neq in Hn. destruct (A5 p q z y m Hn E Ey Em Em').
Qed.
Lemma pres_step W (w : world W) o : List.length (w_pres w) <= List.length (w_pres (step w o)).
Proof. destruct o; cbn [step]; repeat (match goal with |- context [match ?x with _ => _ end] => destruct x end); cbn; rewrite ?app_length, ?put_nth_length; cbn; lia. Qed.
Lemma apart_run l : forall w, apart w -> apart (run w l).
Proof. induction l as [|o l IH]; intros w HA; [exact HA|]. apply IH, apart_step, HA. Qed.
Lemma see_run l q : forall w, apart w -> q < List.length (w_pres w) -> (forall o, In o l -> names q o = false) -> see (run w l) q = see w q.
Proof.
  induction l as [|o l IH]; intros w HA Hq Hn; [reflexivity|]. cbn [run fold_left]. change (see (run (step w o) l) q = see w q).
  rewrite IH; [apply see_step; [exact HA|exact Hq|apply Hn; left; reflexivity]|apply apart_step, HA|pose proof (pres_step _ w o); lia|intros x Hx; apply Hn; right; exact Hx].
Qed.
Lemma apart_start : apart value_start.
Proof. repeat split; try (intros i; intros; destruct i; discriminate). Qed.
Lemma run_app W (w : world W) l l2 : run w (l ++ l2) = run (run w l) l2.
Proof. unfold run. apply fold_left_app. Qed.
Lemma fair_app l : forall w l2, fair_from w (l ++ l2) = true -> fair_from w l = true /\ fair_from (run w l) l2 = true.
Proof.
  induction l as [|o l IH]; intros w l2 H; [split; [reflexivity|exact H]|]. cbn [app fair_from] in H. apply andb_prop in H. destruct H as [Ho H]. destruct (IH _ _ H) as [H1 H2].
  split; [cbn [fair_from]; rewrite Ho, H1; reflexivity|exact H2].
Qed.
(** a copy shows what it was made from *)
Lemma see_clone (w : world value_store) p x jwt : apart w -> nth_error (w_pres w) p = Some x ->
  see (clone w x jwt) (List.length (w_pres w)) = match see w p with
    | Some s => Some {| v_creds := v_creds s; v_context := v_context s; v_type := v_type s; v_fields := v_fields s; v_id := v_id s; v_holder := v_holder s; v_jwt := jwt; v_proofs := v_proofs s |}
    | None => None end.
Proof.
  intros (A1 & _ & _ & _ & _ & A6) E. unfold see, clone. cbn [w_pres w_l w_m l_share l_count m_share m_count value_store l_read m_read]. rewrite nth_error_app2, Nat.sub_diag by lia. cbn [nth_error]. rewrite E.
  cbn [p_creds p_context p_type p_fields p_id p_holder p_jwt p_proofs v_creds v_context v_type v_fields v_id v_holder v_proofs].
  pose proof (A1 p x FCreds E) as B1. pose proof (A1 p x FContext E) as B2. pose proof (A1 p x FType E) as B3. cbn [list_of] in *. cbn in B1, B2, B3.
  remember (w_l w) as s eqn:Es. clear Es.
  assert (C1 : at_ [] (s ++ [at_ [] s (p_creds x)]) (List.length s) = at_ [] s (p_creds x)) by apply at_last.
  remember (s ++ [at_ [] s (p_creds x)]) as s1 eqn:E1. assert (L1 : List.length s1 = List.length s + 1) by (rewrite E1, app_length; reflexivity).
  assert (D2 : at_ [] s1 (p_context x) = at_ [] s (p_context x)) by (rewrite E1; apply at_app, B2). assert (D3 : at_ [] s1 (p_type x) = at_ [] s (p_type x)) by (rewrite E1; apply at_app, B3).
  remember (s1 ++ [at_ [] s1 (p_context x)]) as s2 eqn:E2. assert (L2 : List.length s2 = List.length s + 2) by (rewrite E2, app_length, L1; cbn; lia).
  assert (D4 : at_ [] s2 (p_type x) = at_ [] s (p_type x)) by (rewrite E2, at_app by lia; exact D3).
  assert (G1 : at_ [] (s2 ++ [at_ [] s2 (p_type x)]) (List.length s) = at_ [] s (p_creds x)). { rewrite at_app by lia. rewrite E2, at_app by lia. exact C1. }
  assert (G2 : at_ [] (s2 ++ [at_ [] s2 (p_type x)]) (List.length s + 1) = at_ [] s (p_context x)). { rewrite at_app by lia. rewrite E2, <- L1, at_last. exact D2. }
  assert (G3 : at_ [] (s2 ++ [at_ [] s2 (p_type x)]) (List.length s + 2) = at_ [] s (p_type x)). { rewrite <- L2, at_last. exact D4. }
  rewrite G1, G2, G3. destruct (p_fields x) as [m|] eqn:Em; [|reflexivity]. rewrite at_last. reflexivity.
Qed.
