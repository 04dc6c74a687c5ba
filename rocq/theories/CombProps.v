(** Property theorem for the combination generator (C07). *)
From Coq Require Import PeanoNat Lia Sorted Permutation.
From Verif Require Import GoBase CombModel.
Open Scope nat_scope.

(** Specification: the m-element subsets of {0..n-1} as strictly ascending lists; colexicographic order. *)
Definition combination (m n : nat) (l : list nat) : Prop := List.length l = m /\ StronglySorted lt l /\ Forall (fun x => x < n) l.
Definition colex (l l' : list nat) : Prop :=
  exists p p' x y s, l = (p ++ x :: s)%list /\ l' = (p' ++ y :: s)%list /\ List.length p = List.length p' /\ x < y.

(** *** Lists as numbers in base n, the last element being the most significant digit. *)
Section Val.
  Context (n : nat).
  Fixpoint val (l : list nat) : nat := match l with [] => 0 | x :: l' => x + n * val l' end.
  Definition dig (l : list nat) : Prop := Forall (fun x => x < n) l.
  Lemma val_app a b : val (a ++ b) = val a + n ^ List.length a * val b.
  Proof. induction a as [|x a IH]; cbn [app val List.length Nat.pow]; [lia|]. rewrite IH. nia. Qed.
  Lemma val_lt a : dig a -> val a < n ^ List.length a.
  Proof.
    induction 1 as [|x a Hx Ha IH]; cbn [val List.length Nat.pow]; [lia|].
    assert (n * (val a + 1) <= n * n ^ List.length a) by (apply Nat.mul_le_mono_l; lia). lia.
  Qed.
  Lemma val_inj a : forall b, dig a -> dig b -> List.length a = List.length b -> val a = val b -> a = b.
  Proof.
    induction a as [|x a IH]; intros [|y b] Ha Hb Hl Hv; try discriminate; [reflexivity|].
    inversion Ha; inversion Hb; subst. cbn [val] in Hv. injection Hl as Hl.
    assert (x = y /\ val a = val b) as [-> Hv'].
    { assert (x + n * val a = y + n * val b) by lia. destruct (Nat.lt_trichotomy (val a) (val b)) as [Q|[Q|Q]]; nia. }
    f_equal. apply IH; auto.
  Qed.
  Lemma val_colex a : forall b, dig a -> dig b -> List.length a = List.length b -> val a < val b -> colex a b.
  Proof.
    induction a as [|x a IH]; intros [|y b] Ha Hb Hl Hv; try discriminate; [cbn in Hv; lia|].
    inversion Ha; inversion Hb; subst. cbn [val] in Hv. injection Hl as Hl.
    destruct (Nat.lt_trichotomy (val a) (val b)) as [Q|[Q|Q]].
    - destruct (IH b) as (p & p' & u & w & s & -> & -> & Hp & Huw); auto.
      exists (x :: p), (y :: p'), u, w, s. cbn. repeat split; auto.
    - apply val_inj in Q; auto. subst b. exists [], [], x, y, a. repeat split; auto. nia.
    - nia.
  Qed.
End Val.

(** *** Ascending lists *)
Lemma asc_seq a k : StronglySorted lt (seq a k).
Proof.
  revert a. induction k as [|k IH]; intros a; cbn [seq]; constructor; auto. apply Forall_forall. intros x Hx. apply in_seq in Hx. lia.
Qed.
Lemma asc_app a b : StronglySorted lt (a ++ b) -> StronglySorted lt a /\ StronglySorted lt b /\ forall x y, In x a -> In y b -> x < y.
Proof.
  induction a as [|x a IH]; cbn [app]; intros H; [repeat split; auto using SSorted_nil; intros ? ? []|].
  inversion H as [|? ? H1 H2]; subst. destruct (IH H1) as (A & B & C). rewrite Forall_forall in H2. repeat split; auto.
  - constructor; auto. apply Forall_forall. intros z Hz. apply H2, in_app_iff. now left.
  - intros z y [<-|Hz] Hy; [apply H2, in_app_iff; now right|auto].
Qed.
Lemma asc_app_intro a b : StronglySorted lt a -> StronglySorted lt b -> (forall x y, In x a -> In y b -> x < y) -> StronglySorted lt (a ++ b).
Proof.
  induction a as [|x a IH]; cbn [app]; intros A B C; [assumption|]. inversion A as [|? ? H1 H2]; subst. constructor.
  - apply IH; auto. intros; apply C; auto. now right.
  - apply Forall_forall. intros z Hz. apply in_app_iff in Hz as [Hz|Hz]; [rewrite Forall_forall in H2; auto|apply C; auto; now left].
Qed.
(** the smallest and the largest values of an ascending list *)
Lemma asc_val_ge n l : forall k, StronglySorted lt l -> Forall (fun x => k <= x) l -> val n (seq k (List.length l)) <= val n l.
Proof.
  induction l as [|x l IH]; intros k A F; cbn [List.length seq val]; [lia|]. inversion A as [|? ? A1 A2]; inversion F; subst.
  assert (val n (seq (S k) (List.length l)) <= val n l). { apply IH; auto. eapply Forall_impl; [|exact A2]. cbn. lia. }
  nia.
Qed.
Lemma asc_val_le n l : forall a, StronglySorted lt l -> Forall (fun x => x < a + List.length l) l -> val n l <= val n (seq a (List.length l)).
Proof.
  assert (G : forall l a, StronglySorted lt l -> Forall (fun x => x < a + List.length l) l -> forall x l', l = x :: l' -> x <= a).
  { clear. induction l as [|x l IH]; intros a A F y l' [= <- <-]. inversion A as [|? ? A1 A2]; inversion F; subst.
    destruct l as [|z l]; [cbn [List.length] in *; lia|]. assert (z <= S a); [|inversion A2; lia].
    apply (IH (S a)) with (l' := l); auto. eapply Forall_impl; [|eassumption]. cbn [List.length]. lia. }
  induction l as [|x l IH]; intros a A F; cbn [List.length seq val]; [lia|].
  assert (x <= a) by (eapply G; eauto). inversion A as [|? ? A1 A2]; inversion F; subst.
  assert (val n l <= val n (seq (S a) (List.length l))). { apply IH; auto. eapply Forall_impl; [|eassumption]. cbn [List.length]. lia. }
  nia.
Qed.

(** *** Gaps: indices whose successor value is absent (and below n) *)
Fixpoint gaps (n k : nat) (l : list nat) : list nat :=
  match l with
  | [] => []
  | x :: l' => let r := gaps n (S k) l' in
               if x + 1 <? match l' with [] => n | y :: _ => y end then k :: r else r
  end.
Lemma gaps_ge n l : forall k g, In g (gaps n k l) -> k <= g.
Proof.
  induction l as [|x l IH]; intros k g H; cbn [gaps] in H; [contradiction|].
  destruct (x + 1 <? _); [destruct H as [<-|H]; [lia|]|]; apply IH in H; lia.
Qed.
(** the first gap, and what precedes it *)
Lemma gaps_first n l : forall k g gs, StronglySorted lt l -> gaps n k l = g :: gs ->
  exists a rest, l = (seq a (S (g - k)) ++ rest)%list /\ k <= g /\ a + (g - k) + 1 < match rest with [] => n | y :: _ => y end
    /\ gs = gaps n (S g) rest.
Proof.
  induction l as [|x l IH]; intros k g gs A H; cbn [gaps] in H; [discriminate|]. inversion A as [|? ? A1 A2]; subst.
  destruct (x + 1 <? match l with [] => n | y :: _ => y end) eqn:E.
  - injection H as <- <-. apply Nat.ltb_lt in E. exists x, l. rewrite Nat.sub_diag. cbn [seq app]. repeat split; auto; lia.
  - apply Nat.ltb_ge in E. destruct (IH (S k) g gs A1 H) as (a & rest & -> & Hk & Hlt & Hgs).
    exists x, rest. assert (a = S x).
    { cbn [seq app] in A2, E. inversion A2; subst. lia. }
    subst a. replace (S (g - k)) with (S (S (g - S k))) by lia. repeat split; try lia; auto.
Qed.
Lemma gaps_none n l : forall k, StronglySorted lt l -> Forall (fun x => x < n) l -> gaps n k l = [] -> exists a, l = seq a (List.length l) /\ (l <> [] -> a + List.length l = n).
Proof.
  induction l as [|x l IH]; intros k A F H; [exists 0; split; [reflexivity|congruence]|]. cbn [gaps] in H.
  inversion A as [|? ? A1 A2]; inversion F; subst.
  destruct (x + 1 <? match l with [] => n | y :: _ => y end) eqn:E; [discriminate|]. apply Nat.ltb_ge in E.
  destruct (IH (S k) A1) as (a & Hl & Hn); auto. exists x. destruct l as [|y l].
  - cbn. split; [reflexivity|lia].
  - cbn [List.length seq] in Hl |- *. injection Hl as Hy Hl'. subst a. inversion A2; subst. split; [|intros _; specialize (Hn ltac:(discriminate)); cbn [List.length] in *; lia].
    replace y with (S x) in * by lia. f_equal. f_equal. assumption.
Qed.
(** gaps of a run followed by something *)
Lemma gaps_run n j : forall a k rest, gaps n k (seq a j ++ rest) =
  match j with
  | O => gaps n k rest
  | S j' => if a + j' + 1 <? match rest with [] => n | y :: _ => y end then (k + j') :: gaps n (k + j) rest else gaps n (k + j) rest
  end.
Proof.
  induction j as [|j IH]; intros a k rest; [reflexivity|]. cbn [seq app gaps]. rewrite IH. destruct j as [|j].
  - cbn [seq app]. rewrite !Nat.add_0_r. replace (k + 1) with (S k) by lia. reflexivity.
  - cbn [seq app]. destruct (Nat.ltb_spec (a + 1) (S a)); [lia|].
    replace (S a + j) with (a + S j) by lia. replace (S k + j) with (k + S j) by lia. replace (S k + S j) with (k + S (S j)) by lia. reflexivity.
Qed.

(** *** One round of the loop goes to the next combination in colexicographic order *)
Lemma upd_app (a : list nat) x y b : upd (a ++ x :: b) (List.length a) y = (a ++ y :: b)%list.
Proof. induction a as [|z a IH]; cbn [app upd List.length]; [reflexivity|]. now rewrite IH. Qed.
Lemma at_app (a : list nat) x b : at_ (a ++ x :: b) (List.length a) = x.
Proof. unfold at_. rewrite app_nth2 by lia. now rewrite Nat.sub_diag. Qed.
Lemma shift_run j : forall a s rest, s <= a -> shift j s (seq a j ++ rest) = (seq (a - s) j ++ rest)%list.
Proof.
  induction j as [|j IH]; intros a s rest H; [reflexivity|]. cbn [seq app shift]. rewrite IH by lia.
  replace (S a - s) with (S (a - s)) by lia. reflexivity.
Qed.
(** invariant of the loop: the stack holds the gaps, and comb[0] is 0 unless a shift is due *)
Definition good (m n : nat) (s : cstate) : Prop :=
  combination m n (cs_comb s) /\ cs_gaps s = gaps n 0 (cs_comb s) /\ (cs_shifting s = false -> at_ (cs_comb s) 0 = 0).
Lemma step_next m n s g gs : good m n s -> cs_gaps s = g :: gs ->
  let s' := comb_step m n (cs_comb s) g gs (cs_shifting s) in
  good m n s' /\ val n (cs_comb s) < val n (cs_comb s')
  /\ forall z, combination m n z -> val n (cs_comb s) < val n z -> val n (cs_comb s') <= val n z.
Proof.
  intros (( Hlen & Hasc & Hdig) & Hg & Hsh) Hs. cbv zeta. rewrite Hg in Hs.
  destruct (gaps_first n _ 0 g gs Hasc Hs) as (a & rest & Hc & _ & Hlt & Hgs). rewrite Nat.sub_0_r in *.
  assert (Hc' : cs_comb s = (seq a g ++ (a + g) :: rest)%list) by (rewrite Hc, seq_S, <- app_assoc; reflexivity).
  set (comb' := (seq 0 g ++ (a + g + 1) :: rest)%list).
  assert (Hm : m = g + 1 + List.length rest) by (rewrite <- Hlen, Hc', app_length, seq_length; cbn [List.length]; lia).
  assert (Hat : at_ (cs_comb s) g = a + g). { rewrite Hc'. pose proof (at_app (seq a g) (a + g) rest) as H. now rewrite seq_length in H. }
  assert (Hat1 : forall y r, rest = y :: r -> at_ (cs_comb s) (g + 1) = y).
  { intros y r ->. pose proof (at_app (seq a (S g)) y r) as H. rewrite seq_length in H. rewrite Hc. now replace (g + 1) with (S g) by lia. }
  assert (Hdr : Forall (fun x => x < n) rest). { rewrite Hc' in Hdig. apply Forall_app in Hdig as [_ Hd]. now inversion Hd. }
  assert (Hn : a + g + 1 < n) by (destruct rest as [|y r]; [assumption|]; inversion Hdr; lia).
  assert (Hag : forall y r, rest = y :: r -> forall z, In z rest -> y <= z).
  { intros y r -> z Hz. rewrite Hc' in Hasc. apply asc_app in Hasc as (_ & H & _). inversion H as [|? ? H1 H2]; subst. inversion H1 as [|? ? H3 H4]; subst.
    rewrite Forall_forall in H4. destruct Hz as [->|Hz]; [lia|]. specialize (H4 _ Hz). lia. }
  (* the new combination *)
  assert (Hstep : cs_comb (comb_step m n (cs_comb s) g gs (cs_shifting s)) = comb'
     /\ (cs_shifting (comb_step m n (cs_comb s) g gs (cs_shifting s)) = false -> at_ comb' 0 = 0)).
  { unfold comb_step. rewrite Hat. assert (U : upd (cs_comb s) g (a + g + 1) = (seq a g ++ (a + g + 1) :: rest)%list).
    { rewrite Hc'. pose proof (upd_app (seq a g) (a + g) (a + g + 1) rest) as H. now rewrite seq_length in H. }
    rewrite U. destruct (Nat.eqb_spec g 0) as [->|Hg0].
    - cbn [cs_comb cs_shifting seq app]. split; [|discriminate]. unfold comb'. cbn [seq app]. reflexivity.
    - assert (E0 : at_ (seq a g ++ (a + g + 1) :: rest) 0 = a) by (destruct g as [|g']; [lia|]; reflexivity).
      assert (Z0 : at_ comb' 0 = 0) by (unfold comb'; destruct g as [|g']; [lia|]; reflexivity).
      destruct (cs_shifting s) eqn:Es; cbn [cs_comb cs_shifting].
      + rewrite E0, shift_run by lia. rewrite Nat.sub_diag. split; [reflexivity|auto].
      + split; [|auto]. unfold comb'. specialize (Hsh eq_refl). rewrite Hc' in Hsh. destruct g as [|g']; [lia|]. cbn [seq app at_ nth] in Hsh. unfold at_ in Hsh. cbn in Hsh. now subst a. }
  destruct Hstep as [Hcomb Hshift].
  assert (Hcomb' : combination m n comb').
  { unfold comb'. split; [rewrite app_length, seq_length; cbn [List.length]; lia|]. split.
    - apply asc_app_intro; [apply asc_seq| |].
      + rewrite Hc' in Hasc. apply asc_app in Hasc as (_ & H & _). inversion H; subst. constructor; auto.
        apply Forall_forall. intros z Hz. destruct rest as [|y r]; [contradiction|]. specialize (Hag y r eq_refl z Hz). lia.
      + intros x y Hx Hy. apply in_seq in Hx. destruct Hy as [<-|Hy]; [lia|]. destruct rest as [|w r]; [contradiction|]. specialize (Hag w r eq_refl y Hy). lia.
    - apply Forall_app. split; [apply Forall_forall; intros x Hx; apply in_seq in Hx; lia|]. constructor; [lia|assumption]. }
  rewrite Hcomb. split; [|split].
  - (* invariant *)
    split; [rewrite Hcomb; exact Hcomb'|]. split; [|rewrite Hcomb; exact Hshift]. rewrite Hcomb.
    assert (Hgaps : cs_gaps (comb_step m n (cs_comb s) g gs (cs_shifting s)) =
       ((if 0 <? g then [g - 1] else []) ++ (if a + g + 2 <? match rest with [] => n | y :: _ => y end then [g] else []) ++ gs)%list).
    { assert (P : (n <=? a + g + 2) || ((g + 1 <? m) && (at_ (cs_comb s) (g + 1) <=? a + g + 2)) = negb (a + g + 2 <? match rest with [] => n | y :: _ => y end)).
      { destruct rest as [|y r].
        - cbn [List.length] in Hm. destruct (Nat.ltb_spec (g + 1) m); [lia|]. cbn [andb]. rewrite orb_false_r.
          destruct (Nat.leb_spec n (a + g + 2)), (Nat.ltb_spec (a + g + 2) n); try reflexivity; lia.
        - rewrite (Hat1 y r eq_refl). cbn [List.length] in Hm. destruct (Nat.ltb_spec (g + 1) m); [|lia]. cbn [andb].
          assert (y < n) by (inversion Hdr; assumption).
          destruct (Nat.leb_spec n (a + g + 2)), (Nat.leb_spec y (a + g + 2)), (Nat.ltb_spec (a + g + 2) y); try reflexivity; lia. }
      assert (Q : (0 <? g) && (at_ (cs_comb s) (g - 1) + 1 =? a + g) = (0 <? g)).
      { destruct (Nat.ltb_spec 0 g); [|reflexivity]. cbn [andb]. rewrite Hc'. destruct g as [|g']; [lia|]. rewrite Nat.sub_succ, Nat.sub_0_r.
        rewrite seq_S, <- app_assoc. cbn [app]. pose proof (at_app (seq a g') (a + g') (a + S g' :: rest)) as H1. rewrite seq_length in H1. rewrite H1.
        apply Nat.eqb_eq. lia. }
      unfold comb_step. rewrite Hat, P, Q.
      destruct (0 <? g), (a + g + 2 <? _), (g =? 0), (cs_shifting s); reflexivity. }
    rewrite Hgaps. unfold comb'. rewrite gaps_run.
    assert (T : gaps n g ((a + g + 1) :: rest) = ((if a + g + 2 <? match rest with [] => n | y :: _ => y end then [g] else []) ++ gs)%list).
    { cbn [gaps]. rewrite <- Hgs. replace (a + g + 1 + 1) with (a + g + 2) by lia. destruct (a + g + 2 <? _); reflexivity. }
    destruct g as [|g']; [cbn [app]; exact (eq_sym T)|]. change (0 <? S g') with true. cbn [app]. rewrite Nat.sub_succ, Nat.sub_0_r.
    replace (0 + S g') with (S g') by lia. rewrite T. destruct (Nat.ltb_spec (0 + g' + 1) (a + S g' + 1)); [reflexivity|lia].
  - (* increases *)
    rewrite Hc'. unfold comb'. rewrite !val_app, !seq_length. cbn [val].
    assert (val n (seq a g) < n ^ g). { pose proof (val_lt n (seq a g)) as H. rewrite seq_length in H. apply H. apply Forall_forall. intros x Hx. apply in_seq in Hx. lia. }
    nia.
  - (* nothing in between *)
    intros z (Zl & Za & Zd) Hz.
    assert (Hzs : exists zp zc zr, z = (zp ++ zc :: zr)%list /\ List.length zp = g /\ List.length zr = List.length rest).
    { exists (firstn g z). destruct (skipn g z) as [|zc zr] eqn:Ek.
      - assert (List.length (skipn g z) = 0) by now rewrite Ek. rewrite skipn_length in H. lia.
      - exists zc, zr. rewrite <- Ek, firstn_skipn. split; [reflexivity|]. split; [apply firstn_length_le; lia|].
        assert (List.length (skipn g z) = S (List.length zr)) by now rewrite Ek. rewrite skipn_length in H. lia. }
    destruct Hzs as (zp & zc & zr & -> & Lp & Lr). apply Forall_app in Zd as [Zdp Zdr]. inversion Zdr as [|? ? Zc Zr]; subst.
    apply asc_app in Za as (Ap & Ar & Apr).
    assert (Vp : val n zp < n ^ List.length zp) by (apply val_lt; assumption).
    assert (Vs : val n (seq a (List.length zp)) < n ^ List.length zp).
    { pose proof (val_lt n (seq a (List.length zp))) as H. rewrite seq_length in H. apply H. apply Forall_forall. intros x Hx. apply in_seq in Hx. lia. }
    assert (Vs0 : val n (seq 0 (List.length zp)) < n ^ List.length zp).
    { pose proof (val_lt n (seq 0 (List.length zp))) as H. rewrite seq_length in H. apply H. apply Forall_forall. intros x Hx. apply in_seq in Hx. lia. }
    rewrite Hc' in Hz. unfold comb'. rewrite !val_app, !seq_length in *. cbn [val] in *. set (g := List.length zp) in *. set (B := n ^ g) in *.
    destruct (Nat.lt_trichotomy (val n zr) (val n rest)) as [H|[H|H]].
    + exfalso. assert (n * (val n zr + 1) <= n * val n rest) by (apply Nat.mul_le_mono_l; lia).
      assert (B * (zc + n * val n zr + 1) <= B * (a + g + n * val n rest)) by (apply Nat.mul_le_mono_l; lia). lia.
    + apply val_inj in H; auto. subst zr.
      destruct (Nat.lt_trichotomy zc (a + g)) as [H|[H|H]].
      * exfalso. assert (B * (zc + n * val n rest + 1) <= B * (a + g + n * val n rest)) by (apply Nat.mul_le_mono_l; lia). lia.
      * subst zc. exfalso. assert (val n zp <= val n (seq a g)).
        { apply asc_val_le; auto. apply Forall_forall. intros x Hx. fold g. apply (Apr x (a + g)); auto. now left. }
        lia.
      * assert (val n (seq 0 g) <= val n zp). { apply asc_val_ge; auto. apply Forall_forall. intros; lia. }
        assert (B * (a + g + 1 + n * val n rest) <= B * (zc + n * val n rest)) by (apply Nat.mul_le_mono_l; lia). lia.
    + assert (n * (val n rest + 1) <= n * val n zr) by (apply Nat.mul_le_mono_l; lia).
      assert (B * (a + g + 1 + n * val n rest + 1) <= B * (zc + n * val n zr)) by (apply Nat.mul_le_mono_l; lia). lia.
Qed.

(** *** The loop *)
Lemma last_max m n l z : combination m n l -> m <> 0 -> gaps n 0 l = [] -> combination m n z -> val n z <= val n l.
Proof.
  intros (L & A & Dg) Hm Hg (Lz & Az & Dz). destruct (gaps_none n l 0 A Dg Hg) as (a & Hl & Hn).
  assert (l <> []) by (intros ->; cbn in L; lia). specialize (Hn H). rewrite Hl. rewrite L, <- Lz. apply asc_val_le; auto.
  eapply Forall_impl; [|exact Dz]. cbn. lia.
Qed.
Lemma loop_ok m n : m <> 0 -> forall fuel s, good m n s -> n ^ m <= val n (cs_comb s) + fuel ->
  exists out, comb_loop fuel m n s = Some out
    /\ Forall (combination m n) out
    /\ StronglySorted (fun a b => val n a < val n b) (cs_comb s :: out)
    /\ forall z, combination m n z -> val n (cs_comb s) < val n z -> In z out.
Proof.
  intros Hm. induction fuel as [|f IH]; intros s G Hf.
  - exfalso. destruct G as ((L & _ & Dg) & _). pose proof (val_lt n _ Dg). rewrite L in H. lia.
  - cbn [comb_loop]. destruct (cs_gaps s) as [|g gs] eqn:Eg.
    + exists []. split; [reflexivity|]. split; [constructor|]. split; [repeat constructor|]. intros z Hz Hlt. exfalso.
      destruct G as (C & Hg & _). assert (val n z <= val n (cs_comb s)) by (apply (last_max m n); auto; congruence). lia.
    + destruct (step_next m n s g gs G Eg) as (G' & Hlt & Hnext). set (s' := comb_step m n (cs_comb s) g gs (cs_shifting s)) in *.
      destruct (IH s' G') as (out & Ho & Hc & Hs & Hall); [lia|]. rewrite Ho. cbn [option_map].
      eexists. split; [reflexivity|]. split; [constructor; [apply G'|assumption]|]. split.
      * constructor; [assumption|]. constructor; [assumption|]. inversion Hs as [|? ? _ HF]; subst. eapply Forall_impl; [|exact HF]. cbn. lia.
      * intros z Hz Hv. destruct (Nat.eq_dec (val n z) (val n (cs_comb s'))) as [He|Hne].
        -- left. symmetry. destruct Hz as (L1 & _ & D1), G' as ((L2 & _ & D2) & _). apply (val_inj n); auto. lia.
        -- right. apply Hall; [assumption|]. specialize (Hnext z Hz Hv). lia.
Qed.
Lemma first_good m n : 0 < m -> m < n -> good m n {| cs_comb := range_int 0 m; cs_gaps := [m - 1]; cs_shifting := false |}.
Proof.
  intros Hm Hn. unfold range_int. rewrite Nat.sub_0_r. split; [|split]; cbn [cs_comb cs_gaps cs_shifting].
  - split; [apply seq_length|]. split; [apply asc_seq|]. apply Forall_forall. intros x Hx. apply in_seq in Hx. lia.
  - pose proof (gaps_run n m 0 0 []) as H. rewrite app_nil_r in H. rewrite H. destruct m as [|m']; [lia|]. cbn [gaps].
    destruct (Nat.ltb_spec (0 + m' + 1) n); [|lia]. f_equal. lia.
  - intros _. destruct m; [lia|]. reflexivity.
Qed.
Lemma only_run n z : combination n n z -> z = seq 0 n.
Proof.
  intros (L & A & Dg). apply (val_inj n); auto.
  - apply Forall_forall. intros x Hx. apply in_seq in Hx. lia.
  - now rewrite seq_length.
  - apply Nat.le_antisymm.
    + pose proof (asc_val_le n z 0 A) as H. rewrite L in H. auto.
    + pose proof (asc_val_ge n z 0 A) as H. rewrite L in H. apply H. apply Forall_forall. intros; lia.
Qed.

(** ** C07  The generator ends (within n^m rounds) and returns every m-element subset of {0..n-1} exactly once, each
    ascending, in colexicographic order. *)
Theorem C07_combinations : forall m n, exists out,
  (forall fuel, n ^ m <= fuel -> combinations fuel m n = Some out)
  /\ (forall l, In l out <-> combination m n l) /\ NoDup out /\ StronglySorted colex out.
Proof.
  intros m n. unfold combinations. destruct (Nat.ltb_spec n m) as [Hlt|Hge].
  { exists []. split; [reflexivity|]. split; [|split; constructor]. intros l. split; [contradiction|]. intros (L & A & Dg). exfalso.
    assert (NoDup l).
    { clear - A. induction A as [|x l A IH F]; constructor; auto. intros Hi. rewrite Forall_forall in F. specialize (F x Hi). lia. }
    assert (List.length l <= List.length (seq 0 n)). { apply NoDup_incl_length; auto. intros x Hx. apply in_seq. rewrite Forall_forall in Dg. specialize (Dg x Hx). lia. }
    rewrite seq_length in H0. lia. }
  destruct (Nat.eqb_spec m 0) as [->|Hm].
  { exists [[]]. split; [reflexivity|]. split; [|split; [repeat constructor; auto|repeat constructor]]. intros l. split.
    - intros [<-|[]]. repeat split; constructor.
    - intros (L & _). left. now destruct l. }
  destruct (Nat.eqb_spec m n) as [->|Hmn].
  { exists [range_int 0 n]. unfold range_int. rewrite Nat.sub_0_r. split; [reflexivity|]. split; [|split; [repeat constructor; auto|repeat constructor]].
    intros l. split.
    - intros [<-|[]]. split; [apply seq_length|]. split; [apply asc_seq|]. apply Forall_forall. intros x Hx. apply in_seq in Hx. lia.
    - intros H. left. symmetry. now apply only_run. }
  pose proof (first_good m n ltac:(lia) ltac:(lia)) as G. set (s0 := {| cs_comb := range_int 0 m; cs_gaps := [m - 1]; cs_shifting := false |}) in *.
  destruct (loop_ok m n Hm (n ^ m) s0 G) as (out & Ho & Hc & Hs & Hall); [lia|].
  exists (range_int 0 m :: out). split.
  { intros fuel Hf. destruct (loop_ok m n Hm fuel s0 G) as (out' & Ho' & Hc' & Hs' & Hall'); [lia|]. rewrite Ho'. cbn [option_map]. f_equal. f_equal.
    (* more fuel changes nothing *)
    assert (M : forall f s r, comb_loop f m n s = Some r -> forall f', f <= f' -> comb_loop f' m n s = Some r).
    { clear. induction f as [|f IH]; intros s r H f' Hle; cbn [comb_loop] in H.
      - destruct (cs_gaps s) eqn:E; [|discriminate]. destruct f'; cbn [comb_loop]; rewrite E; assumption.
      - destruct f' as [|f']; [lia|]. cbn [comb_loop]. destruct (cs_gaps s) as [|g gs]; [assumption|].
        destruct (comb_loop f m n _) as [r'|] eqn:Er; [|discriminate]. rewrite (IH _ _ Er f') by lia. assumption. }
    pose proof (M _ _ _ Ho fuel Hf). congruence. }
  assert (Hfirst : combination m n (range_int 0 m)) by (destruct G as (G & _); exact G).
  assert (Hcs : Forall (combination m n) (range_int 0 m :: out)) by (constructor; assumption).
  split; [|split].
  - intros l. split; [intros Hl; rewrite Forall_forall in Hcs; auto|]. intros Hl.
    destruct (Nat.eq_dec (val n l) (val n (range_int 0 m))) as [He|Hne].
    + left. symmetry. destruct Hl as (L1 & _ & D1), Hfirst as (L2 & _ & D2). apply (val_inj n); auto. lia.
    + right. apply Hall; [assumption|]. cbn [cs_comb s0]. destruct Hl as (L1 & A1 & D1).
      assert (val n (seq 0 m) <= val n l). { rewrite <- L1. apply asc_val_ge; auto. apply Forall_forall. intros; lia. }
      unfold range_int in *. rewrite Nat.sub_0_r in *. cbn. lia.
  - clear - Hs. cbn [cs_comb s0] in Hs. subst s0. cbn in Hs. induction Hs as [|x l A IH F]; constructor; auto. intros Hi. rewrite Forall_forall in F. specialize (F x Hi). lia.
  - cbn [cs_comb s0] in Hs. subst s0. cbn [cs_comb] in Hs. clear - Hs Hcs. induction Hs as [|x l A IH F]; [constructor|]. inversion Hcs; subst. constructor; [auto|].
    rewrite Forall_forall in *. intros y Hy. destruct H1 as (L1 & _ & D1). destruct (H2 y Hy) as (L2 & _ & D2). apply (val_colex n); auto. lia.
Qed.
(** for whole ranges of sizes *)
Theorem C07_length_range : forall min max n, exists out,
  (forall fuel, (forall k, k <= n -> n ^ k <= fuel) -> all_combinations fuel min max n = Some out)
  /\ (forall l, In l out <-> combination (List.length l) n l /\ min <= List.length l <= max) /\ NoDup out.
Proof.
  intros min max n. unfold all_combinations. set (mx := if n <? max then n else max).
  assert (Hmx : mx <= n) by (unfold mx; destruct (Nat.ltb_spec n max); lia).
  assert (G : forall c k, k + c <= S n \/ c = 0 -> exists out, (forall fuel, (forall j, j <= n -> n ^ j <= fuel) -> combs_from fuel k c n = Some out)
     /\ (forall l, In l out <-> combination (List.length l) n l /\ k <= List.length l < k + c) /\ NoDup out).
  { induction c as [|c IH]; intros k Hk; [exists []; split; [reflexivity|]; split; [intros l; split; [contradiction|intros [_ Q]; lia]|constructor]|].
    destruct (IH (S k)) as (o2 & H2 & I2 & N2); [lia|]. destruct (C07_combinations k n) as (o1 & H1 & I1 & N1 & _).
    exists (o1 ++ o2)%list. split; [|split].
    - intros fuel Hf. cbn [combs_from]. rewrite H1 by (apply Hf; lia). now rewrite H2.
    - intros l. rewrite in_app_iff, I1, I2. split.
      + intros [H|[H Hl]]; [|split; [assumption|lia]]. assert (List.length l = k) by apply H. split; [congruence|lia].
      + intros [H Hl]. destruct (Nat.eq_dec (List.length l) k) as [He|Hne]; [left; congruence|right; split; [assumption|lia]].
    - assert (D : forall x, In x o1 -> ~ In x o2).
      { intros x Hx Hy. apply I1 in Hx as (L & _). apply I2 in Hy as [_ Hl]. lia. }
      clear - N1 N2 D. induction o1 as [|x o1 IH]; [assumption|]. cbn [app]. inversion N1; subst. constructor.
      + rewrite in_app_iff. intros [H|H]; [contradiction|]. apply (D x); [now left|assumption].
      + apply IH; auto. intros y Hy. apply D. now right. }
  destruct (G (S mx - min) min) as (out & H1 & H2 & H3); [lia|]. exists out. split; [assumption|]. split; [|assumption].
  intros l. rewrite H2. split; intros [H Hl]; split; auto; [unfold mx in *; destruct (Nat.ltb_spec n max); lia|].
  assert (List.length l <= n).
  { destruct H as (_ & A & Dg). assert (NoDup l).
    { clear - A. induction A as [|x l A IH F]; constructor; auto. intros Hi. rewrite Forall_forall in F. specialize (F x Hi). lia. }
    assert (K : List.length l <= List.length (seq 0 n)). { apply NoDup_incl_length; auto. intros x Hx. apply in_seq. rewrite Forall_forall in Dg. specialize (Dg x Hx). lia. }
    now rewrite seq_length in K. }
  unfold mx. destruct (Nat.ltb_spec n max); lia.
Qed.
Example C07_example : combinations 625 4 6 = Some [[0;1;2;3];[0;1;2;4];[0;1;3;4];[0;2;3;4];[1;2;3;4];[0;1;2;5];[0;1;3;5];[0;2;3;5];[1;2;3;5];
   [0;1;4;5];[0;2;4;5];[1;2;4;5];[0;3;4;5];[1;3;4;5];[2;3;4;5]].
Proof. reflexivity. Qed.
Print Assumptions C07_combinations.
Print Assumptions C07_length_range.
