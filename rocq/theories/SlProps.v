(** C298-C300: slices that share an array. *)
From Verif Require Import GoBase SlModel SlSpec.
Local Open Scope nat_scope.

Lemma put_length : forall A (l : list A) i a, List.length (put l i a) = List.length l.
Proof. intros A l. induction l as [|x l IH]; intros [|i] a; cbn; auto. Qed.
Lemma put_eq : forall A (l : list A) i a, i < List.length l -> nth_error (put l i a) i = Some a.
Proof. intros A l. induction l as [|x l IH]; intros [|i] a H; cbn in *; try (now inversion H); auto. apply IH. now apply Nat.succ_lt_mono. Qed.
Lemma put_ne : forall A (l : list A) i j a, i <> j -> nth_error (put l i a) j = nth_error l j.
Proof. intros A l. induction l as [|x l IH]; intros [|i] [|j] a H; cbn; try congruence; auto. Qed.
Lemma firstn_put_le : forall A (l : list A) i n a, n <= i -> firstn n (put l i a) = firstn n l.
Proof. intros A l. induction l as [|x l IH]; intros [|i] [|n] a H; cbn; auto; try (now inversion H). f_equal. apply IH. now apply le_S_n. Qed.
Lemma firstn_put_S : forall A (l : list A) i a, i < List.length l -> firstn (Datatypes.S i) (put l i a) = (firstn i l ++ [a])%list.
Proof. intros A l. induction l as [|x l IH]; intros [|i] a H; cbn in *; try (now inversion H); try reflexivity. f_equal. apply IH. now apply Nat.succ_lt_mono. Qed.
Lemma nth_lt : forall A (l : list A) k b, nth_error l k = Some b -> k < List.length l.
Proof. intros A l k b H. apply nth_error_Some. congruence. Qed.

Lemma ext_nth : forall A (l r : list A), (forall i, nth_error l i = nth_error r i) -> l = r.
Proof.
  intros A l. induction l as [|x l IH]; intros [|y r] H; [reflexivity|now specialize (H 0)|now specialize (H 0)|]. f_equal; [specialize (H 0); cbn in H; congruence|]. apply IH. intros i. apply (H (Datatypes.S i)).
Qed.
Section Inv.
  Variable grow : nat -> nat.
  Record inv (own : list nat) (m : arrays) (vs : list slice) (ls : list (list string)) : Prop := {
    iv_len : List.length vs = List.length ls;
    iv_own : forall i, In i own -> i < List.length vs;
    iv_at : forall i s l, nth_error vs i = Some s -> nth_error ls i = Some l -> s_arr s < List.length m /\ s_len s <= List.length (arr m s) /\ read m s = l;
    iv_one : forall i j s t, In i own -> In j own -> nth_error vs i = Some s -> nth_error vs j = Some t -> s_arr s = s_arr t -> i = j;
    iv_max : forall i j s t, In i own -> nth_error vs i = Some s -> nth_error vs j = Some t -> s_arr s = s_arr t -> s_len t <= s_len s }.


  Definition fits (m : arrays) (s : slice) (l : list string) : Prop := s_arr s < List.length m /\ s_len s <= List.length (arr m s) /\ read m s = l.
  Lemma fits_put : forall m a x t l, fits m t l -> (s_arr t = a -> s_len t <= s_len x) -> s_arr x = a -> s_len x < List.length (arr m x) -> forall y,
    fits (put m a (put (arr m x) (s_len x) y)) t l.
  Proof.
    intros m a x t l (A & B & C) H Hx Hr y. unfold fits, read, arr in *. rewrite put_length. split; [assumption|]. destruct (Nat.eq_dec (s_arr t) a) as [E|E].
    - rewrite E in *. rewrite <- Hx in *. rewrite put_eq by assumption. rewrite put_length. split; [assumption|]. rewrite firstn_put_le; [assumption|]. now apply H.
    - rewrite put_ne by congruence. split; assumption.
  Qed.
  Lemma fits_new : forall m b t l, fits m t l -> fits (m ++ [b])%list t l.
  Proof. intros m b t l (A & B & C). unfold fits, read, arr in *. rewrite app_length, Nat.add_1_r. split; [now apply Nat.lt_lt_succ_r|]. rewrite nth_error_app1 by assumption. split; assumption. Qed.
  Lemma append1_ok : forall own m vs ls i s l x m' s', inv own m vs ls -> In i own -> nth_error vs i = Some s -> nth_error ls i = Some l -> append1 grow m s x = (m', s') ->
    inv own m' vs ls /\ fits m' s' (l ++ [x])%list /\ s_len s <= s_len s' /\ (s_arr s' = s_arr s \/ forall j t, nth_error vs j = Some t -> s_arr t <> s_arr s').
  Proof.
    intros own m vs ls i s l x m' s' I Hi Hs Hl H. pose proof (iv_at _ _ _ _ I i s l Hs Hl) as Fs. fold (fits m s l) in Fs. unfold append1 in H.
    destruct (Nat.ltb (s_len s) (List.length (arr m s))) eqn:E; injection H as <- <-.
    - apply Nat.ltb_lt in E. split; [|split; [|split]].
      + destruct I as [A B C D M]. constructor; auto. intros j t lt Ht Hlt. apply fits_put; [exact (C j t lt Ht Hlt)|intros Q; apply (M i j s t); auto|reflexivity|assumption].
      + destruct Fs as (A & B & C). unfold fits, read, arr in *. cbn. rewrite put_length. split; [assumption|]. rewrite put_eq by assumption. rewrite put_length. split; [assumption|].
        change (firstn (Datatypes.S (s_len s)) (put (match nth_error m (s_arr s) with Some a => a | None => [] end) (s_len s) x) = (l ++ [x])%list). rewrite firstn_put_S by assumption. now rewrite C.
      + cbn. apply Nat.le_succ_diag_r.
      + now left.
    - apply Nat.ltb_ge in E. split; [|split; [|split]].
      + destruct I as [A B C D M]. constructor; auto. intros j t lt Ht Hlt. apply fits_new. exact (C j t lt Ht Hlt).
      + destruct Fs as (A & B & C). unfold fits. rewrite app_length, Nat.add_1_r. cbn [s_arr s_len]. split; [apply Nat.lt_succ_diag_r|]. unfold read, arr. cbn [s_arr s_len]. rewrite nth_error_app2, Nat.sub_diag by apply le_n. cbn [nth_error].
        fold (arr m s). fold (read m s). assert (L : List.length (read m s) = s_len s) by (unfold read; rewrite firstn_length; now apply Nat.min_l).
        rewrite app_length, L. cbn [List.length]. split; [rewrite Nat.add_succ_r; apply le_n_S; apply Nat.le_add_r|].
        change (x :: repeat "" (grow (s_len s) - Datatypes.S (s_len s))) with ([x] ++ repeat "" (grow (s_len s) - Datatypes.S (s_len s)))%list. rewrite app_assoc, firstn_app.
        assert (L2 : List.length (read m s ++ [x])%list = Datatypes.S (s_len s)) by (rewrite app_length, L; cbn; apply Nat.add_1_r).
        rewrite L2, Nat.sub_diag, <- L2, firstn_all. cbn [firstn]. rewrite app_nil_r. now rewrite C.
      + cbn. apply Nat.le_succ_diag_r.
      + right. intros j t Ht. cbn. destruct (nth_error ls j) as [lt|] eqn:Q.
        * destruct (iv_at _ _ _ _ I j t lt Ht Q) as [K _]. intros X. rewrite X in K. now apply Nat.lt_irrefl in K.
        * apply nth_error_None in Q. apply nth_lt in Ht. rewrite (iv_len _ _ _ _ I) in Ht. exfalso. exact (Nat.lt_irrefl _ (Nat.lt_le_trans _ _ _ Ht Q)).
  Qed.
  Lemma assign_ok : forall own m vs ls i s l' s', inv own m vs ls -> In i own -> nth_error vs i = Some s -> fits m s' l' -> s_len s <= s_len s' ->
    (s_arr s' = s_arr s \/ forall j t, nth_error vs j = Some t -> s_arr t <> s_arr s') -> inv own m (put vs i s') (put ls i l').
  Proof.
    intros own m vs ls i s l' s' [A B C D M] Hi Hs F L Alt. pose proof (nth_lt _ _ _ _ Hs) as Li.
    assert (One : forall j t, j <> i -> In j own -> nth_error vs j = Some t -> s_arr t <> s_arr s').
    { intros j t Nj Hj Ht E. destruct Alt as [Q|Q]; [|exact (Q _ _ Ht E)]. apply Nj. eapply (D j i t s); auto. congruence. }
    constructor.
    - now rewrite !put_length.
    - intros j Hj. rewrite put_length. auto.
    - intros j t lt. destruct (Nat.eq_dec i j) as [<-|N].
      + rewrite !put_eq by (try assumption; now rewrite <- A). intros X Y. injection X as <-. injection Y as <-. exact F.
      + rewrite !put_ne by assumption. apply C.
    - intros j k t u Hj Hk. destruct (Nat.eq_dec i j) as [<-|N], (Nat.eq_dec i k) as [<-|N']; rewrite ?put_eq by assumption; rewrite ?put_ne by assumption; eauto.
      + intros X Y E. injection X as <-. exfalso. eapply (One k u); eauto.
      + intros X Y E. injection Y as <-. exfalso. eapply (One j t); eauto.
    - intros j k t u Hj. destruct (Nat.eq_dec i j) as [<-|N], (Nat.eq_dec i k) as [<-|N']; rewrite ?put_eq by assumption; rewrite ?put_ne by assumption; eauto.
      + intros X Y. injection X as <-. injection Y as <-. intros _. apply le_n.
      + intros X Y E. injection X as <-. destruct Alt as [Q|Q]; [|exfalso; eapply Q; eauto]. eapply Nat.le_trans; [|exact L]. eapply (M i k s u); auto. congruence.
      + intros X Y E. injection Y as <-. exfalso. eapply (One j t); eauto.
  Qed.
  Lemma put_put : forall A (l : list A) i a b, put (put l i a) i b = put l i b.
  Proof. intros A l. induction l as [|x l IH]; intros [|i] a b; cbn; auto. f_equal. apply IH. Qed.
  Lemma put_same : forall A (l : list A) i a, nth_error l i = Some a -> put l i a = l.
  Proof. intros A l. induction l as [|x l IH]; intros [|i] a H; cbn in *; try discriminate; [congruence|]. f_equal. now apply IH. Qed.
  Lemma append_each_ok : forall xs own m vs ls i s l m' s', inv own m vs ls -> In i own -> nth_error vs i = Some s -> nth_error ls i = Some l -> append_each grow m s xs = (m', s') ->
    inv own m' (put vs i s') (put ls i (l ++ xs)%list).
  Proof.
    induction xs as [|x xs IH]; intros own m vs ls i s l m' s' I Hi Hs Hl H; cbn in H.
    - injection H as <- <-. rewrite app_nil_r. now rewrite !put_same.
    - destruct (append1 grow m s x) as [m1 s1] eqn:E. destruct (append1_ok _ _ _ _ _ _ _ _ _ _ I Hi Hs Hl E) as (I1 & F & L & Alt).
      pose proof (assign_ok _ _ _ _ _ _ _ _ I1 Hi Hs F L Alt) as I2. pose proof (nth_lt _ _ _ _ Hs) as Li. pose proof (nth_lt _ _ _ _ Hl) as Li'.
      specialize (IH own m1 (put vs i s1) (put ls i (l ++ [x])%list) i s1 (l ++ [x])%list m' s' I2 Hi (put_eq _ _ _ _ Li) (put_eq _ _ _ _ Li') H).
      rewrite !put_put in IH. now rewrite <- app_assoc in IH.
  Qed.
  Lemma nth_snoc : forall A (l : list A) a k b, nth_error (l ++ [a])%list k = Some b -> nth_error l k = Some b \/ (k = List.length l /\ b = a).
  Proof.
    intros A l. induction l as [|x l IH]; intros a [|k] b H; cbn in *; try (left; assumption).
    - injection H as <-. auto.
    - destruct k; discriminate.
    - destruct (IH a k b H) as [K|[-> ->]]; auto.
  Qed.
  (** one more slice: of a new array, or one that is not longer than a slice of the same array that is there *)
  Lemma both_snoc : forall (vs : list slice) (ls : list (list string)) s l j t lt, List.length vs = List.length ls -> nth_error (vs ++ [s])%list j = Some t -> nth_error (ls ++ [l])%list j = Some lt ->
    (nth_error vs j = Some t /\ nth_error ls j = Some lt) \/ (j = List.length vs /\ t = s /\ lt = l).
  Proof.
    intros vs ls s l j t lt E H H'. apply nth_snoc in H, H'. destruct H as [H|[-> ->]], H' as [H'|[K ->]]; auto.
    - apply nth_lt in H. rewrite K, E in H. now apply Nat.lt_irrefl in H.
    - apply nth_lt in H'. rewrite E in H'. now apply Nat.lt_irrefl in H'.
  Qed.
  Lemma new_ok : forall own m vs ls b s l, inv own m vs ls -> s_arr s = List.length m -> s_len s <= List.length b -> firstn (s_len s) b = l ->
    inv (List.length vs :: own) (m ++ [b])%list (vs ++ [s])%list (ls ++ [l])%list.
  Proof.
    intros own m vs ls b s l [A B C D M] Ha Hn Hb.
    assert (Old : forall j t, nth_error vs j = Some t -> s_arr t < List.length m).
    { intros j t Ht. destruct (nth_error ls j) as [lt|] eqn:Q; [now destruct (C j t lt Ht Q)|]. apply nth_error_None in Q. apply nth_lt in Ht. rewrite A in Ht. exfalso. exact (Nat.lt_irrefl _ (Nat.lt_le_trans _ _ _ Ht Q)). }
    assert (Ne : forall j t, nth_error vs j = Some t -> s_arr t <> s_arr s) by (intros j t Ht E; apply Old in Ht; rewrite E, Ha in Ht; now apply Nat.lt_irrefl in Ht).
    constructor.
    - rewrite !app_length, A. reflexivity.
    - intros j [<-|Hj]; rewrite app_length, Nat.add_1_r; [apply Nat.lt_succ_diag_r|apply Nat.lt_lt_succ_r; auto].
    - intros j t lt Ht Hlt. destruct (both_snoc _ _ _ _ _ _ _ A Ht Hlt) as [[X Y]|(-> & -> & ->)]; [apply fits_new; exact (C j t lt X Y)|].
      rewrite app_length, Nat.add_1_r, Ha. split; [apply Nat.lt_succ_diag_r|]. unfold read, arr. rewrite Ha, nth_error_app2, Nat.sub_diag by apply le_n. cbn. auto.
    - intros j k t u Hj Hk X Y E. apply nth_snoc in X, Y. destruct X as [X|[-> ->]], Y as [Y|[-> ->]]; [|exfalso; eapply Ne; eauto|exfalso; eapply (Ne k u); eauto|reflexivity].
      assert (J : forall z w, nth_error vs z = Some w -> In z (List.length vs :: own) -> In z own) by (intros z w Z [<-|K]; [apply nth_lt in Z; now apply Nat.lt_irrefl in Z|assumption]).
      eapply (D j k t u); eauto.
    - intros j k t u Hj X Y E. apply nth_snoc in X, Y. destruct X as [X|[-> ->]], Y as [Y|[-> ->]]; [|exfalso; eapply Ne; eauto|exfalso; eapply (Ne k u); eauto|apply le_n].
      destruct Hj as [<-|Hj]; [apply nth_lt in X; now apply Nat.lt_irrefl in X|]. eapply (M j k t u); eauto.
  Qed.
  Lemma share_ok : forall own m vs ls i s l n, inv own m vs ls -> nth_error vs i = Some s -> nth_error ls i = Some l ->
    inv own m (vs ++ [{| s_arr := s_arr s; s_len := Nat.min n (s_len s) |}])%list (ls ++ [firstn n l])%list.
  Proof.
    intros own m vs ls i s l n [A B C D M] Hs Hl. pose proof (C i s l Hs Hl) as F.
    assert (J : forall z, In z own -> z <> List.length vs) by (intros z Z ->; apply B in Z; now apply Nat.lt_irrefl in Z).
    constructor.
    - rewrite !app_length, A. reflexivity.
    - intros j Hj. rewrite app_length, Nat.add_1_r. apply Nat.lt_lt_succ_r; auto.
    - intros j t lt Ht Hlt. destruct (both_snoc _ _ _ _ _ _ _ A Ht Hlt) as [[X Y]|(-> & -> & ->)]; [exact (C j t lt X Y)|].
      destruct F as (F1 & F2 & F3). unfold read, arr in *. cbn [s_arr s_len]. split; [assumption|]. split; [eapply Nat.le_trans; [apply Nat.le_min_r|exact F2]|].
      rewrite <- F3. now rewrite firstn_firstn.
    - intros j k t u Hj Hk X Y E. apply nth_snoc in X, Y. destruct X as [X|[-> ->]]; [|now apply J in Hj]. destruct Y as [Y|[-> ->]]; [|now apply J in Hk]. eapply (D j k t u); eauto.
    - intros j k t u Hj X Y E. apply nth_snoc in X, Y. destruct X as [X|[-> ->]]; [|now apply J in Hj]. destruct Y as [Y|[-> ->]]; [eapply (M j k t u); eauto|].
      cbn in *. eapply Nat.le_trans; [apply Nat.le_min_r|]. eapply (M j i t s); eauto.
  Qed.
  (** the clone is the one that is added to from now on *)
  Lemma move_ok : forall own m vs ls i s l, inv own m vs ls -> In i own -> nth_error vs i = Some s -> nth_error ls i = Some l ->
    inv (List.length vs :: remove Nat.eq_dec i own) m (vs ++ [s])%list (ls ++ [l])%list.
  Proof.
    intros own m vs ls i s l I Hi Hs Hl. pose proof (share_ok own m vs ls i s l (s_len s) I Hs Hl) as J. rewrite Nat.min_id in J.
    assert (E : {| s_arr := s_arr s; s_len := s_len s |} = s) by now destruct s. rewrite E in J. clear E.
    assert (Ll : firstn (s_len s) l = l). { destruct (iv_at _ _ _ _ I i s l Hs Hl) as (_ & _ & <-). unfold read. rewrite firstn_firstn. now rewrite Nat.min_id. } rewrite Ll in J.
    destruct I as [A B C D M], J as [A' B' C' D' M'].
    assert (R : forall z, In z (remove Nat.eq_dec i own) -> In z own /\ z <> i) by (intros z Z; now apply in_remove in Z).
    assert (Z : forall j t, j <> i -> In j own -> nth_error vs j = Some t -> s_arr t <> s_arr s) by (intros j t N Hj Ht E; apply N; eapply (D j i t s); auto).
    assert (G : forall z w, nth_error vs z = Some w -> z <> List.length vs) by (intros z w Hz ->; apply nth_lt in Hz; now apply Nat.lt_irrefl in Hz).
    constructor; auto.
    - intros j [<-|Hj]; [rewrite app_length, Nat.add_1_r; apply Nat.lt_succ_diag_r|]. apply B'. now apply R.
    - intros j k t u Hj Hk X Y E. apply nth_snoc in X, Y. destruct X as [X|[-> ->]], Y as [Y|[-> ->]].
      + destruct Hj as [<-|Hj]; [now apply G in X|]. destruct Hk as [<-|Hk]; [now apply G in Y|]. apply R in Hj, Hk. eapply (D j k t u); tauto.
      + destruct Hj as [<-|Hj]; [now apply G in X|]. apply R in Hj as [Hj N]. exfalso. eapply (Z j t); eauto.
      + destruct Hk as [<-|Hk]; [now apply G in Y|]. apply R in Hk as [Hk N]. exfalso. eapply (Z k u); eauto.
      + reflexivity.
    - intros j k t u Hj X Y E. apply nth_snoc in X. destruct X as [X|[-> ->]].
      + destruct Hj as [<-|Hj]; [now apply G in X|]. apply R in Hj as [Hj N]. eapply (M' j k t u); eauto. rewrite nth_error_app1; [assumption|]. now apply nth_lt in X.
      + apply nth_snoc in Y. destruct Y as [Y|[-> ->]]; [|apply le_n]. eapply (M i k s u); auto.
  Qed.
  Lemma var_at : forall A (l : list A) i, i < List.length l -> exists a, nth_error l i = Some a.
  Proof. intros A l i H. destruct (nth_error l i) eqn:Q; [eauto|]. apply nth_error_None in Q. exfalso. exact (Nat.lt_irrefl _ (Nat.lt_le_trans _ _ _ H Q)). Qed.
  Lemma run_ok : forall own k l, careful own k l -> forall w v, k = List.length (w_vars w) -> inv own (w_mem w) (w_vars w) (l_vars v) -> w_left w = l_left v ->
    exists own', let w' := fold_left (step grow) l w in let v' := fold_left spec_step l v in inv own' (w_mem w') (w_vars w') (l_vars v') /\ w_left w' = l_left v'.
  Proof.
    intros own k l C. induction C as [|own k l cs C IH|own k l cs C IH|own k l i cs Hi C IH|own k l i Hi C IH|own k l i Hi C IH|own k l i n Hi C IH|own k l i Hi C IH]; intros w v K I E; cbn [fold_left].
    - exists own. split; assumption.
    - pose proof (new_ok own _ _ _ [] {| s_arr := List.length (w_mem w); s_len := 0 |} [] I eq_refl (le_n 0) eq_refl) as I1.
      cbn [step spec_step]. destruct (append_each grow (w_mem w ++ [[]])%list {| s_arr := List.length (w_mem w); s_len := 0 |} cs) as [m s] eqn:Q.
      assert (P : forall A (x : list A) a, nth_error (x ++ [a])%list (List.length x) = Some a) by (intros; rewrite nth_error_app2, Nat.sub_diag by apply le_n; reflexivity).
      assert (P2 : forall A (x : list A) a b, put (x ++ [a])%list (List.length x) b = (x ++ [b])%list) by (intros A x a b; induction x; cbn; [reflexivity|now f_equal]).
      pose proof (append_each_ok cs _ _ _ _ (List.length (w_vars w)) _ [] m s I1 ltac:(now left) (P _ _ _) ltac:(rewrite (iv_len _ _ _ _ I); apply P) Q) as I2.
      rewrite P2 in I2. rewrite (iv_len _ _ _ _ I) in I2 at 2. rewrite P2 in I2. apply IH; cbn; [rewrite app_length, Nat.add_1_r; congruence|subst k; exact I2|assumption].
    - apply IH; cbn; [rewrite app_length, Nat.add_1_r; congruence| |assumption]. subst k. apply new_ok; cbn; auto. apply firstn_all.
    - assert (Li : i < List.length (w_vars w)) by (now apply (iv_own _ _ _ _ I)).
      assert (exists s, nth_error (w_vars w) i = Some s) as [s Hs] by now apply var_at.
      assert (exists lt, nth_error (l_vars v) i = Some lt) as [lt Hl] by (apply var_at; now rewrite <- (iv_len _ _ _ _ I)).
      cbn [step spec_step]. unfold with_var, on. rewrite Hs, Hl. destruct (append_each grow (w_mem w) s cs) as [m s'] eqn:Q.
      apply IH; cbn; [now rewrite put_length| |assumption]. eapply append_each_ok; eauto.
    - assert (exists s, nth_error (w_vars w) i = Some s) as [s Hs] by (apply var_at; congruence).
      assert (exists lt, nth_error (l_vars v) i = Some lt) as [lt Hl] by (apply var_at; rewrite <- (iv_len _ _ _ _ I); congruence).
      cbn [step spec_step]. unfold with_var, on. rewrite Hs, Hl. apply IH; cbn; [rewrite app_length, Nat.add_1_r; congruence| |assumption].
      pose proof (share_ok own _ _ _ i s lt (s_len s) I Hs Hl) as J. destruct (iv_at _ _ _ _ I i s lt Hs Hl) as (_ & _ & <-). unfold read in J at 1. rewrite Nat.min_id, firstn_firstn, Nat.min_id in J. now destruct s.
    - assert (Li : i < List.length (w_vars w)) by (now apply (iv_own _ _ _ _ I)).
      assert (exists s, nth_error (w_vars w) i = Some s) as [s Hs] by now apply var_at.
      assert (exists lt, nth_error (l_vars v) i = Some lt) as [lt Hl] by (apply var_at; now rewrite <- (iv_len _ _ _ _ I)).
      cbn [step spec_step]. unfold with_var, on. rewrite Hs, Hl. apply IH; cbn; [rewrite app_length, Nat.add_1_r; congruence| |assumption]. subst k. eapply move_ok; eauto.
    - assert (exists s, nth_error (w_vars w) i = Some s) as [s Hs] by (apply var_at; congruence).
      assert (exists lt, nth_error (l_vars v) i = Some lt) as [lt Hl] by (apply var_at; rewrite <- (iv_len _ _ _ _ I); congruence).
      cbn [step spec_step]. unfold with_var, on. rewrite Hs, Hl. apply IH; cbn; [rewrite app_length, Nat.add_1_r; congruence| |assumption]. eapply share_ok; eauto.
    - assert (Li : i < List.length (w_vars w)) by (now apply (iv_own _ _ _ _ I)).
      assert (exists s, nth_error (w_vars w) i = Some s) as [s Hs] by now apply var_at.
      assert (exists lt, nth_error (l_vars v) i = Some lt) as [lt Hl] by (apply var_at; now rewrite <- (iv_len _ _ _ _ I)).
      cbn [step spec_step]. unfold with_var, on. rewrite Hs, Hl. destruct (append1 grow (w_mem w) s "id") as [m s'] eqn:Q.
      destruct (append1_ok _ _ _ _ _ _ _ _ _ _ I Hi Hs Hl Q) as (I1 & (_ & _ & F) & _). apply IH; cbn; [assumption|assumption|]. now rewrite F, E.
  Qed.
End Inv.

(** Whatever Go reserves: while only one of a presentation and its clone is added to, and SD-JWTs are made with whole slices, every presentation has its own credentials,
    every slice of the caller keeps its claims, and an SD-JWT leaves the given claims and id. *)
Theorem C298_slices_show_lists : forall grow l, careful [] 0 l -> shown (run grow l) = spec_run l.
Proof.
  intros grow l C. assert (I0 : inv [] [] [] []) by (constructor; cbn; try tauto; intros [|i]; discriminate).
  destruct (run_ok grow [] 0 l C start {| l_vars := []; l_left := [] |} eq_refl I0 eq_refl) as (own & I & E). unfold shown, run, spec_run in *.
  set (w := fold_left (step grow) l start) in *. set (v := fold_left spec_step l {| l_vars := []; l_left := [] |}) in *. clearbody w v. destruct v as [vs lf]. cbn in *. f_equal; [|assumption].
  destruct I as [A B C' D M]. clear - A C'. assert (N : forall i, nth_error (map (read (w_mem w)) (w_vars w)) i = nth_error vs i).
  { intros i. rewrite nth_error_map. destruct (nth_error (w_vars w) i) as [s|] eqn:Q; cbn.
    - destruct (nth_error vs i) as [l|] eqn:Q2; [f_equal; now destruct (C' i s l Q Q2) as (_ & _ & ?)|]. apply nth_error_None in Q2. apply nth_lt in Q. rewrite A in Q. exfalso. exact (Nat.lt_irrefl _ (Nat.lt_le_trans _ _ _ Q Q2)).
    - symmetry. apply nth_error_None. apply nth_error_None in Q. now rewrite <- A. }
  now apply ext_nth.
Qed.
Definition slice_history : list op :=
  [NewPresentation ["a"; "b"; "c"]; Clone 0; AddCredentials 0 ["d"]; Clone 0; AddCredentials 2 ["e"; "f"]; NewClaims ["x"; "y"]; Prefix 3 1; MakeSDJWT 3; MakeSDJWT 3].
Example C298_example : careful [] 0 slice_history /\
  shown (run doubling slice_history) = {| l_vars := [["a"; "b"; "c"; "d"]; ["a"; "b"; "c"]; ["a"; "b"; "c"; "d"; "e"; "f"]; ["x"; "y"]; ["x"]]; l_left := [["x"; "y"; "id"]; ["x"; "y"; "id"]] |}.
Proof.
  split; [|reflexivity]. unfold slice_history. apply cf_new. apply cf_keep; [repeat constructor|]. apply cf_add; [now left|]. apply cf_move; [now left|]. apply cf_add; [now left|].
  apply cf_claims. apply cf_prefix; [repeat constructor|]. apply cf_make; [now left|]. apply cf_make; [now left|]. apply cf_nil.
Qed.

(** Adding to a presentation and to its clone (or to the JWT or CWT presentation made from it) overwrites: the credential added to one is replaced by that added to the other. *)
Theorem C299_clone_shares_credentials_refuted :
  let w := run doubling [NewPresentation ["a"; "b"; "c"]; Clone 0; AddCredentials 0 ["mine"]; AddCredentials 1 ["other"]] in
  map (read (w_mem w)) (w_vars w) = [["a"; "b"; "c"; "other"]; ["a"; "b"; "c"; "other"]].
Proof. reflexivity. Qed.
Example C299_example : l_vars (spec_run [NewPresentation ["a"; "b"; "c"]; Clone 0; AddCredentials 0 ["mine"]; AddCredentials 1 ["other"]]) = [["a"; "b"; "c"; "mine"]; ["a"; "b"; "c"; "other"]].
Proof. reflexivity. Qed.
(** MakeSDJWT writes id after the end of the claims it is given: whatever Go reserves, the caller's longer slice of the same array has its claim replaced, and a later
    SD-JWT made with the longer slice discloses other claims. *)
Theorem C300_claims_are_overwritten_refuted : forall grow,
  let w := run grow [NewClaims ["name"; "degree"]; Prefix 0 1; MakeSDJWT 1; MakeSDJWT 0] in
  map (read (w_mem w)) (w_vars w) = [["name"; "id"]; ["name"]] /\ w_left w = [["name"; "id"]; ["name"; "id"; "id"]].
Proof. intros grow. split; reflexivity. Qed.
Example C300_example : l_left (spec_run [NewClaims ["name"; "degree"]; Prefix 0 1; MakeSDJWT 1; MakeSDJWT 0]) = [["name"; "id"]; ["name"; "degree"; "id"]].
Proof. reflexivity. Qed.
Print Assumptions C298_slices_show_lists.
Print Assumptions C299_clone_shares_credentials_refuted.
Print Assumptions C300_claims_are_overwritten_refuted.
