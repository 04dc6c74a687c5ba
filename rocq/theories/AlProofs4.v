(** Every call of a careful caller keeps the invariant. *)
From Verif Require Import GoBase AlModel AlSpec AlProofs AlProofs2 AlProofs3.
Local Open Scope nat_scope.

Lemma F2_nth : forall A B (P : A -> B -> Prop) l r, Forall2 P l r <-> List.length l = List.length r /\ forall k a b, nth_error l k = Some a -> nth_error r k = Some b -> P a b.
Proof.
  intros A B P l. induction l as [|a l IH]; intros r; split.
  - intros H. inversion H. split; [reflexivity|]. intros [|k]; discriminate.
  - intros [L _]. destruct r; [constructor|discriminate].
  - intros H. inversion H as [|? b ? r' Hb Hr]; subst. apply IH in Hr as [L N]. split; [cbn; congruence|]. intros [|k] x y; cbn; [congruence|apply N].
  - intros [L N]. destruct r as [|b r]; [discriminate|]. constructor; [apply (N 0); reflexivity|]. apply IH. split; [cbn in L; congruence|]. intros k. apply (N (Datatypes.S k)).
Qed.
Lemma set_at_length : forall A (l : list A) i a, List.length (set_at l i a) = List.length l.
Proof. intros A l. induction l as [|x l IH]; intros [|i] a; unfold set_at in *; cbn; auto. Qed.
Lemma set_at_nth : forall A (l : list A) i a k, nth_error (set_at l i a) k = if Nat.eqb k i then (match nth_error l i with Some _ => Some a | None => None end) else nth_error l k.
Proof.
  intros A l. induction l as [|x l IH]; intros [|i] a [|k]; unfold set_at in *; cbn; try reflexivity.
  - now destruct (Nat.eqb k i).
  - apply IH.
Qed.
Lemma nth_snoc : forall A (l : list A) a k b, nth_error (l ++ [a])%list k = Some b -> nth_error l k = Some b \/ (k = List.length l /\ b = a).
Proof.
  intros A l. induction l as [|x l IH]; intros a [|k] b H; cbn in *; try (left; assumption).
  - injection H as <-. auto.
  - destruct k; discriminate.
  - destruct (IH a k b H) as [K|[-> ->]]; auto.
Qed.
Lemma nth_lt : forall A (l : list A) k b, nth_error l k = Some b -> k < List.length l.
Proof. intros A l k b H. apply nth_error_Some. congruence. Qed.
Lemma cred_T : forall T gone g v i c, simT T gone g v -> nth_error (w_creds g) i = Some c -> exists d, nth_error (w_creds v) i = Some d /\ cred_ok T (w_mem g) c d.
Proof.
  intros T gone g v i c S N. pose proof (si_creds _ _ _ _ S) as F. apply F2_nth in F as [L F]. destruct (nth_error (w_creds v) i) as [d|] eqn:E; [exists d; split; [reflexivity|]; eauto|].
  apply nth_error_None in E. apply nth_lt in N. change (cred go_store) with (cred go_store) in *. exfalso. rewrite <- L in E. exact (Nat.lt_irrefl _ (Nat.lt_le_trans _ _ _ N E)).
Qed.
Lemma cred_none : forall T gone g v i, simT T gone g v -> nth_error (w_creds g) i = None -> nth_error (w_creds v) i = None.
Proof. intros T gone g v i S N. pose proof (si_creds _ _ _ _ S) as F. apply F2_nth in F as [L _]. apply nth_error_None. apply nth_error_None in N. now rewrite <- L. Qed.
Lemma map_T : forall T gone g v r o, simT T gone g v -> nth_error (w_maps g) r = Some o -> exists m, nth_error (w_maps v) r = Some m /\ (~ In r gone -> map_ok T (w_mem g) o m).
Proof.
  intros T gone g v r o S N. destruct (nth_error (w_maps v) r) as [m|] eqn:E; [exists m; split; [reflexivity|]; intros G; eapply si_maps; eauto|].
  apply nth_error_None in E. apply nth_lt in N. pose proof (si_len _ _ _ _ S) as L. exfalso. rewrite <- L in E. exact (Nat.lt_irrefl _ (Nat.lt_le_trans _ _ _ N E)).
Qed.
Lemma map_none : forall T gone g v r, simT T gone g v -> nth_error (w_maps g) r = None -> nth_error (w_maps v) r = None.
Proof. intros T gone g v r S N. apply nth_error_None. apply nth_error_None in N. pose proof (si_len _ _ _ _ S) as L. now rewrite <- L. Qed.
Lemma cred_ok_moves : forall T h T' h' (c : cred go_store) (d : cred value_store), moves T h T' h' -> In (c_json c) T' -> nth_error h' (c_json c) = nth_error h (c_json c) -> cred_ok T h c d -> cred_ok T' h' c d.
Proof. intros T h T' h' c d M I N (_ & ms & E & A). split; [assumption|]. exists ms. split; [congruence|]. now apply (moves_at T h). Qed.
Lemma map_ok_moves : forall T h T' h' o m, moves T h T' h' -> In o T' -> nth_error h' o = nth_error h o -> map_ok T h o m -> map_ok T' h' o m.
Proof. intros T h T' h' o m M I N (_ & ms & E & A). split; [assumption|]. exists ms. split; [congruence|]. now apply (moves_mems T h). Qed.
Lemma moves_trans : forall A a B b C c, moves A a B b -> moves B b C c -> moves A a C c.
Proof. unfold moves. eauto. Qed.

Section New.
  Variables (T gone : list nat) (g : world go_store) (v : world value_store) (h1 : heap) (ms : gomap hval).
  Hypothesis HS : simT T gone g v.
  Hypothesis HE : ext (w_mem g) h1.
  Let h2 := (h1 ++ [CObj ms])%list.
  Let T2 := List.length h1 :: T.
  Lemma new_moves : moves T (w_mem g) T2 h2.
  Proof. eapply moves_trans; [apply moves_ext, HE|apply moves_new]. Qed.
  Lemma new_old : forall l c, nth_error (w_mem g) l = Some c -> nth_error h2 l = nth_error (w_mem g) l.
  Proof. intros l c N. rewrite N. apply nth_ext_heap. now apply (ext_nth (w_mem g)). Qed.
  Lemma new_lt : forall l, In l T -> l < List.length h1.
  Proof. intros l H. apply (below_ext T (w_mem g) h1 HE (si_below _ _ _ _ HS)). assumption. Qed.
  Lemma new_below : below T2 h2.
  Proof. intros l [<-|H]; unfold h2; rewrite app_length; cbn; rewrite Nat.add_1_r; [apply Nat.lt_succ_diag_r|]. apply Nat.lt_lt_succ_r. now apply new_lt. Qed.
  Lemma new_cell : nth_error h2 (List.length h1) = Some (CObj ms).
  Proof. unfold h2. rewrite nth_error_app2, Nat.sub_diag by apply le_n. reflexivity. Qed.
  Lemma new_cred_old : forall (c : cred go_store) (d : cred value_store), cred_ok T (w_mem g) c d -> cred_ok T2 h2 c d.
  Proof. intros c d C. pose proof C as (I & m & N & _). eapply cred_ok_moves; [apply new_moves|now right|eapply new_old; exact N|assumption]. Qed.
  Lemma new_map_old : forall o m, map_ok T (w_mem g) o m -> map_ok T2 h2 o m.
  Proof. intros o m C. pose proof C as (I & x & N & _). eapply map_ok_moves; [apply new_moves|now right|eapply new_old; exact N|assumption]. Qed.
  Lemma cred_lt : forall i c, nth_error (w_creds g) i = Some c -> c_json c < List.length h1.
  Proof. intros i c N. destruct (cred_T _ _ _ _ _ _ HS N) as (d & _ & I & _). now apply new_lt. Qed.
  Lemma map_lt : forall r o, ~ In r gone -> nth_error (w_maps g) r = Some o -> o < List.length h1.
  Proof. intros r o G N. destruct (map_T _ _ _ _ _ _ HS N) as (d & _ & I). apply new_lt. apply I, G. Qed.
  Lemma new_cred_sim : forall (c : cred go_store) (d : cred value_store), c_json c = List.length h1 -> cred_at T h1 ms c d ->
    simT T2 gone (Build_world (W := go_store) h2 (w_creds g ++ [c])%list (w_maps g)) (Build_world (W := value_store) tt (w_creds v ++ [d])%list (w_maps v)).
  Proof.
    intros c d L A. constructor; cbn [w_mem w_creds w_maps].
    - apply new_below.
    - apply Forall2_app; [revert HS; intros [_ F _ _ _ _ _]; revert F; apply F2_imp; intros x y _; apply new_cred_old|]. constructor; [|constructor].
      split; [rewrite L; now left|]. exists ms. split; [rewrite L; apply new_cell|]. revert A. apply moves_at, moves_new.
    - apply (si_len _ _ _ _ HS).
    - intros r o m G N N'. apply new_map_old. eapply si_maps; eauto.
    - intros i j x y Hi Hj E. apply nth_snoc in Hi, Hj. destruct Hi as [Hi|[-> ->]], Hj as [Hj|[-> ->]]; [eapply si_cc; eauto| | |reflexivity];
        exfalso; [apply cred_lt in Hi|apply cred_lt in Hj]; rewrite ?E, ?L in *; try rewrite <- E in Hj; try rewrite L in Hj; eapply Nat.lt_irrefl; eassumption.
    - apply (si_mm _ _ _ _ HS).
    - intros i r x o G Hi Hr. apply nth_snoc in Hi. destruct Hi as [Hi|[-> ->]]; [eapply si_cm; eauto|]. apply map_lt in Hr; [|assumption]. intros <-. rewrite L in Hr. eapply Nat.lt_irrefl; eassumption.
  Qed.
  Lemma new_map_sim : forall o m, o = List.length h1 -> mems_ok T h1 ms m ->
    simT T2 gone (Build_world (W := go_store) h2 (w_creds g) (w_maps g ++ [o])%list) (Build_world (W := value_store) tt (w_creds v) (w_maps v ++ [m])%list).
  Proof.
    intros o m L A. constructor; cbn [w_mem w_creds w_maps].
    - apply new_below.
    - revert HS; intros [_ F _ _ _ _ _]; revert F; apply F2_imp; intros x y _; apply new_cred_old.
    - rewrite !app_length. cbn. f_equal. apply (si_len _ _ _ _ HS).
    - intros r x y G N N'. apply nth_snoc in N, N'. pose proof (si_len _ _ _ _ HS) as Len.
      destruct N as [N|[-> ->]], N' as [N'|[E ->]].
      + apply new_map_old. eapply si_maps; eauto.
      + apply nth_lt in N. rewrite E, <- Len in N. exfalso. eapply Nat.lt_irrefl; eassumption.
      + apply nth_lt in N'. rewrite Len in N'. exfalso. eapply Nat.lt_irrefl; eassumption.
      + split; [rewrite L; now left|]. exists ms. split; [rewrite L; apply new_cell|]. revert A. apply moves_mems, moves_new.
    - apply (si_cc _ _ _ _ HS).
    - intros r s x Gr Gs Nr Ns. apply nth_snoc in Nr, Ns. destruct Nr as [Nr|[-> ->]], Ns as [Ns|[-> Es]]; [eapply si_mm; eauto| | |reflexivity]; exfalso.
      + apply map_lt in Nr; [|assumption]. rewrite Es, L in Nr. eapply Nat.lt_irrefl; eassumption.
      + apply map_lt in Ns; [|assumption]. rewrite L in Ns. eapply Nat.lt_irrefl; eassumption.
    - intros i r c x G Hi Hr. apply nth_snoc in Hr. destruct Hr as [Hr|[-> ->]]; [eapply si_cm; eauto|]. apply cred_lt in Hi. intros E. rewrite E, L in Hi. eapply Nat.lt_irrefl; eassumption.
  Qed.
End New.

Section Put.
  Variables (T gone : list nat) (g : world go_store) (v : world value_store) (h1 : heap) (ms : gomap hval) (l : nat).
  Hypothesis HS : simT T gone g v.
  Hypothesis HE : ext (w_mem g) h1.
  Hypothesis Hl : In l T.
  Let h2 := upd h1 l (CObj ms).
  Lemma put_moves : moves T (w_mem g) T h2.
  Proof. eapply moves_trans; [apply moves_ext, HE|apply moves_upd, Hl]. Qed.
  Lemma put_below : below T h2.
  Proof. intros x H. unfold h2. rewrite upd_length. exact (below_ext T (w_mem g) h1 HE (si_below _ _ _ _ HS) x H). Qed.
  Lemma put_cell : nth_error h2 l = Some (CObj ms).
  Proof. apply nth_upd_eq. exact (below_ext T (w_mem g) h1 HE (si_below _ _ _ _ HS) l Hl). Qed.
  Lemma put_old : forall x c, x <> l -> nth_error (w_mem g) x = Some c -> nth_error h2 x = nth_error (w_mem g) x.
  Proof. intros x c N E. unfold h2. rewrite nth_upd_ne by assumption. rewrite E. now apply (ext_nth (w_mem g)). Qed.
  Lemma put_cred_old : forall (c : cred go_store) (d : cred value_store), c_json c <> l -> cred_ok T (w_mem g) c d -> cred_ok T h2 c d.
  Proof. intros c d D C. pose proof C as (I & m & N & _). eapply cred_ok_moves; [apply put_moves|assumption|eapply put_old; [assumption|exact N]|assumption]. Qed.
  Lemma put_map_old : forall o m, o <> l -> map_ok T (w_mem g) o m -> map_ok T h2 o m.
  Proof. intros o m D C. pose proof C as (I & x & N & _). eapply map_ok_moves; [apply put_moves|assumption|eapply put_old; [assumption|exact N]|assumption]. Qed.
  Lemma put_cred_sim : forall i (c c2 : cred go_store) (d2 : cred value_store), nth_error (w_creds g) i = Some c -> c_json c = l -> c_json c2 = l -> cred_at T h1 ms c2 d2 ->
    simT T gone (Build_world (W := go_store) h2 (set_at (w_creds g) i c2) (w_maps g)) (Build_world (W := value_store) tt (set_at (w_creds v) i d2) (w_maps v)).
  Proof.
    intros i c c2 d2 Hi Lc L2 A. constructor; cbn [w_mem w_creds w_maps].
    - apply put_below.
    - apply F2_nth. rewrite !set_at_length. pose proof (si_creds _ _ _ _ HS) as F. apply F2_nth in F as [Len F]. split; [exact Len|]. intros k x y. rewrite !set_at_nth.
      destruct (Nat.eqb k i) eqn:E.
      + apply Nat.eqb_eq in E. subst k. rewrite Hi. destruct (nth_error (w_creds v) i); [|discriminate]. intros X Y. injection X as <-. injection Y as <-.
        split; [rewrite L2; assumption|]. exists ms. split; [rewrite L2; apply put_cell|]. revert A. apply moves_at, moves_upd, Hl.
      + intros Nx Ny. apply put_cred_old; [|now apply (F k)]. intros Q. apply Nat.eqb_neq in E. apply E. eapply (si_cc _ _ _ _ HS); [exact Nx|exact Hi|congruence].
    - apply (si_len _ _ _ _ HS).
    - intros r o m G N N'. apply put_map_old; [|eapply si_maps; eauto]. intros ->. eapply (si_cm _ _ _ _ HS); [exact G|exact Hi|exact N|exact Lc].
    - intros a b x y. rewrite !set_at_nth. rewrite Hi. destruct (Nat.eqb a i) eqn:Ea, (Nat.eqb b i) eqn:Eb; intros Hx Hy E.
      + apply Nat.eqb_eq in Ea, Eb. congruence.
      + injection Hx as <-. apply Nat.eqb_eq in Ea. subst a. eapply (si_cc _ _ _ _ HS); [exact Hi|exact Hy|congruence].
      + injection Hy as <-. apply Nat.eqb_eq in Eb. subst b. eapply (si_cc _ _ _ _ HS); [exact Hx|exact Hi|congruence].
      + eapply (si_cc _ _ _ _ HS); eauto.
    - apply (si_mm _ _ _ _ HS).
    - intros a r x o G. rewrite set_at_nth, Hi. destruct (Nat.eqb a i); [|eapply (si_cm _ _ _ _ HS); eauto]. injection 1 as <-. intros N. rewrite L2, <- Lc. eapply (si_cm _ _ _ _ HS); eauto.
  Qed.
  Lemma put_map_sim : forall r m2, ~ In r gone -> nth_error (w_maps g) r = Some l -> mems_ok T h1 ms m2 ->
    simT T gone (Build_world (W := go_store) h2 (w_creds g) (set_at (w_maps g) r l)) (Build_world (W := value_store) tt (w_creds v) (set_at (w_maps v) r m2)).
  Proof.
    intros r m2 G Hr A. assert (Same : forall s, nth_error (set_at (w_maps g) r l) s = nth_error (w_maps g) s).
    { intros s. rewrite set_at_nth. change (var go_store) with nat in *. rewrite Hr. destruct (Nat.eqb s r) eqn:E; [|reflexivity]. apply Nat.eqb_eq in E. now subst. }
    constructor; cbn [w_mem w_creds w_maps].
    - apply put_below.
    - pose proof (si_creds _ _ _ _ HS) as F. apply F2_nth in F as [Len F]. apply F2_nth. split; [exact Len|]. intros k x y Nx Ny. apply put_cred_old; [|now apply (F k)].
      exact (si_cm _ _ _ _ HS k r x l G Nx Hr).
    - rewrite !set_at_length. apply (si_len _ _ _ _ HS).
    - intros s o m Gs. rewrite Same, set_at_nth. intros No. destruct (Nat.eqb s r) eqn:E.
      + apply Nat.eqb_eq in E. subst s. assert (o = l) by congruence. subst o. destruct (nth_error (w_maps v) r); [|discriminate]. injection 1 as <-.
        split; [assumption|]. exists ms. split; [apply put_cell|]. revert A. apply moves_mems, moves_upd, Hl.
      + intros Nm. apply put_map_old; [|eapply si_maps; eauto]. intros ->. apply Nat.eqb_neq in E. apply E. eapply (si_mm _ _ _ _ HS); eauto.
    - apply (si_cc _ _ _ _ HS).
    - intros a b o Ga Gb. rewrite !Same. eapply (si_mm _ _ _ _ HS); eauto.
    - intros a s c o Gs Na. rewrite Same. eapply (si_cm _ _ _ _ HS); eauto.
  Qed.
End Put.
