(** Go's memory against values: reading is stable, and the code between two writes does the same in both stores. *)
From Verif Require Import GoBase AlModel AlSpec.
Local Open Scope nat_scope.

Notation hmem := (mem go_store).
Fixpoint all_some {A} (l : list (option A)) : option (list A) :=
  match l with [] => Some [] | Some a :: l' => option_map (cons a) (all_some l') | None :: _ => None end.
Definition tag {A B} (f : A -> option B) (kv : string * A) : option (string * B) := option_map (fun b => (fst kv, b)) (f (snd kv)).
Definition inb (l : nat) (T : list nat) : bool := existsb (Nat.eqb l) T.
(** reading without touching the cells of [T] *)
Fixpoint rdT (n : nat) (T : list nat) (h : heap) (v : hval) : option json :=
  match n with O => None | Datatypes.S n =>
    match v with
    | HNull => Some JNull | HBool b => Some (JBool b) | HNum q => Some (JNum q) | HStr s => Some (JStr s)
    | HArr l => if inb l T then None else match nth_error h l with Some (CArr vs) => option_map JArr (all_some (map (rdT n T h) vs)) | _ => None end
    | HObj l => if inb l T then None else match nth_error h l with Some (CObj ms) => option_map JObj (all_some (map (tag (rdT n T h)) ms)) | _ => None end
    end end.
Definition val_ok (T : list nat) (h : heap) (v : hval) (j : json) : Prop := exists n, rdT n T h v = Some j.
Definition vals_ok T h := Forall2 (val_ok T h).
Definition mem_ok T h (a : string * hval) (b : string * json) : Prop := fst a = fst b /\ val_ok T h (snd a) (snd b).
Definition mems_ok T h := Forall2 (mem_ok T h).
Definition below (T : list nat) (h : heap) := forall l, In l T -> l < List.length h.
Definition ext (h h1 : heap) := exists k, h1 = (h ++ k)%list.

Lemma all_some_F2 : forall A B (f : A -> option B) l r, all_some (map f l) = Some r <-> Forall2 (fun a b => f a = Some b) l r.
Proof.
  intros A B f l. induction l as [|a l IH]; intros r; cbn.
  - split; [injection 1 as <-; constructor|intros H; inversion H; reflexivity].
  - split.
    + destruct (f a) as [b|] eqn:E; [|discriminate]. destruct (all_some (map f l)) as [r'|] eqn:R; [|discriminate]. cbn. injection 1 as <-. constructor; [assumption|]. now apply IH.
    + intros H. inversion H as [|? b ? r' Hb Hr]; subst. rewrite Hb. apply IH in Hr. now rewrite Hr.
Qed.
Lemma F2_imp : forall A B (P Q : A -> B -> Prop) l r, (forall a b, In a l -> P a b -> Q a b) -> Forall2 P l r -> Forall2 Q l r.
Proof. intros A B P Q l r H F. induction F; constructor; [apply H; [now left|assumption]|]. apply IHF. intros; apply H; [now right|assumption]. Qed.

Lemma rdT_mono : forall n T h v j, rdT n T h v = Some j -> forall m, n <= m -> rdT m T h v = Some j.
Proof.
  induction n as [|n IH]; [discriminate|]. intros T h v j H m Hm. destruct m as [|m]; [inversion Hm|]. apply le_S_n in Hm. cbn in *.
  destruct v; try assumption; destruct (inb l T); try discriminate; destruct (nth_error h l) as [[vs|ms]|]; try discriminate.
  - destruct (all_some (map (rdT n T h) vs)) as [r|] eqn:E; [|discriminate]. apply all_some_F2 in E.
    replace (all_some (map (rdT m T h) vs)) with (Some r); [assumption|]. symmetry. apply all_some_F2. revert E. apply F2_imp. intros; eapply IH; eauto.
  - destruct (all_some (map (tag (rdT n T h)) ms)) as [r|] eqn:E; [|discriminate]. apply all_some_F2 in E.
    replace (all_some (map (tag (rdT m T h)) ms)) with (Some r); [assumption|]. symmetry. apply all_some_F2. revert E. apply F2_imp.
    intros [k x] [k' y] _. unfold tag. cbn. destruct (rdT n T h x) eqn:E1; [|discriminate]. rewrite (IH _ _ _ _ E1 m Hm). auto.
Qed.
(** reading depends only on the cells read *)
Lemma rdT_cells : forall n T T' h h', (forall l c, inb l T = false -> nth_error h l = Some c -> nth_error h' l = Some c /\ inb l T' = false) ->
  forall v j, rdT n T h v = Some j -> rdT n T' h' v = Some j.
Proof.
  induction n as [|n IH]; [discriminate|]. intros T T' h h' H v j. cbn.
  destruct v; auto; destruct (inb l T) eqn:E; try discriminate; destruct (nth_error h l) as [[vs|ms]|] eqn:N; try discriminate;
    destruct (H _ _ E N) as [N' E']; rewrite N', E'; intros R.
  - destruct (all_some (map (rdT n T h) vs)) as [r|] eqn:Q; [|discriminate]. apply all_some_F2 in Q.
    replace (all_some (map (rdT n T' h') vs)) with (Some r); [assumption|]. symmetry. apply all_some_F2. revert Q. apply F2_imp. intros; eapply IH; eauto.
  - destruct (all_some (map (tag (rdT n T h)) ms)) as [r|] eqn:Q; [|discriminate]. apply all_some_F2 in Q.
    replace (all_some (map (tag (rdT n T' h')) ms)) with (Some r); [assumption|]. symmetry. apply all_some_F2. revert Q. apply F2_imp.
    intros [k x] [k' y] _. unfold tag. cbn. destruct (rdT n T h x) eqn:E1; [|discriminate]. rewrite (IH T T' h h' H _ _ E1). auto.
Qed.
Lemma nth_ext_heap : forall (h k : heap) l c, nth_error h l = Some c -> nth_error (h ++ k)%list l = Some c.
Proof. intros h k l c H. rewrite nth_error_app1; [assumption|]. apply nth_error_Some. congruence. Qed.
Lemma ext_refl : forall h, ext h h. Proof. intros h. exists []. now rewrite app_nil_r. Qed.
Lemma ext_trans : forall a b c, ext a b -> ext b c -> ext a c.
Proof. intros a b c [x ->] [y ->]. exists (x ++ y)%list. now rewrite app_assoc. Qed.
Lemma ext_nth : forall h h1 l c, ext h h1 -> nth_error h l = Some c -> nth_error h1 l = Some c.
Proof. intros h h1 l c [k ->]. apply nth_ext_heap. Qed.
Lemma val_ok_ext : forall T h h1 v j, ext h h1 -> val_ok T h v j -> val_ok T h1 v j.
Proof. intros T h h1 v j E [n H]. exists n. revert H. apply rdT_cells. intros l c Hl N. split; [now apply (ext_nth h)|assumption]. Qed.
Lemma vals_ok_ext : forall T h h1 l r, ext h h1 -> vals_ok T h l r -> vals_ok T h1 l r.
Proof. intros T h h1 l r E. apply F2_imp. intros a b _. now apply val_ok_ext. Qed.
Lemma mems_ok_ext : forall T h h1 l r, ext h h1 -> mems_ok T h l r -> mems_ok T h1 l r.
Proof. intros T h h1 l r E. apply F2_imp. intros a b _ [A B]. split; [assumption|]. revert B. now apply val_ok_ext. Qed.
Lemma below_ext : forall T h h1, ext h h1 -> below T h -> below T h1.
Proof. intros T h h1 [k ->] B l H. rewrite app_length. specialize (B l H). eauto using Nat.lt_le_trans, Nat.le_add_r. Qed.
Lemma inb_In : forall l T, inb l T = true <-> In l T.
Proof.
  intros l T. unfold inb. rewrite existsb_exists. split.
  - intros (x & Hx & E). apply Nat.eqb_eq in E. now subst.
  - intros H. exists l. split; [assumption|apply Nat.eqb_refl].
Qed.
Lemma inb_fresh : forall T h, below T h -> inb (List.length h) T = false.
Proof. intros T h B. destruct (inb (List.length h) T) eqn:E; [|reflexivity]. apply inb_In in E. apply B in E. now apply Nat.lt_irrefl in E. Qed.
(** a common amount of steps for several values *)
Lemma common_n : forall (A B : Type) (P : nat -> A -> B -> Prop), (forall n m a b, n <= m -> P n a b -> P m a b) ->
  forall l r, Forall2 (fun a b => exists n, P n a b) l r -> exists n, Forall2 (P n) l r.
Proof.
  intros A B P Hm l r F. induction F as [|a b l r [n Ha] _ [m IH]]; [exists 0; constructor|]. exists (max n m). constructor.
  - revert Ha. apply Hm, Nat.le_max_l.
  - revert IH. apply F2_imp. intros x y _. apply Hm, Nat.le_max_r.
Qed.
Lemma val_ok_arr : forall T h l vs js, inb l T = false -> nth_error h l = Some (CArr vs) -> vals_ok T h vs js -> val_ok T h (HArr l) (JArr js).
Proof.
  intros T h l vs js E N F. destruct (common_n _ _ (fun n v j => rdT n T h v = Some j)) with (l := vs) (r := js) as [n Hn]; [intros; eapply rdT_mono; eauto|assumption|].
  exists (Datatypes.S n). cbn. rewrite E, N. apply all_some_F2 in Hn. now rewrite Hn.
Qed.
Lemma val_ok_obj : forall T h l ms js, inb l T = false -> nth_error h l = Some (CObj ms) -> mems_ok T h ms js -> val_ok T h (HObj l) (JObj js).
Proof.
  intros T h l ms js E N F. destruct (common_n _ _ (fun n (a : string * hval) b => tag (rdT n T h) a = Some b)) with (l := ms) (r := js) as [n Hn].
  - intros n m [k x] [k' y] Hle. unfold tag. cbn. destruct (rdT n T h x) eqn:E1; [|discriminate]. now rewrite (rdT_mono _ _ _ _ _ E1 m Hle).
  - revert F. apply F2_imp. intros [k x] [k' y] _ [A [n B]]. cbn in *. subst. exists n. unfold tag. cbn. now rewrite B.
  - exists (Datatypes.S n). cbn. rewrite E, N. apply all_some_F2 in Hn. now rewrite Hn.
Qed.
Lemma val_ok_view : forall T h v j, val_ok T h v j ->
  match j with
  | JNull => v = HNull | JBool b => v = HBool b | JNum q => v = HNum q | JStr s => v = HStr s
  | JArr js => exists l vs, v = HArr l /\ inb l T = false /\ nth_error h l = Some (CArr vs) /\ vals_ok T h vs js
  | JObj js => exists l ms, v = HObj l /\ inb l T = false /\ nth_error h l = Some (CObj ms) /\ mems_ok T h ms js
  end.
Proof.
  intros T h v j [[|n] H]; [discriminate|]. cbn in H. destruct v; try (injection H as <-; reflexivity); destruct (inb l T) eqn:E; try discriminate;
    destruct (nth_error h l) as [[vs|ms]|] eqn:N; try discriminate.
  - destruct (all_some _) as [r|] eqn:Q; [|discriminate]. injection H as <-. apply all_some_F2 in Q. exists l, vs. repeat split; auto. revert Q. apply F2_imp. intros a b _ Hab. now exists n.
  - destruct (all_some _) as [r|] eqn:Q; [|discriminate]. injection H as <-. apply all_some_F2 in Q. exists l, ms. repeat split; auto. revert Q. apply F2_imp.
    intros [k x] [k' y] _. unfold tag. cbn. destruct (rdT n T h x) eqn:E1; [|discriminate]. cbn. injection 1 as <- <-. split; [reflexivity|]. now exists n.
Qed.
Lemma val_ok_reads : forall n T h v j, rdT n T h v = Some j -> reads h v j.
Proof.
  induction n as [|n IH]; [discriminate|]. intros T h v j H. cbn in H. destruct v; try (injection H as <-; constructor); destruct (inb l T) eqn:E; try discriminate;
    destruct (nth_error h l) as [[vs|ms]|] eqn:N; try discriminate.
  - destruct (all_some _) as [r|] eqn:Q; [|discriminate]. injection H as <-. apply all_some_F2 in Q. apply (rd_arr h l vs); [assumption|]. revert Q. apply F2_imp. intros a b _ Hab. eapply IH; eauto.
  - destruct (all_some _) as [r|] eqn:Q; [|discriminate]. injection H as <-. apply all_some_F2 in Q. apply (rd_obj h l ms); [assumption|]. revert Q. apply F2_imp.
    intros [k x] [k' y] _. unfold tag. cbn. destruct (rdT n T h x) eqn:E1; [|discriminate]. cbn. injection 1 as <- <-. split; [reflexivity|]. eapply IH; eauto.
Qed.

(** ** The same code in both stores *)
Definition shape_ok T h (x : shape hval) (y : shape json) : Prop :=
  match x, y with
  | SNull, SNull => True | SBool a, SBool b => a = b | SNum a, SNum b => a = b | SStr a, SStr b => a = b
  | SArr vs, SArr js => vals_ok T h vs js | SObj ms, SObj js => mems_ok T h ms js | _, _ => False
  end.
Lemma look_ok : forall T h v j, val_ok T h v j -> shape_ok T h (go_look h v) (value_look j).
Proof.
  intros T h v j H. apply val_ok_view in H. destruct j; cbn in H |- *; first [subst v; cbn; auto; fail | destruct H as (a & vs & -> & E & N & F); cbn; now rewrite N].
Qed.
Lemma make_ok : forall T h x y, below T h -> shape_ok T h x y -> ext h (fst (go_make h x)) /\ val_ok T (fst (go_make h x)) (snd (go_make h x)) (value_make y).
Proof.
  intros T h x y B H. destruct x, y; cbn in H; try contradiction; subst; cbn.
  1-4: split; [apply ext_refl|exists 1; reflexivity].
  - split; [now eexists|]. apply (val_ok_arr T _ _ l); [now apply inb_fresh| |apply (vals_ok_ext T h); [now eexists|assumption]].
    rewrite nth_error_app2, Nat.sub_diag by apply le_n. reflexivity.
  - split; [now eexists|]. apply (val_ok_obj T _ _ m); [now apply inb_fresh| |apply (mems_ok_ext T h); [now eexists|assumption]].
    rewrite nth_error_app2, Nat.sub_diag by apply le_n. reflexivity.
Qed.
(** results: both fail alike, or both succeed with related values *)
Definition rel {A B} (T : list nat) (P : heap -> A -> B -> Prop) (h : heap) (x : res (hmem * A)) (y : res (mem value_store * B)) : Prop :=
  match x, y with Ok (h1, a), Ok (_, b) => ext h h1 /\ P h1 a b | Err e, Err e' => e = e' | Panic, Panic => True | _, _ => False end.
Lemma rel_bnd : forall A B A' B' T (P : heap -> A -> A' -> Prop) (Q : heap -> B -> B' -> Prop) h (m : st go_store A) (m' : st value_store A') f f',
  rel T P h (m h) (m' tt) -> (forall h1 a b, ext h h1 -> P h1 a b -> rel T Q h1 (f a h1) (f' b tt)) -> rel T Q h (bnd go_store m f h) (bnd value_store m' f' tt).
Proof.
  intros A B A' B' T P Q h m m' f f' H K. unfold bnd. destruct (m h) as [[h1 a]| |], (m' tt) as [[[] b]| |]; cbn in *; try contradiction; auto.
  destruct H as [E Hp]. specialize (K h1 a b E Hp). destruct (f a h1) as [[h2 c]| |], (f' b tt) as [[[] d]| |]; cbn in *; try contradiction; auto.
  destruct K as [E2 Hq]. split; [eapply ext_trans; eassumption|assumption].
Qed.
Lemma rel_ret : forall A B T (P : heap -> A -> B -> Prop) h a b, P h a b -> rel T P h (ret go_store a h) (ret value_store b tt).
Proof. intros. split; [apply ext_refl|assumption]. Qed.
Lemma rel_fail : forall A B T (P : heap -> A -> B -> Prop) h e, rel T P h (fail go_store e h) (fail value_store e tt).
Proof. intros. reflexivity. Qed.
Lemma rel_mk : forall T h x y, below T h -> shape_ok T h x y -> rel T (val_ok T) h (mk go_store x h) (mk value_store y tt).
Proof.
  intros T h x y B H. destruct (make_ok T h x y B H) as [E V]. unfold mk. cbn [make go_store value_store]. destruct (go_make h x) as [h1 v]. cbn in *. auto.
Qed.
Lemma rel_lk : forall T h v j, val_ok T h v j -> rel T (shape_ok T) h (lk go_store v h) (lk value_store j tt).
Proof. intros T h v j H. split; [apply ext_refl|]. now apply look_ok. Qed.
Lemma rel_each : forall A A' B B' T (R : heap -> A -> A' -> Prop) (P : heap -> B -> B' -> Prop) (f : A -> st go_store B) (f' : A' -> st value_store B'),
  (forall h h1 a b, ext h h1 -> R h a b -> R h1 a b) -> (forall h h1 a b, ext h h1 -> P h a b -> P h1 a b) ->
  forall l l' h, (forall h1 a b, ext h h1 -> R h1 a b -> rel T P h1 (f a h1) (f' b tt)) -> Forall2 (R h) l l' ->
  rel T (fun h => Forall2 (P h)) h (each go_store f l h) (each value_store f' l' tt).
Proof.
  intros A A' B B' T R P f f' HR HP l l' h Hf F. revert h Hf F. revert l'. induction l as [|a l IH]; intros l' h Hf F; inversion F as [|? b ? r Hab Hr]; subst; cbn [each].
  - apply rel_ret. constructor.
  - eapply rel_bnd; [apply Hf; [apply ext_refl|assumption]|]. intros h1 y y' E1 Hy. eapply rel_bnd.
    + apply IH; [intros h2 ? ? E2; apply Hf; eapply ext_trans; eassumption|]. revert Hr. apply F2_imp. intros; eapply HR; eassumption.
    + intros h2 ys ys' E2 Hys. apply rel_ret. constructor; [eapply HP; eassumption|assumption].
Qed.
(** members *)
Lemma mems_get : forall T h ms js k, mems_ok T h ms js ->
  match mget ms k, mget js k with Some v, Some j => val_ok T h v j | None, None => True | _, _ => False end.
Proof.
  intros T h ms js k F. induction F as [|[k1 v] [k2 j] ms js [A B] F IH]; cbn in *; [exact I|]. subst k2. destruct (String.eqb k k1); assumption.
Qed.
Lemma mems_set : forall T h ms js k v j, mems_ok T h ms js -> val_ok T h v j -> mems_ok T h (mset ms k v) (mset js k j).
Proof.
  intros T h ms js k v j F V. induction F as [|[k1 w] [k2 u] ms js [A B] F IH]; cbn in *; [repeat constructor; assumption|]. subst k2.
  destruct (String.eqb k k1); constructor; try assumption; split; auto.
Qed.
Lemma mems_del : forall T h ms js k, mems_ok T h ms js -> mems_ok T h (mdel ms k) (mdel js k).
Proof. intros T h ms js k F. induction F as [|[k1 w] [k2 u] ms js [A B] F IH]; cbn in *; [constructor|]. subst k2. destruct (String.eqb k k1); [assumption|]. constructor; [now split|assumption]. Qed.
Lemma mems_has : forall T h ms js k, mems_ok T h ms js -> mhas ms k = mhas js k.
Proof. intros T h ms js k F. unfold mhas. pose proof (mems_get T h ms js k F) as H. destruct (mget ms k), (mget js k); now try contradiction. Qed.
Lemma mems_without : forall T h ms js keys, mems_ok T h ms js -> mems_ok T h (without go_store keys ms) (without value_store keys js).
Proof.
  intros T h ms js keys F. induction F as [|[k1 w] [k2 u] ms js [A B] F IH]; [constructor|]. cbn in A. subst k2. unfold without. cbn [filter fst].
  destruct (str_in k1 keys); cbn [negb]; [exact IH|]. constructor; [now split|exact IH].
Qed.
Lemma mems_combine : forall T h ks vs js, vals_ok T h vs js -> mems_ok T h (combine ks vs) (combine ks js).
Proof. intros T h ks vs js F. revert ks. induction F as [|v j vs js V F IH]; intros [|k ks]; cbn; constructor; [now split|apply IH]. Qed.
Lemma mems_app : forall T h a b a' b', mems_ok T h a a' -> mems_ok T h b b' -> mems_ok T h (a ++ b)%list (a' ++ b')%list.
Proof. intros. now apply Forall2_app. Qed.
Lemma mems_add_missing : forall T h ms js e e', mems_ok T h ms js -> mems_ok T h e e' -> mems_ok T h (add_missing go_store ms e) (add_missing value_store js e').
Proof.
  intros T h ms js e e' F G. revert ms js F. induction G as [|[k v] [k' j] e e' [A B] G IH]; intros ms js F; [assumption|]. cbn in A, B. subst k'.
  unfold add_missing. cbn [fold_left fst snd]. apply IH. change (val go_store) with hval. change (val value_store) with json. rewrite (mems_has T h ms js k F). destruct (mhas js k); [assumption|]. now apply mems_set.
Qed.

Lemma load_ok : forall T j h, below T h -> rel T (val_ok T) h (load go_store j h) (load value_store j tt).
Proof.
  intros T j. induction j using json_ind'; intros h B; cbn [load]; try (apply rel_mk; [assumption|reflexivity]).
  - eapply rel_bnd with (P := vals_ok T).
    + revert h B. induction H as [|x l Hx _ IH]; intros h B; [apply rel_ret; constructor|]. eapply rel_bnd; [apply Hx, B|]. intros h1 y y' E1 Hy. eapply rel_bnd.
      * apply IH. now apply (below_ext T h).
      * intros h2 ys ys' E2 Hys. apply rel_ret. constructor; [now apply (val_ok_ext T h1)|assumption].
    + intros h1 vs js E1 Hvs. apply rel_mk; [now apply (below_ext T h)|assumption].
  - eapply rel_bnd with (P := mems_ok T).
    + revert h B. induction H as [|[k x] l Hx _ IH]; intros h B; [apply rel_ret; constructor|]. cbn in Hx. eapply rel_bnd; [apply Hx, B|]. intros h1 y y' E1 Hy. eapply rel_bnd.
      * apply IH. now apply (below_ext T h).
      * intros h2 ys ys' E2 Hys. apply rel_ret. constructor; [split; [reflexivity|now apply (val_ok_ext T h1)]|assumption].
    + intros h1 vs js E1 Hvs. apply rel_mk; [now apply (below_ext T h)|assumption].
Qed.
Lemma loads_ok : forall T l h, below T h -> rel T (vals_ok T) h (each go_store (load go_store) l h) (each value_store (load value_store) l tt).
Proof.
  intros T l h B. apply (rel_each json json hval json T (fun _ a b => a = b) (val_ok T)); auto.
  - intros; eapply val_ok_ext; eassumption.
  - intros h1 a b E ->. apply load_ok. now apply (below_ext T h).
  - induction l; constructor; auto.
Qed.
Lemma load_members_ok : forall T m h, below T h -> rel T (mems_ok T) h (load_members go_store m h) (load_members value_store m tt).
Proof.
  intros T m h B. unfold load_members. eapply rel_bnd with (P := vals_ok T).
  - apply (rel_each (string * json) (string * json) hval json T (fun _ a b => a = b) (val_ok T)); auto.
    + intros; eapply val_ok_ext; eassumption.
    + intros h1 a b E ->. apply load_ok. now apply (below_ext T h).
    + induction m; constructor; auto.
  - intros h1 vs js E F. apply rel_ret. now apply mems_combine.
Qed.
