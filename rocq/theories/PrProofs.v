(** Proofs about PrModel: Go's memory shows the values when lists are appended to only at their end, and writes go to lists and maps nobody shares. *)
From Coq Require Import String List Arith Bool Lia.
From Verif Require Import GoBase PrModel PrSpec.
Import ListNotations.
Local Open Scope list_scope.
Local Open Scope nat_scope.

(** ** Lists *)
Lemma put_nth_length {A} : forall (l : list A) n x, List.length (put_nth l n x) = List.length l.
Proof. induction l; destruct n; cbn; intros; auto. Qed.
Lemma nth_put {A} : forall (l : list A) n x i, nth_error (put_nth l n x) i = if (i =? n) && (n <? List.length l) then Some x else nth_error l i.
Proof.
  induction l as [|y l IH]; intros n x i; cbn [put_nth List.length].
  - rewrite andb_false_r. reflexivity.
  - destruct n as [|n], i as [|i]; cbn [nth_error]; try reflexivity. apply IH.
Qed.
Lemma firstn_put {A} : forall (l : list A) n k x, n <= k -> firstn n (put_nth l k x) = firstn n l.
Proof. induction l as [|y l IH]; intros n k x Hle; destruct n, k; cbn; try reflexivity; try lia. f_equal. apply IH. lia. Qed.
Lemma firstn_put_at {A} : forall (l : list A) k x, k < List.length l -> firstn (Datatypes.S k) (put_nth l k x) = firstn k l ++ [x].
Proof. induction l as [|y l IH]; intros k x Hlt; cbn in Hlt; [lia|]. destruct k; cbn [put_nth firstn app]; [reflexivity|]. f_equal. apply IH. lia. Qed.
Lemma firstn_put_in {A} : forall (l : list A) n k x, firstn n (put_nth l k x) = put_nth (firstn n l) k x.
Proof. induction l as [|y l IH]; intros n k x; destruct n, k; cbn; try reflexivity. f_equal. apply IH. Qed.
Lemma at_put {A} (z : A) s v x i : at_ z (put_nth s v x) i = if (i =? v) && (v <? List.length s) then x else at_ z s i.
Proof. unfold at_. rewrite nth_put, put_nth_length. destruct ((i =? v) && (v <? List.length s)); reflexivity. Qed.
Lemma at_app {A} (z : A) s x i : i < List.length s -> at_ z (s ++ [x]) i = at_ z s i.
Proof. intros Hlt. unfold at_. rewrite nth_error_app1 by exact Hlt. destruct (nth_error s i) eqn:E; [reflexivity|]. apply nth_error_None in E. lia. Qed.
Lemma at_last {A} (z : A) s x : at_ z (s ++ [x]) (List.length s) = x.
Proof. unfold at_. rewrite nth_error_app2, Nat.sub_diag by lia. reflexivity. Qed.
Lemma at_out {A} (z : A) s i : List.length s <= i -> at_ z s i = (List.length s, z).
Proof. intros Hle. unfold at_. rewrite (proj2 (nth_error_None s i)) by exact Hle. reflexivity. Qed.
Lemma at_in {A} (z : A) s i : i < List.length s -> nth_error s i = Some (at_ z s i).
Proof. intros Hlt. unfold at_. destruct (nth_error s i) eqn:E; [reflexivity|]. apply nth_error_None in E. lia. Qed.
Lemma two_filter {A} (P : A -> bool) : forall (s : list A) i j a b, i <> j -> nth_error s i = Some a -> nth_error s j = Some b -> P a = true -> P b = true -> 2 <= List.length (filter P s).
Proof.
  assert (one : forall (s : list A) i a, nth_error s i = Some a -> P a = true -> 1 <= List.length (filter P s)).
  { induction s as [|y s IH]; intros [|i] a Hi Ha; cbn in Hi; try discriminate.
    - injection Hi as ->. cbn. rewrite Ha. cbn. lia.
    - cbn. specialize (IH i a Hi Ha). destruct (P y); cbn; lia. }
  induction s as [|y s IH]; intros [|i] [|j] a b Hij Hi Hj Ha Hb; cbn in Hi, Hj; try discriminate; try congruence.
  - injection Hi as ->. cbn. rewrite Ha. cbn. specialize (one s j b Hj Hb). lia.
  - injection Hj as ->. cbn. rewrite Hb. cbn. specialize (one s i a Hi Ha). lia.
  - cbn. specialize (IH i j a b ltac:(congruence) Hi Hj Ha Hb). destruct (P y); cbn; lia.
Qed.
Lemma alone_spec {A} (z : A) s v i : alone z s v = true -> v < List.length s -> i <> v -> i < List.length s -> fst (at_ z s i) <> fst (at_ z s v).
Proof.
  unfold alone. intros Ha Hv Hne Hi E. apply Nat.leb_le in Ha.
  pose proof (two_filter (fun e => fst e =? fst (at_ z s v)) s i v _ _ Hne (at_in z s i Hi) (at_in z s v Hv)) as H2.
  cbn beta in H2. rewrite E, Nat.eqb_refl in H2. specialize (H2 eq_refl eq_refl). lia.
Qed.
Lemma longest_spec s v i : longest s v = true -> i < List.length s -> fst (at_ [] s i) = fst (at_ [] s v) -> List.length (snd (at_ [] s i)) <= List.length (snd (at_ [] s v)).
Proof.
  unfold longest. intros Hl Hi E. rewrite forallb_forall in Hl. specialize (Hl (at_ [] s i) (nth_error_In _ _ (at_in [] s i Hi))).
  rewrite E, Nat.eqb_refl in Hl. cbn in Hl. apply Nat.leb_le. exact Hl.
Qed.

(** ** Go's slices show the values *)
Definition good (g : gomem) (sl : slice) (xs : list string) : Prop :=
  s_len sl = List.length xs /\
  match s_arr sl with None => xs = [] | Some a => exists c, nth_error (g_arrs g) a = Some c /\ firstn (List.length xs) c = xs /\ List.length xs <= List.length c end.
Definition Rl (g : gomem) (s : list (nat * list string)) : Prop :=
  List.length (g_vars g) = List.length s /\ (forall v, good g (slice_of g v) (snd (at_ [] s v))) /\
  (forall i j a, s_arr (slice_of g i) = Some a -> s_arr (slice_of g j) = Some a -> fst (at_ [] s i) = fst (at_ [] s j)).
Lemma slice_put arrs vars v x i : slice_of {| g_arrs := arrs; g_vars := put_nth vars v x |} i = if (i =? v) && (v <? List.length vars) then x else slice_of {| g_arrs := arrs; g_vars := vars |} i.
Proof. unfold slice_of. cbn [g_vars]. rewrite nth_put. destruct ((i =? v) && (v <? List.length vars)); reflexivity. Qed.
Lemma slice_app arrs vars x i : slice_of {| g_arrs := arrs; g_vars := vars ++ [x] |} i = if i <? List.length vars then slice_of {| g_arrs := arrs; g_vars := vars |} i else if i =? List.length vars then x else nil_slice.
Proof.
  unfold slice_of. cbn [g_vars]. destruct (i <? List.length vars) eqn:E.
  - apply Nat.ltb_lt in E. rewrite nth_error_app1 by exact E. reflexivity.
  - apply Nat.ltb_ge in E. rewrite nth_error_app2 by exact E. destruct (Nat.eqb_spec i (List.length vars)) as [->|Hne]; [rewrite Nat.sub_diag; reflexivity|].
    destruct (i - List.length vars) as [|k] eqn:Ek; [lia|]. cbn. destruct k; reflexivity.
Qed.
Lemma slice_eta g arrs i : slice_of {| g_arrs := arrs; g_vars := g_vars g |} i = slice_of g i.
Proof. reflexivity. Qed.
Lemma slice_out g v : List.length (g_vars g) <= v -> slice_of g v = nil_slice.
Proof. intros Hle. unfold slice_of. rewrite (proj2 (nth_error_None _ _)) by exact Hle. reflexivity. Qed.
Lemma good_read g v xs : good g (slice_of g v) xs -> g_read g v = xs.
Proof.
  intros [Hlen Ha]. unfold g_read, cells. rewrite Hlen. destruct (s_arr (slice_of g v)) as [a|].
  - destruct Ha as (c & Hc & Hf & _). rewrite Hc. exact Hf.
  - subst xs. reflexivity.
Qed.
Lemma Rl_read g s v : Rl g s -> g_read g v = snd (at_ [] s v).
Proof. intros (_ & Hg & _). apply good_read, Hg. Qed.
Lemma good_arrs g arrs vars sl xs : good g sl xs -> (forall a c, s_arr sl = Some a -> nth_error (g_arrs g) a = Some c -> nth_error arrs a = Some c) -> good {| g_arrs := arrs; g_vars := vars |} sl xs.
Proof.
  intros [Hlen Ha] Hk. split; [exact Hlen|]. destruct (s_arr sl) as [a|]; [|exact Ha]. destruct Ha as (c & Hc & H). exists c. split; [apply Hk; [reflexivity|exact Hc]|exact H].
Qed.
Lemma good_nil g : good g nil_slice [].
Proof. split; reflexivity. Qed.
Lemma good_app g x vars sl xs : good g sl xs -> good {| g_arrs := g_arrs g ++ [x]; g_vars := vars |} sl xs.
Proof. intros Hg. apply (good_arrs g); [exact Hg|]. intros a c _ Hc. rewrite nth_error_app1; [exact Hc|]. apply nth_error_Some. rewrite Hc. discriminate. Qed.
Lemma good_bound g sl xs a : good g sl xs -> s_arr sl = Some a -> a < List.length (g_arrs g).
Proof. intros [_ Ha] E. rewrite E in Ha. destruct Ha as (c & Hc & _). apply nth_error_Some. rewrite Hc. discriminate. Qed.

Lemma Rl_make g s xs : Rl g s -> Rl (g_make g xs) (s ++ [(List.length s, xs)]).
Proof.
  intros (Hn & Hg & Hs). destruct g as [arrs vars]. cbn [g_vars g_arrs] in *.
  assert (Hgen : forall arrs' sl, (forall i, good {| g_arrs := arrs'; g_vars := vars ++ [sl] |} (slice_of {| g_arrs := arrs; g_vars := vars |} i) (snd (at_ [] s i))) ->
    good {| g_arrs := arrs'; g_vars := vars ++ [sl] |} sl xs -> (forall i a, s_arr sl = Some a -> s_arr (slice_of {| g_arrs := arrs; g_vars := vars |} i) <> Some a) ->
    Rl {| g_arrs := arrs'; g_vars := vars ++ [sl] |} (s ++ [(List.length s, xs)])).
  { intros arrs' sl Hold Hnew Hfresh. split; [cbn; rewrite !app_length; cbn; lia|]. split.
    - intros v. rewrite slice_app. destruct (Nat.ltb_spec v (List.length vars)) as [Hlt|Hge].
      + rewrite at_app by lia. exact (Hold v).
      + destruct (Nat.eqb_spec v (List.length vars)) as [->|Hne]; [rewrite Hn, at_last; exact Hnew|].
        rewrite at_out by (rewrite app_length; cbn; lia). apply good_nil.
    - intros i j a. rewrite !slice_app. destruct (Nat.ltb_spec i (List.length vars)) as [Hi|Hi]; destruct (Nat.ltb_spec j (List.length vars)) as [Hj|Hj]; intros Ei Ej.
      + rewrite !at_app by lia. exact (Hs i j a Ei Ej).
      + destruct (j =? List.length vars); [|discriminate Ej]. destruct (Hfresh i a Ej Ei).
      + destruct (i =? List.length vars); [|discriminate Ei]. destruct (Hfresh j a Ei Ej).
      + destruct (Nat.eqb_spec i (List.length vars)) as [->|]; [|discriminate Ei]. destruct (Nat.eqb_spec j (List.length vars)) as [->|]; [|discriminate Ej]. reflexivity. }
  destruct xs as [|x xs]; cbn [g_make g_arrs g_vars].
  - apply Hgen; [exact Hg|apply good_nil|]. intros i a E. discriminate E.
  - apply Hgen.
    + intros i. apply (good_app {| g_arrs := arrs; g_vars := vars |}), Hg.
    + split; [reflexivity|]. cbn [s_arr g_arrs]. exists (x :: xs). rewrite nth_error_app2, Nat.sub_diag by lia. split; [reflexivity|]. split; [apply firstn_all|lia].
    + intros i a E E'. cbn in E. injection E as <-. pose proof (good_bound _ _ _ _ (Hg i) E') as Hb. cbn in Hb. lia.
Qed.
Lemma Rl_share g s v : Rl g s -> Rl (g_share g v) (s ++ [at_ [] s v]).
Proof.
  intros (Hn & Hg & Hs). destruct g as [arrs vars]. cbn [g_vars g_arrs] in *. unfold g_share. cbn [g_arrs g_vars].
  assert (Hat : forall i, at_ [] (s ++ [at_ [] s v]) i = if i <? List.length s then at_ [] s i else if i =? List.length s then at_ [] s v else (List.length s + 1, [])).
  { intros i. destruct (Nat.ltb_spec i (List.length s)) as [H|H]; [apply at_app, H|]. destruct (Nat.eqb_spec i (List.length s)) as [->|Hne]; [apply at_last|].
    rewrite at_out; rewrite app_length; cbn; [reflexivity|lia]. }
  split; [cbn; rewrite !app_length; cbn; lia|]. split.
  - intros i. rewrite slice_app, Hat, Hn. destruct (i <? List.length s); [exact (Hg i)|]. destruct (i =? List.length s); [exact (Hg v)|apply good_nil].
  - intros i j a. rewrite !slice_app, !Hat, Hn.
    destruct (i <? List.length s); [|destruct (i =? List.length s)]; (destruct (j <? List.length s); [|destruct (j =? List.length s)]); intros Ei Ej; try discriminate Ei; try discriminate Ej;
      first [exact (Hs i j a Ei Ej)|exact (Hs i v a Ei Ej)|exact (Hs v j a Ei Ej)|exact (Hs v v a Ei Ej)].
Qed.
Lemma put_out {A} : forall (l : list A) n x, List.length l <= n -> put_nth l n x = l.
Proof. induction l; destruct n; cbn; intros; try reflexivity; try lia. f_equal. apply IHl. lia. Qed.
Lemma Rl_arrs g s arrs : Rl g s -> (forall a c, nth_error (g_arrs g) a = Some c -> nth_error arrs a = Some c) -> Rl {| g_arrs := arrs; g_vars := g_vars g |} s.
Proof.
  intros (Hn & Hg & Hs) Hk. split; [exact Hn|]. split; [|exact Hs]. intros v. apply (good_arrs g); [exact (Hg v)|]. intros a c _. apply Hk.
Qed.
(** a variable moved to a new array *)
Lemma Rl_move g s v sl xs c : Rl g s -> v < List.length s -> s_arr sl = Some (List.length (g_arrs g)) -> s_len sl = List.length xs -> firstn (List.length xs) c = xs -> List.length xs <= List.length c ->
  Rl {| g_arrs := g_arrs g ++ [c]; g_vars := put_nth (g_vars g) v sl |} (put_nth s v (fst (at_ [] s v), xs)).
Proof.
  intros (Hn & Hg & Hs) Hv Ha Hl Hf Hle. split; [cbn; rewrite !put_nth_length; exact Hn|]. split.
  - intros i. rewrite slice_put, at_put, Hn. destruct ((i =? v) && (v <? List.length s)).
    + split; [exact Hl|]. rewrite Ha. exists c. cbn [g_arrs]. rewrite nth_error_app2, Nat.sub_diag by lia. repeat split; assumption.
    + apply good_app, (Hg i).
  - intros i j a. rewrite !slice_put, !at_put, Hn. rewrite !slice_eta.
    destruct (Nat.eqb_spec i v) as [->|Hi]; destruct (Nat.eqb_spec j v) as [->|Hj]; rewrite ?(proj2 (Nat.ltb_lt v (List.length s)) Hv); cbn [andb fst].
    + reflexivity.
    + intros E E'. exfalso. rewrite Ha in E. injection E as <-. pose proof (good_bound _ _ _ _ (Hg j) E'). lia.
    + intros E E'. exfalso. rewrite Ha in E'. injection E' as <-. pose proof (good_bound _ _ _ _ (Hg i) E). lia.
    + apply Hs.
Qed.
Lemma Rl_push grow g s v x : (forall n, n < grow n) -> Rl g s -> longest s v = true -> Rl (g_push grow g v x) (put_nth s v (fst (at_ [] s v), snd (at_ [] s v) ++ [x])).
Proof.
  intros Hgrow HR Hlong. destruct (Nat.lt_ge_cases v (List.length s)) as [Hv|Hv].
  2:{ rewrite put_out by exact Hv. destruct HR as (Hn & HR'). assert (Hs : slice_of g v = nil_slice) by (apply slice_out; lia).
      unfold g_push. rewrite Hs. cbn [s_arr nil_slice]. rewrite put_out by lia. apply Rl_arrs; [split; assumption|]. intros a c Hc. rewrite nth_error_app1; [exact Hc|]. apply nth_error_Some. rewrite Hc. discriminate. }
  pose proof HR as (Hn & Hg & Hs). pose proof (Hg v) as [Hlen Harr]. unfold g_push.
  destruct (s_arr (slice_of g v)) as [a|] eqn:Ea.
  - destruct Harr as (c & Hc & Hf & Hle). assert (Hcells : cells g (slice_of g v) = c) by (unfold cells; rewrite Ea, Hc; reflexivity). rewrite Hcells, Hlen.
    destruct (Nat.ltb_spec (List.length (snd (at_ [] s v))) (List.length c)) as [Hlt|Hge].
    + split; [cbn; rewrite !put_nth_length; exact Hn|]. assert (Hal : a < List.length (g_arrs g)) by (apply nth_error_Some; rewrite Hc; discriminate). split.
      * intros i. rewrite slice_put, at_put, Hn. rewrite !slice_eta. destruct ((i =? v) && (v <? List.length s)) eqn:Ei.
        -- cbn [snd]. split; [cbn; rewrite app_length; cbn; lia|]. cbn [s_arr g_arrs]. exists (put_nth c (List.length (snd (at_ [] s v))) x).
           rewrite nth_put, Nat.eqb_refl, (proj2 (Nat.ltb_lt _ _) Hal). cbn [andb]. split; [reflexivity|]. rewrite app_length. cbn [List.length]. rewrite put_nth_length. split; [|lia].
           rewrite Nat.add_1_r, firstn_put_at by exact Hlt. rewrite Hf. reflexivity.
        -- assert (Hiv : i <> v). { intros ->. rewrite Nat.eqb_refl, (proj2 (Nat.ltb_lt _ _) Hv) in Ei. discriminate. }
           pose proof (Hg i) as [Hli Hai]. split; [exact Hli|]. destruct (s_arr (slice_of g i)) as [b|] eqn:Eb; [|exact Hai]. destruct Hai as (d & Hd & Hfd & Hld). cbn [g_arrs]. rewrite nth_put.
           destruct (Nat.eqb_spec b a) as [->|Hne]; cbn [andb].
           ++ rewrite (proj2 (Nat.ltb_lt _ _) Hal). rewrite Hc in Hd. injection Hd as <-. exists (put_nth c (List.length (snd (at_ [] s v))) x). split; [reflexivity|]. rewrite put_nth_length.
              assert (Hil : i < List.length s). { destruct (Nat.lt_ge_cases i (List.length s)) as [H|H]; [exact H|]. rewrite slice_out in Eb by lia. discriminate Eb. }
              pose proof (longest_spec s v i Hlong Hil (Hs i v a Eb Ea)) as Hmax. rewrite firstn_put by exact Hmax. split; assumption.
           ++ exists d. split; [exact Hd|]. split; assumption.
      * intros i j b. rewrite !slice_put, !at_put, Hn. rewrite !slice_eta.
        assert (Hf1 : forall i, fst (if (i =? v) && (v <? List.length s) then (fst (at_ [] s v), snd (at_ [] s v) ++ [x]) else at_ [] s i) = fst (at_ [] s i)).
        { intros k. destruct (Nat.eqb_spec k v) as [->|]; cbn [andb]; [destruct (v <? List.length s); reflexivity|reflexivity]. }
        assert (Ha1 : forall i, s_arr (if (i =? v) && (v <? List.length s) then {| s_arr := Some a; s_len := Datatypes.S (List.length (snd (at_ [] s v))) |} else slice_of g i) = s_arr (slice_of g i)).
        { intros k. destruct (Nat.eqb_spec k v) as [->|]; cbn [andb]; [destruct (v <? List.length s); [cbn; symmetry; exact Ea|reflexivity]|reflexivity]. }
        rewrite !Hf1, !Ha1. apply Hs.
    + assert (Hcl : List.length c = List.length (snd (at_ [] s v))) by lia. assert (Hcc : c = snd (at_ [] s v)). { rewrite <- Hf, <- Hcl, firstn_all. reflexivity. }
      apply (Rl_move g s v _ (snd (at_ [] s v) ++ [x]) _ HR Hv); [reflexivity|cbn; rewrite app_length; cbn; lia| |].
      * rewrite Hcc, app_assoc, firstn_app, firstn_all, Nat.sub_diag. cbn. apply app_nil_r.
      * rewrite Hcc, !app_length. cbn. lia.
  - rewrite Harr. cbn [app]. apply (Rl_move g s v _ [x] _ HR Hv); [reflexivity|reflexivity|reflexivity|cbn; lia].
Qed.
Lemma Rl_write g s v k x : Rl g s -> alone [] s v = true -> Rl (g_write g v k x) (put_nth s v (fst (at_ [] s v), put_nth (snd (at_ [] s v)) k x)).
Proof.
  intros HR Halone. pose proof HR as (Hn & Hg & Hs). unfold g_write.
  assert (Hsame : forall xs, put_nth (snd (at_ [] s v)) k x = xs -> xs = snd (at_ [] s v) -> Rl g (put_nth s v (fst (at_ [] s v), xs))).
  { intros xs _ ->. rewrite <- surjective_pairing. split; [rewrite put_nth_length; exact Hn|].
    assert (Hp : forall i, at_ [] (put_nth s v (at_ [] s v)) i = at_ [] s i). { intros i. rewrite at_put. destruct (Nat.eqb_spec i v) as [->|]; cbn [andb]; [destruct (v <? List.length s); reflexivity|reflexivity]. }
    split; [intros i; rewrite Hp; apply Hg|intros i j a; rewrite !Hp; apply Hs]. }
  pose proof (Hg v) as [Hlen Harr]. destruct (s_arr (slice_of g v)) as [a|] eqn:Ea.
  2:{ apply Hsame; [reflexivity|]. rewrite Harr. reflexivity. }
  destruct Harr as (c & Hc & Hf & Hle). assert (Hcells : cells g (slice_of g v) = c) by (unfold cells; rewrite Ea, Hc; reflexivity). rewrite Hcells, Hlen.
  destruct (Nat.ltb_spec k (List.length (snd (at_ [] s v)))) as [Hk|Hk].
  2:{ apply Hsame; [reflexivity|]. apply put_out. exact Hk. }
  assert (Hal : a < List.length (g_arrs g)) by (apply nth_error_Some; rewrite Hc; discriminate).
  assert (Hvl : v < List.length s). { destruct (Nat.lt_ge_cases v (List.length s)) as [H|H]; [exact H|]. rewrite slice_out in Ea by lia. discriminate Ea. }
  split; [cbn; rewrite !put_nth_length; exact Hn|]. split.
  - intros i. change (slice_of {| g_arrs := put_nth (g_arrs g) a (put_nth c k x); g_vars := g_vars g |} i) with (slice_of g i). rewrite at_put.
    destruct (Nat.eqb_spec i v) as [->|Hne]; rewrite ?(proj2 (Nat.ltb_lt _ _) Hvl); cbn [andb snd].
    + split; [rewrite put_nth_length; exact Hlen|]. rewrite Ea. cbn [g_arrs]. exists (put_nth c k x). rewrite nth_put, Nat.eqb_refl, (proj2 (Nat.ltb_lt _ _) Hal). cbn [andb]. rewrite !put_nth_length.
      split; [reflexivity|]. split; [|exact Hle]. rewrite firstn_put_in, Hf. reflexivity.
    + apply (good_arrs g); [apply Hg|]. intros b d Eb Hd. rewrite nth_put. destruct (Nat.eqb_spec b a) as [->|]; [|exact Hd].
      assert (Hil : i < List.length s). { destruct (Nat.lt_ge_cases i (List.length s)) as [H|H]; [exact H|]. rewrite slice_out in Eb by lia. discriminate Eb. }
      destruct (alone_spec [] s v i Halone Hvl Hne Hil (Hs i v a Eb Ea)).
  - intros i j b. assert (Hp : forall i, fst (at_ [] (put_nth s v (fst (at_ [] s v), put_nth (snd (at_ [] s v)) k x)) i) = fst (at_ [] s i)).
    { intros l. rewrite at_put. destruct (Nat.eqb_spec l v) as [->|]; cbn [andb]; [destruct (v <? List.length s); reflexivity|reflexivity]. }
    rewrite !Hp. apply Hs.
Qed.

(** ** Go's maps show the values *)
Definition Rm (g : gomaps) (s : list (nat * gomap json)) : Prop :=
  List.length (g_refs g) = List.length s /\ (forall v, v < List.length s -> nth_error (g_maps g) (gm_ref g v) = Some (snd (at_ no_fields s v))) /\
  (forall i j, i < List.length s -> j < List.length s -> gm_ref g i = gm_ref g j -> fst (at_ no_fields s i) = fst (at_ no_fields s j)).
Lemma ref_app maps refs r i : gm_ref {| g_maps := maps; g_refs := refs ++ [r] |} i = if i <? List.length refs then gm_ref {| g_maps := maps; g_refs := refs |} i else if i =? List.length refs then r else List.length maps.
Proof.
  unfold gm_ref. cbn [g_refs g_maps]. destruct (i <? List.length refs) eqn:E.
  - apply Nat.ltb_lt in E. rewrite nth_error_app1 by exact E. reflexivity.
  - apply Nat.ltb_ge in E. rewrite nth_error_app2 by exact E. destruct (Nat.eqb_spec i (List.length refs)) as [->|Hne]; [rewrite Nat.sub_diag; reflexivity|].
    destruct (i - List.length refs) as [|k] eqn:Ek; [lia|]. cbn. destruct k; reflexivity.
Qed.
Lemma ref_in maps maps' refs i : i < List.length refs -> gm_ref {| g_maps := maps; g_refs := refs |} i = gm_ref {| g_maps := maps'; g_refs := refs |} i.
Proof. intros Hi. unfold gm_ref. cbn. destruct (nth_error refs i) eqn:E; [reflexivity|]. apply nth_error_None in E. lia. Qed.
Lemma Rm_read g s v : Rm g s -> v < List.length s -> gm_get g (gm_ref g v) = snd (at_ no_fields s v).
Proof. intros (_ & Hg & _) Hv. unfold gm_get. rewrite (Hg v Hv). reflexivity. Qed.
Lemma Rm_make g s m : Rm g s -> Rm {| g_maps := g_maps g ++ [m]; g_refs := g_refs g ++ [List.length (g_maps g)] |} (s ++ [(List.length s, m)]).
Proof.
  intros (Hn & Hg & Hs). destruct g as [maps refs]. cbn [g_maps g_refs] in *.
  assert (Hold : forall i, i < List.length s -> gm_ref {| g_maps := maps ++ [m]; g_refs := refs ++ [List.length maps] |} i = gm_ref {| g_maps := maps; g_refs := refs |} i /\ gm_ref {| g_maps := maps; g_refs := refs |} i < List.length maps).
  { intros i Hi. rewrite ref_app. rewrite (proj2 (Nat.ltb_lt i (List.length refs))) by lia. rewrite (ref_in _ maps) by lia. split; [reflexivity|]. apply nth_error_Some. rewrite (Hg i Hi). discriminate. }
  assert (Hnew : gm_ref {| g_maps := maps ++ [m]; g_refs := refs ++ [List.length maps] |} (List.length s) = List.length maps).
  { rewrite ref_app, Hn, Nat.ltb_irrefl, Nat.eqb_refl. reflexivity. }
  split; [cbn; rewrite !app_length; cbn; lia|]. rewrite app_length. cbn [List.length]. split.
  - intros v Hv. cbn [g_maps]. destruct (Nat.eq_dec v (List.length s)) as [->|Hne].
    + rewrite Hnew, at_last, nth_error_app2, Nat.sub_diag by lia. reflexivity.
    + assert (Hvs : v < List.length s) by lia. destruct (Hold v Hvs) as [-> Hlt]. rewrite at_app, nth_error_app1 by assumption. apply Hg, Hvs.
  - intros i j Hi Hj E. destruct (Nat.eq_dec i (List.length s)) as [->|Hi']; destruct (Nat.eq_dec j (List.length s)) as [->|Hj'].
    + reflexivity.
    + exfalso. destruct (Hold j ltac:(lia)) as [E' Hlt]. rewrite Hnew, E' in E. lia.
    + exfalso. destruct (Hold i ltac:(lia)) as [E' Hlt]. rewrite Hnew, E' in E. lia.
    + destruct (Hold i ltac:(lia)) as [Ei _]. destruct (Hold j ltac:(lia)) as [Ej _]. rewrite Ei, Ej in E. assert (Hi2 : i < List.length s) by lia. assert (Hj2 : j < List.length s) by lia. rewrite !at_app by assumption. apply (Hs i j); assumption.
Qed.
Lemma Rm_share g s v : Rm g s -> v < List.length s -> Rm {| g_maps := g_maps g; g_refs := g_refs g ++ [gm_ref g v] |} (s ++ [at_ no_fields s v]).
Proof.
  intros (Hn & Hg & Hs) Hv. destruct g as [maps refs]. cbn [g_maps g_refs] in *.
  assert (Hr : forall i, i < List.length s + 1 -> gm_ref {| g_maps := maps; g_refs := refs ++ [gm_ref {| g_maps := maps; g_refs := refs |} v] |} i = gm_ref {| g_maps := maps; g_refs := refs |} (if i <? List.length s then i else v)
                 /\ at_ no_fields (s ++ [at_ no_fields s v]) i = at_ no_fields s (if i <? List.length s then i else v) /\ (if i <? List.length s then i else v) < List.length s).
  { intros i Hi. rewrite ref_app, Hn. destruct (Nat.ltb_spec i (List.length s)) as [H|H].
    - split; [reflexivity|]. split; [apply at_app, H|exact H].
    - assert (i = List.length s) by lia. subst i. rewrite Nat.eqb_refl. split; [reflexivity|]. split; [apply at_last|exact Hv]. }
  split; [cbn; rewrite !app_length; cbn; lia|]. rewrite app_length. cbn [List.length]. split.
  - intros i Hi. destruct (Hr i Hi) as (E1 & E2 & E3). cbn [g_maps]. rewrite E1, E2. apply Hg, E3.
  - intros i j Hi Hj E. destruct (Hr i Hi) as (E1 & E2 & E3). destruct (Hr j Hj) as (F1 & F2 & F3). rewrite E1, F1 in E. rewrite E2, F2. apply Hs; assumption.
Qed.
Lemma Rm_put g s v k x : Rm g s -> v < List.length s -> alone no_fields s v = true ->
  Rm {| g_maps := put_nth (g_maps g) (gm_ref g v) (mset (gm_get g (gm_ref g v)) k x); g_refs := g_refs g |} (put_nth s v (fst (at_ no_fields s v), mset (snd (at_ no_fields s v)) k x)).
Proof.
  intros HR Hv Halone. rewrite (Rm_read g s v HR Hv). destruct HR as (Hn & Hg & Hs). destruct g as [maps refs]. cbn [g_maps g_refs] in *.
  split; [cbn; rewrite put_nth_length; exact Hn|]. rewrite put_nth_length.
  assert (Hat : forall i, i < List.length s -> gm_ref {| g_maps := put_nth maps (gm_ref {| g_maps := maps; g_refs := refs |} v) (mset (snd (at_ no_fields s v)) k x); g_refs := refs |} i = gm_ref {| g_maps := maps; g_refs := refs |} i).
  { intros i Hi. apply ref_in. lia. }
  split.
  - intros i Hi. rewrite (Hat i Hi). cbn [g_maps]. rewrite nth_put, at_put, (proj2 (Nat.ltb_lt _ _) Hv), andb_true_r.
    assert (Hlt : gm_ref {| g_maps := maps; g_refs := refs |} v < List.length maps) by (apply nth_error_Some; rewrite (Hg v Hv); discriminate).
    rewrite (proj2 (Nat.ltb_lt _ _) Hlt), andb_true_r. destruct (Nat.eqb_spec i v) as [->|Hne]; [rewrite Nat.eqb_refl; reflexivity|].
    destruct (Nat.eqb_spec (gm_ref {| g_maps := maps; g_refs := refs |} i) (gm_ref {| g_maps := maps; g_refs := refs |} v)) as [E|_]; [|apply Hg, Hi].
    destruct (alone_spec no_fields s v i Halone Hv Hne Hi (Hs i v Hi Hv E)).
  - intros i j Hi Hj. rewrite (Hat i Hi), (Hat j Hj).
    assert (Hp : forall i, fst (at_ no_fields (put_nth s v (fst (at_ no_fields s v), mset (snd (at_ no_fields s v)) k x)) i) = fst (at_ no_fields s i)).
    { intros l. rewrite at_put. destruct (Nat.eqb_spec l v) as [->|]; cbn [andb]; [destruct (v <? List.length s); reflexivity|reflexivity]. }
    rewrite !Hp. apply Hs; assumption.
Qed.
