(** Proofs about limited disclosure of JSON documents. *)
From Verif Require Import GoBase PexSpec PexModel PexCompact PexProofs StrLemmas PexLimit StatusModel PxSpec JwtSpec DiSpec VcSpec VcModel VcParse BbsModel PxModel.

Lemma index_itoa n : index_of (itoa n) = Some n.
Proof. unfold index_of. rewrite itoa_val, Nat2Z.id, String.eqb_refl. reflexivity. Qed.
Lemma index_of_inv k n : index_of k = Some n -> k = itoa n.
Proof.
  unfold index_of. destruct (digits_val 0 k) as [z|]; [|discriminate]. destruct (String.eqb_spec (itoa (Z.to_nat z)) k) as [<-|]; [|discriminate].
  now intros [= <-].
Qed.
Lemma gj_index_itoa n : gj_index (itoa n) = Some n.
Proof. unfold gj_index. rewrite itoa_val, Nat2Z.id. destruct (itoa n) eqn:E; [now apply itoa_nonempty in E|reflexivity]. Qed.
(** Names that are not numbers. *)
Definition inert (s : string) : Prop := s <> "" /\ s <> "-1" /\ digits_val 0 s = None.
Lemma plain_inert s : plain_name s -> inert s.
Proof. intros (A & B & C & _). now repeat split. Qed.
Lemma gj_index_name s : inert s -> gj_index s = None.
Proof. intros (_ & _ & H). unfold gj_index. rewrite H. now destruct s. Qed.
Lemma index_of_name s : inert s -> index_of s = None.
Proof. intros (_ & _ & H). unfold index_of. now rewrite H. Qed.
Lemma plain_not_itoa s n : plain_name s -> s <> itoa n.
Proof. intros (_ & _ & H & _) ->. now rewrite itoa_val in H. Qed.
Lemma plain_free s : plain_name s -> free_of "." s.
Proof.
  intros (_ & _ & _ & H & _) Hin. rewrite forallb_forall in H. specialize (H _ Hin). discriminate H.
Qed.
Lemma plain_good k : plain_key k -> good_key k.
Proof. destruct k as [n|s]; cbn; [trivial|]. intros H. split; [now apply plain_free|]. intros n. now apply plain_not_itoa. Qed.
Lemma nested_alternating b ks : no_nested_arrays b ks -> alternating b ks.
Proof. revert b. induction ks as [|[n|s] ks IH]; cbn; [trivial| |]; intuition. Qed.
Lemma plain_path_good ks : plain_path ks -> good_path ks.
Proof. intros [H1 H2]. split; [eapply Forall_impl; [|exact H1]; apply plain_good|now apply nested_alternating]. Qed.

(** A step: a plain name or an index. *)
Definition step_ok (p : string) : Prop := inert p \/ exists n, p = itoa n.
Lemma steps_ok ks : Forall plain_key ks -> Forall step_ok (steps ks).
Proof. unfold steps. rewrite Forall_map. intros H. eapply Forall_impl; [|exact H]. intros [n|s] Hk; [right; now exists n|left; now apply plain_inert]. Qed.
Lemma renumber_plain r : forall ks pre, Forall plain_key ks -> Forall plain_key (renumber r pre ks).
Proof. induction ks as [|[n|s] ks IH]; intros pre H; cbn; inversion H; subst; constructor; auto; exact I. Qed.
Lemma moved_ok r ks : Forall plain_key ks -> Forall step_ok (moved r ks).
Proof. intros H. apply steps_ok. now apply renumber_plain. Qed.
Lemma step_index p : step_ok p -> gj_index p = index_of p.
Proof. intros [H|[n ->]]; [rewrite gj_index_name, index_of_name by assumption; reflexivity|now rewrite gj_index_itoa, index_itoa]. Qed.
Lemma step_digits p : step_ok p -> match digits_val 0 p with Some z => index_of p = Some (Z.to_nat z) | None => index_of p = None /\ p <> "" /\ p <> "-1" end.
Proof.
  intros [H|[n ->]].
  - rewrite index_of_name by assumption. destruct H as (A & B & C). rewrite C. auto.
  - rewrite itoa_val, Nat2Z.id. apply index_itoa.
Qed.
Lemma gj_look : forall q j, Forall step_ok q -> gj_get q j = look j q.
Proof.
  induction q as [|k q IH]; intros j H; [reflexivity|]. inversion H as [|? ? Hk Hq]; subst. cbn [gj_get look]. destruct j; try reflexivity.
  - rewrite (step_index k Hk). destruct (index_of k) as [n|]; [|reflexivity]. destruct (nth_error l n); [now apply IH|reflexivity].
  - destruct (mget m k); [now apply IH|reflexivity].
Qed.
Lemma look_app : forall p j q, look j (p ++ q)%list = match look j p with Some x => look x q | None => None end.
Proof.
  induction p as [|k p IH]; intros j q; [reflexivity|]. cbn [look app]. destruct j; try reflexivity.
  - destruct (index_of k) as [n|]; [|reflexivity]. destruct (nth_error l n); [apply IH|reflexivity].
  - destruct (mget m k); [apply IH|reflexivity].
Qed.
Lemma leaf_look v q x : leaf v -> look v q = Some x -> q = [] /\ x = v.
Proof.
  destruct q as [|k q]; cbn; [intros _ [= <-]; auto|]. destruct v as [| | | |[|y l]|[|y m]]; cbn; try discriminate; try tauto.
  intros _. destruct (index_of k) as [[|n]|]; discriminate.
Qed.

Lemma nth_list_set {A} (l : list A) : forall n x k, nth_error (list_set l n x) k = if Nat.eqb k n then (match nth_error l n with Some _ => Some x | None => None end) else nth_error l k.
Proof.
  induction l as [|y l IH]; intros n x k; [destruct n, k; cbn; try reflexivity; now destruct (Nat.eqb k n)|].
  destruct n as [|n], k as [|k]; cbn [list_set nth_error Nat.eqb]; try reflexivity. apply IH.
Qed.
Lemma nth_pad (l : list json) n x k : (List.length l <= n)%nat ->
  nth_error (l ++ repeat JNull (n - List.length l) ++ [x])%list k =
  if (k <? List.length l)%nat then nth_error l k else if (k <? n)%nat then Some JNull else if Nat.eqb k n then Some x else None.
Proof.
  intros Hn. destruct (Nat.ltb_spec k (List.length l)) as [H|H]; [now apply nth_error_app1|]. rewrite nth_error_app2 by assumption.
  destruct (Nat.ltb_spec k n) as [H1|H1].
  - rewrite nth_error_app1 by (rewrite repeat_length; lia). apply nth_error_repeat. lia.
  - rewrite nth_error_app2 by (rewrite repeat_length; lia). rewrite repeat_length.
    destruct (Nat.eqb_spec k n) as [->|H2]; [replace (n - _ - _)%nat with 0%nat by lia; reflexivity|].
    destruct (k - _ - _)%nat as [|d] eqn:Ed; [lia|]. cbn. now destruct d.
Qed.
Lemma nth_build n x k : nth_error (repeat JNull n ++ [x])%list k = if (k <? n)%nat then Some JNull else if Nat.eqb k n then Some x else None.
Proof. pose proof (nth_pad [] n x k (Nat.le_0_l n)) as H. cbn [List.length app] in H. rewrite Nat.sub_0_r in H. exact H. Qed.

Lemma build_get : forall p v, Forall step_ok p -> look (sj_build p v) p = Some v.
Proof.
  induction p as [|k p IH]; intros v H; [reflexivity|]. inversion H as [|? ? Hk Hp]; subst. cbn [sj_build].
  pose proof (step_digits k Hk) as Hd. destruct (digits_val 0 k) as [z|].
  - cbn [look]. rewrite Hd, nth_build, Nat.ltb_irrefl, Nat.eqb_refl. now apply IH.
  - destruct Hd as (_ & _ & Hd). destruct (String.eqb_spec k "-1"); [contradiction|]. cbn [look mget]. rewrite String.eqb_refl. now apply IH.
Qed.
Lemma build_src : forall p v q x, Forall step_ok p -> look (sj_build p v) q = Some x -> leaf x ->
  (exists r, q = (p ++ r)%list /\ look v r = Some x) \/ x = JNull.
Proof.
  induction p as [|k p IH]; intros v q x H Hl Hx; [left; exists q; auto|]. inversion H as [|? ? Hk Hp]; subst. cbn [sj_build] in Hl.
  pose proof (step_digits k Hk) as Hd. destruct (digits_val 0 k) as [z|].
  - destruct q as [|k' q]; cbn [look] in Hl.
    { injection Hl as <-. destruct (Z.to_nat z); destruct Hx. }
    destruct (index_of k') as [n|] eqn:En; [|discriminate]. rewrite nth_build in Hl.
    destruct (n <? Z.to_nat z)%nat; [destruct q; [injection Hl as <-; now right|discriminate]|].
    destruct (Nat.eqb_spec n (Z.to_nat z)) as [->|]; [|discriminate]. destruct (IH v q x Hp Hl Hx) as [(r & -> & Hr)|]; [left|now right].
    exists r. split; [|assumption]. apply index_of_inv in En, Hd. now rewrite En, <- Hd.
  - destruct Hd as (_ & _ & Hd). destruct (String.eqb_spec k "-1"); [contradiction|].
    destruct q as [|k' q]; cbn [look mget] in Hl; [injection Hl as <-; destruct Hx|]. destruct (String.eqb_spec k' k) as [->|]; [|discriminate].
    destruct (IH v q x Hp Hl Hx) as [(r & -> & Hr)|]; [left; exists r; auto|now right].
Qed.

Lemma put_get : forall p d v d', Forall step_ok p -> sj_put p d v = Ok d' -> look d' p = Some v.
Proof.
  induction p as [|k p IH]; intros d v d' H Hp; [cbn in Hp; injection Hp as <-; reflexivity|].
  inversion H as [|? ? Hk Hr]; subst. cbn [sj_put] in Hp.
  assert (B : look (sj_build (k :: p) v) (k :: p) = Some v) by (apply build_get; now constructor).
  destruct d as [| | | |l|m]; try (injection Hp as <-; exact B).
  - rewrite (step_index k Hk) in Hp. destruct (index_of k) as [n|] eqn:En.
    + destruct (nth_error l n) as [x|] eqn:Ex.
      * destruct (sj_put p x v) as [y| |] eqn:Ey; try discriminate. cbn in Hp. injection Hp as <-. cbn [look].
        rewrite En, nth_list_set, Nat.eqb_refl, Ex. eapply IH; eassumption.
      * injection Hp as <-. cbn [look]. rewrite En. apply nth_error_None in Ex. rewrite nth_pad by assumption.
        destruct (Nat.ltb_spec n (List.length l)); [lia|]. rewrite Nat.ltb_irrefl, Nat.eqb_refl. now apply build_get.
    + destruct (_ || _)%bool eqn:Eb; [|discriminate]. exfalso. pose proof (step_digits k Hk) as Hd.
      destruct (digits_val 0 k) as [z|]; [congruence|]. destruct Hd as (_ & A & B'). apply orb_true_iff in Eb. rewrite !String.eqb_eq in Eb. tauto.
  - destruct (mget m k) as [x|] eqn:Ex.
    + destruct (sj_put p x v) as [y| |] eqn:Ey; try discriminate. cbn in Hp. injection Hp as <-. cbn [look]. rewrite mget_mset, String.eqb_refl.
      eapply IH; eassumption.
    + injection Hp as <-. cbn [look mget]. rewrite String.eqb_refl. now apply build_get.
Qed.
Lemma put_src : forall p d v d' q x, Forall step_ok p -> sj_put p d v = Ok d' -> look d' q = Some x -> leaf x ->
  (exists r, q = (p ++ r)%list /\ look v r = Some x) \/ (look d q = Some x /\ forall r, q <> (p ++ r)%list) \/ x = JNull.
Proof.
  induction p as [|k p IH]; intros d v d' q x H Hp Hl Hx; [cbn in Hp; injection Hp as <-; left; exists q; auto|].
  inversion H as [|? ? Hk Hr]; subst. cbn [sj_put] in Hp.
  assert (B : look (sj_build (k :: p) v) q = Some x ->
    (exists r, q = (k :: p ++ r)%list /\ look v r = Some x) \/ (look d q = Some x /\ forall r, q <> (k :: p ++ r)%list) \/ x = JNull).
  { intros Hb. destruct (build_src (k :: p) v q x H Hb Hx); [now left|right; now right]. }
  destruct d as [| | | |l|m]; try (injection Hp as <-; now apply B).
  - rewrite (step_index k Hk) in Hp. destruct (index_of k) as [n|] eqn:En.
    + assert (Kn : k = itoa n) by now apply index_of_inv.
      destruct (nth_error l n) as [y|] eqn:Ey.
      * destruct (sj_put p y v) as [z| |] eqn:Ez; try discriminate. cbn in Hp. injection Hp as <-.
        destruct q as [|k' q]; cbn [look] in Hl.
        { injection Hl as <-. exfalso. destruct l as [|a l]; [now destruct n|]. destruct n; destruct Hx. }
        destruct (index_of k') as [n'|] eqn:En'; [|discriminate]. rewrite nth_list_set in Hl. destruct (Nat.eqb_spec n' n) as [->|Hne].
        -- rewrite Ey in Hl. assert (Kk : k' = k) by (apply index_of_inv in En'; congruence). subst k'.
           destruct (IH y v z q x Hr Ez Hl Hx) as [(r & -> & Hv)|[[Hv Hn]|Hv]]; [left; exists r; auto| |right; now right].
           right; left. cbn [look]. rewrite En, Ey. split; [assumption|]. intros r [= ->]. now apply (Hn r).
        -- right; left. cbn [look]. rewrite En'. split; [assumption|]. intros r [= -> _]. congruence.
      * injection Hp as <-. apply nth_error_None in Ey. destruct q as [|k' q]; cbn [look] in Hl.
        { injection Hl as <-. exfalso. destruct l; [|destruct Hx]. cbn in Hx. destruct (n - 0)%nat; destruct Hx. }
        destruct (index_of k') as [n'|] eqn:En'; [|discriminate]. rewrite nth_pad in Hl by assumption.
        destruct (Nat.ltb_spec n' (List.length l)).
        { right; left. cbn [look]. rewrite En'. split; [assumption|]. intros r [= -> _]. rewrite En in En'. injection En' as ->. lia. }
        destruct (n' <? n)%nat; [destruct q; [injection Hl as <-; auto|discriminate]|].
        destruct (Nat.eqb_spec n' n) as [->|]; [|discriminate]. assert (Kk : k' = k) by (apply index_of_inv in En'; congruence). subst k'.
        destruct (build_src p v q x Hr Hl Hx) as [(r & -> & Hv)|]; [left; exists r; auto|auto].
    + destruct (_ || _)%bool eqn:Eb; [|discriminate]. exfalso. pose proof (step_digits k Hk) as Hd.
      destruct (digits_val 0 k) as [z|]; [congruence|]. destruct Hd as (_ & A & B'). apply orb_true_iff in Eb. rewrite !String.eqb_eq in Eb. tauto.
  - destruct (mget m k) as [y|] eqn:Ey.
    + destruct (sj_put p y v) as [z| |] eqn:Ez; try discriminate. cbn in Hp. injection Hp as <-.
      destruct q as [|k' q]; cbn [look] in Hl.
      { injection Hl as <-. exfalso. destruct m as [|[a b] m]; [discriminate|]. cbn in Hx. destruct (String.eqb k a); destruct Hx. }
      rewrite mget_mset in Hl. destruct (String.eqb_spec k' k) as [->|Hne].
      * destruct (IH y v z q x Hr Ez Hl Hx) as [(r & -> & Hv)|[[Hv Hn]|Hv]]; [left; exists r; auto| |right; now right].
        right; left. cbn [look]. rewrite Ey. split; [assumption|]. intros r [= ->]. now apply (Hn r).
      * right; left. cbn [look]. split; [assumption|]. intros r [= -> _]. congruence.
    + injection Hp as <-. destruct q as [|k' q]; cbn [look mget] in Hl; [injection Hl as <-; destruct Hx|].
      destruct (String.eqb_spec k' k) as [->|Hne].
      * destruct (build_src p v q x Hr Hl Hx) as [(r & -> & Hv)|]; [left; exists r; auto|auto].
      * right; left. cbn [look]. split; [assumption|]. intros r [= -> _]. congruence.
Qed.
Lemma apart_cons {A} (k : A) p q : apart (k :: p) (k :: q) -> apart p q.
Proof. intros [H1 H2]. split; intros r E; [apply (H1 r)|apply (H2 r)]; cbn; now rewrite <- E. Qed.
Lemma put_keep : forall p d v d' q x, Forall step_ok p -> sj_put p d v = Ok d' -> look d q = Some x -> apart q p -> look d' q = Some x.
Proof.
  induction p as [|k p IH]; intros d v d' q x H Hp Hl Ha; [exfalso; now apply (proj1 Ha q)|].
  inversion H as [|? ? Hk Hr]; subst. cbn [sj_put] in Hp. destruct q as [|k' q]; [exfalso; now apply (proj2 Ha (k :: p))|].
  destruct d as [| | | |l|m]; try discriminate.
  - cbn [look] in Hl. rewrite (step_index k Hk) in Hp. destruct (index_of k') as [n'|] eqn:En'; [|discriminate].
    destruct (nth_error l n') as [y'|] eqn:Ey'; [|discriminate]. destruct (index_of k) as [n|] eqn:En.
    + destruct (nth_error l n) as [y|] eqn:Ey.
      * destruct (sj_put p y v) as [z| |] eqn:Ez; try discriminate. cbn in Hp. injection Hp as <-. cbn [look]. rewrite En', nth_list_set.
        destruct (Nat.eqb_spec n' n) as [->|]; [|now rewrite Ey']. rewrite Ey. replace y' with y in * by congruence.
        assert (k' = k) by (apply index_of_inv in En, En'; congruence). subst k'. eapply IH; try eassumption. now apply apart_cons in Ha.
      * injection Hp as <-. cbn [look]. apply nth_error_None in Ey. rewrite En', nth_pad by assumption.
        assert (n' < List.length l)%nat by (apply nth_error_Some; congruence). destruct (Nat.ltb_spec n' (List.length l)); [|lia]. now rewrite Ey'.
    + destruct (_ || _)%bool; [|discriminate]. injection Hp as <-. cbn [look]. rewrite En', nth_error_app1, Ey' by (apply nth_error_Some; congruence). assumption.
  - cbn [look] in Hl. destruct (mget m k') as [y'|] eqn:Ey'; [|discriminate]. destruct (mget m k) as [y|] eqn:Ey.
    + destruct (sj_put p y v) as [z| |] eqn:Ez; try discriminate. cbn in Hp. injection Hp as <-. cbn [look]. rewrite mget_mset.
      destruct (String.eqb_spec k' k) as [->|]; [|now rewrite Ey']. replace y' with y in * by congruence. eapply IH; try eassumption. now apply apart_cons in Ha.
    + injection Hp as <-. cbn [look mget]. destruct (String.eqb_spec k' k) as [->|]; [congruence|]. now rewrite Ey'.
Qed.

(** ** Paths of fields *)
Lemma kp_split ks : Forall plain_key ks -> ks <> [] -> split_on "." (kp ks) = steps ks.
Proof.
  intros H Hn. unfold kp, steps. apply split_on_concat; [now destruct ks|]. rewrite Forall_map. eapply Forall_impl; [|exact H].
  intros k Hk. apply key_str_free. now apply plain_good.
Qed.
Lemma renumber_nil r pre ks : renumber r pre ks = [] -> ks = [].
Proof. destruct ks as [|[]]; [reflexivity|discriminate|discriminate]. Qed.
Lemma set_ok new doc v d' : sj_set new doc v = Ok d' -> new <> "" /\ sj_put (split_on "." new) doc v = Ok d'.
Proof. unfold sj_set. destruct (String.eqb_spec new ""); [discriminate|]. destruct (existsb _ _); [discriminate|auto]. Qed.
Lemma set_moved rank ks doc v d' : Forall plain_key ks -> sj_set (kp (renumber rank [] ks)) doc v = Ok d' ->
  ks <> [] /\ sj_put (moved rank ks) doc v = Ok d'.
Proof.
  intros Hk H. apply set_ok in H as [Hne H]. assert (Hks : ks <> []) by (intros ->; now apply Hne). split; [assumption|].
  rewrite kp_split in H; [assumption|now apply renumber_plain|intros E; now apply renumber_nil in E].
Qed.
Lemma value_look src ks : Forall plain_key ks -> ks <> [] -> gj_value src (kp ks) = match look src (steps ks) with Some v => v | None => JNull end.
Proof. intros Hk Hn. unfold gj_value. rewrite kp_split, gj_look by auto using steps_ok. reflexivity. Qed.

(** ** The document that is cut *)
Fixpoint puts (ops : list (list string * json)) (d : json) : res json :=
  match ops with [] => Ok d | (p, v) :: rest => let* d' := sj_put p d v in puts rest d' end.
Lemma puts_app : forall a b d, puts (a ++ b)%list d = let* d' := puts a d in puts b d'.
Proof. induction a as [|[p v] a IH]; intros b d; [reflexivity|]. cbn [puts app]. destruct (sj_put p d v); cbn; [apply IH|reflexivity|reflexivity]. Qed.
Lemma puts_src : forall ops d d' q x, Forall (fun o => Forall step_ok (fst o)) ops -> puts ops d = Ok d' -> look d' q = Some x -> leaf x ->
  look d q = Some x \/ x = JNull \/ exists p v r, In (p, v) ops /\ q = (p ++ r)%list /\ look v r = Some x.
Proof.
  induction ops as [|[p v] ops IH]; intros d d' q x Ho Hp Hl Hx; cbn [puts] in Hp; [injection Hp as <-; now left|].
  inversion Ho as [|? ? Hs Hr]; subst. cbn [fst] in Hs. destruct (sj_put p d v) as [d1| |] eqn:E1; try discriminate. cbn [bind] in Hp.
  destruct (IH d1 d' q x Hr Hp Hl Hx) as [H1|[H1|(p1 & v1 & r1 & H1 & H2 & H3)]].
  - destruct (put_src p d v d1 q x Hs E1 H1 Hx) as [(r & Hq & Hv)|[[H2 _]|H2]]; [|now left|right; now left].
    right; right. exists p, v, r. split; [now left|auto].
  - right; now left.
  - right; right. exists p1, v1, r1. split; [now right|auto].
Qed.
Lemma puts_keep : forall ops d d' q x, Forall (fun o => Forall step_ok (fst o)) ops -> puts ops d = Ok d' ->
  (forall p v, In (p, v) ops -> apart q p \/ (p = q /\ v = x)) -> look d q = Some x -> look d' q = Some x.
Proof.
  induction ops as [|[p v] ops IH]; intros d d' q x Ho Hp Ha Hl; cbn [puts] in Hp; [injection Hp as <-; assumption|].
  inversion Ho as [|? ? Hs Hr]; subst. cbn [fst] in Hs. destruct (sj_put p d v) as [d1| |] eqn:E1; try discriminate. cbn [bind] in Hp.
  apply (IH d1); auto; [intros; apply Ha; now right|]. destruct (Ha p v (or_introl eq_refl)) as [A|[-> ->]]; [eapply put_keep; eassumption|eapply put_get; eassumption].
Qed.
Lemma puts_get : forall ops d d' q x, Forall (fun o => Forall step_ok (fst o)) ops -> puts ops d = Ok d' ->
  (forall p v, In (p, v) ops -> apart q p \/ (p = q /\ v = x)) -> In (q, x) ops -> look d' q = Some x.
Proof.
  induction ops as [|[p v] ops IH]; intros d d' q x Ho Hp Ha Hi; [destruct Hi|]. cbn [puts] in Hp.
  inversion Ho as [|? ? Hs Hr]; subst. cbn [fst] in Hs. destruct (sj_put p d v) as [d1| |] eqn:E1; try discriminate. cbn [bind] in Hp.
  destruct Hi as [[= -> ->]|Hi].
  - apply (puts_keep ops d1 d' q x Hr Hp); [intros; apply Ha; now right|]. eapply put_get; eassumption.
  - apply (IH d1); auto. intros; apply Ha; now right.
Qed.

(** The values that the paths [rs] of field [f] put into the document. *)
Definition ops_of (src : json) (f : cfield) (rank : list pkey -> nat -> nat) (rs : list (list pkey)) : list (list string * json) :=
  map (fun ks => (moved rank ks, told src f ks)) (filter (fun ks => negb (PexModel.contains "credentialSchema" (kp (renumber rank [] ks)))) rs).
Lemma cut_paths_ops src f rank : forall rs d d', Forall (Forall plain_key) rs ->
  cut_paths (cf_pred f) src d (map (fun ks => (kp (renumber rank [] ks), kp ks)) rs) = Ok d' -> puts (ops_of src f rank rs) d = Ok d'.
Proof.
  unfold ops_of. induction rs as [|ks rs IH]; intros d d' Hk H; [exact H|]. inversion Hk as [|? ? Hks Hrs]; subst. cbn [map cut_paths] in H. unfold skipped in H.
  cbn [fst snd] in H. cbn [filter]. destruct (PexModel.contains _ _); cbn [negb]; [now apply IH|]. cbn [map puts].
  destruct (sj_set _ d _) as [d1| |] eqn:E; try discriminate. cbn [bind] in H. apply set_moved in E as [Hn E]; [|assumption].
  unfold told. rewrite value_look in E by assumption. rewrite E. cbn [bind]. now apply IH.
Qed.
Lemma contains_sub : forall sub s, PexModel.contains sub s = true <-> substring_of sub s.
Proof.
  intros sub s. split.
    - induction s as [|c s IH]; cbn [PexModel.contains]; intros H.
      + apply orb_true_iff in H as [H|H]; [|discriminate]. destruct sub; [exists "", ""; reflexivity|discriminate].
      + apply orb_true_iff in H as [H|H].
        * clear IH. revert c s H. assert (G : forall p t, has_prefix p t = true -> exists b, t = p ++ b).
          { induction p as [|a p IHp]; intros t Ht; [exists t; reflexivity|]. destruct t as [|b t]; [discriminate|]. cbn in Ht.
            apply andb_true_iff in Ht as [H1 H2]. apply Ascii.eqb_eq in H1. subst b. destruct (IHp t H2) as (r & ->). exists r. reflexivity. }
          intros c s H. destruct (G _ _ H) as (b & ->). exists "", b. reflexivity.
        * destruct (IH H) as (a & b & ->). exists (String c a), b. reflexivity.
    - intros (a & b & ->). induction a as [|c a IH].
      + assert (has_prefix sub (sub ++ b) = true) by (clear; induction sub as [|c sub IH]; cbn; [reflexivity|now rewrite Ascii.eqb_refl, IH]).
        cbn [append]. unfold PexModel.contains. destruct (sub ++ b); cbn; rewrite H; reflexivity.
      + cbn [append PexModel.contains]. rewrite IH. apply orb_true_r.
Qed.
Lemma cut_ops jp src : forall fs d d', all_plain jp src fs -> cut_fields jp src d fs = Ok d' ->
  exists rank ops, ranks_ok jp src fs rank /\ puts ops d = Ok d' /\
    (forall p v, In (p, v) ops <-> exists i f ks, request jp src fs i f ks /\ p = moved (rank i) ks /\ v = told src f ks /\
                                    ~ schema_path (moved (rank i) ks)).
Proof.
  pose proof contains_sub as C.
  induction fs as [|f fs IH]; intros d d' Hpl H; cbn [cut_fields] in H.
  - injection H as <-. exists (fun _ _ _ => 0%nat), []. split; [intros [|i] g rs Hn; discriminate|]. split; [reflexivity|].
    intros p v. split; [intros []|]. intros (i & g & ks & [Hn _] & _). destruct i; discriminate.
  - unfold field_paths in H. destruct (jp (cf_paths f) src) as [rs| |] eqn:Ej; try discriminate. cbn [bind] in H.
    assert (Hrs : Forall plain_path rs) by (apply Forall_forall; intros ks Hks; apply (Hpl 0%nat f); split; [reflexivity|exists rs; auto]).
    destruct (compact_paths_spec rs) as (rk & Hc & Ec). { eapply Forall_impl; [|exact Hrs]. apply plain_path_good. }
    rewrite Ec in H. destruct (cut_paths _ _ _ _) as [d1| |] eqn:E1; try discriminate. cbn [bind] in H.
    apply cut_paths_ops in E1; [|eapply Forall_impl; [|exact Hrs]; intros ? [? _]; assumption].
    destruct (IH d1 d') as (rank & ops & Hr & Hp & Ho); [|assumption|].
    { intros i g ks [Hn Hk]. apply (Hpl (Datatypes.S i) g). split; assumption. }
    exists (fun i => match i with O => rk | Datatypes.S i' => rank i' end), (ops_of src f rk rs ++ ops)%list.
    split; [|split].
    + intros [|i] g rs' Hn Hj; [injection Hn as <-; rewrite Ej in Hj; injection Hj as <-; assumption|]. now apply Hr with (f := g).
    + rewrite puts_app, E1. exact Hp.
    + intros p v. rewrite in_app_iff, Ho. unfold ops_of. split.
      * intros [Hi|(i & g & ks & Hq & Hrest)].
        -- apply in_map_iff in Hi as (ks & [= <- <-] & Hi). apply filter_In in Hi as [Hi Hs]. exists 0%nat, f, ks.
           split; [split; [reflexivity|exists rs; auto]|]. split; [reflexivity|]. split; [reflexivity|]. intros Hsch. apply C in Hsch.
           unfold moved, steps, kp in *. rewrite Hsch in Hs. discriminate.
        -- exists (Datatypes.S i), g, ks. split; [exact Hq|exact Hrest].
      * intros (i & g & ks & [Hn Hk] & -> & -> & Hs). destruct i as [|i].
        -- left. injection Hn as <-. destruct Hk as (rs' & Hj & Hi). rewrite Ej in Hj. injection Hj as <-. apply in_map_iff. exists ks. split; [reflexivity|].
           apply filter_In. split; [assumption|]. destruct (PexModel.contains "credentialSchema" (kp (renumber rk [] ks))) eqn:Ec'; [|reflexivity].
           exfalso. apply Hs. apply C. exact Ec'.
        -- right. exists i, g, ks. split; [split; assumption|auto].
Qed.

(** ** Moved paths do not meet *)
Lemma steps_prefix : forall a b r, Forall good_key a -> Forall good_key b -> steps a = (steps b ++ r)%list -> exists r', a = (b ++ r')%list.
Proof.
  intros a b. revert a. induction b as [|k b IH]; intros a r Ha Hb E; [now exists a|]. destruct a as [|k' a]; [discriminate|].
  cbn in E. injection E as E1 E2. inversion Ha; inversion Hb; subst. apply key_str_inj in E1; auto. subst k'.
  destruct (IH a r) as (r' & ->); auto. now exists r'.
Qed.
Lemma renumber_prefix rs rank : compacts rs rank -> forall ks' ks pre r, In (pre ++ ks)%list rs -> In (pre ++ ks')%list rs ->
  renumber rank pre ks = (renumber rank pre ks' ++ r)%list -> exists r', ks = (ks' ++ r')%list.
Proof.
  intros [Hc _]. induction ks' as [|k' ks' IH]; intros ks pre r H1 H2 E; [now exists ks|].
  destruct ks as [|k ks]; [destruct k'; discriminate|]. 
  assert (S1 : forall k ks, In (pre ++ k :: ks)%list rs -> In ((pre ++ [k]) ++ ks)%list rs) by (intros; rewrite <- app_assoc; assumption).
  destruct k' as [v'|s'], k as [v|s]; cbn in E; try discriminate; injection E as E1 E2.
  - assert (v = v') by (apply (Hc pre); [exists ks; assumption|exists ks'; assumption|assumption]). subst v'.
    destruct (IH ks (pre ++ [KIdx v])%list r) as (r' & ->); auto. now exists r'.
  - subst s'. destruct (IH ks (pre ++ [KName s])%list r) as (r' & ->); auto. now exists r'.
Qed.
Lemma renumber_prefix2 (P Q : list pkey -> Prop) rank rank' :
  (forall p v w r s, P (p ++ KIdx v :: r)%list -> Q (p ++ KIdx w :: s)%list -> False) -> forall ks' ks pre r,
  P (pre ++ ks)%list -> Q (pre ++ ks')%list -> renumber rank pre ks = (renumber rank' pre ks' ++ r)%list -> exists r', ks = (ks' ++ r')%list.
Proof.
  intros Hd. induction ks' as [|k' ks' IH]; intros ks pre r H1 H2 E; [now exists ks|].
  destruct ks as [|k ks]; [destruct k'; discriminate|].
  assert (S1 : forall (X : list pkey -> Prop) k ks, X (pre ++ k :: ks)%list -> X ((pre ++ [k]) ++ ks)%list) by (intros; rewrite <- app_assoc; assumption).
  destruct k' as [v'|s'], k as [v|s]; cbn in E; try discriminate; injection E as E1 E2.
  - exfalso. eapply Hd; eassumption.
  - subst s'. destruct (IH ks (pre ++ [KName s])%list r (S1 P _ _ H1) (S1 Q _ _ H2) E2) as (r' & ->). now exists r'.
Qed.
Lemma renumber_names rank rank' : forall ks pre, (forall a v r, ks <> (a ++ KIdx v :: r)%list) -> renumber rank pre ks = renumber rank' pre ks.
Proof.
  induction ks as [|[v|s] ks IH]; intros pre H; [reflexivity|exfalso; now apply (H [] v ks)|]. cbn. f_equal. apply IH.
  intros a v r ->. now apply (H (KName s :: a) v r).
Qed.

Lemma cut_spec jp src fs t d : all_plain jp src fs -> cut_fields jp src t fs = Ok d ->
  exists rank, ranks_ok jp src fs rank
    /\ (forall q x, look d q = Some x -> leaf x ->
          look t q = Some x \/ x = JNull \/
          exists i f ks r, request jp src fs i f ks /\ ~ schema_path (moved (rank i) ks) /\ q = (moved (rank i) ks ++ r)%list /\
            if cf_pred f then r = [] /\ x = JBool true else look src (steps ks ++ r)%list = Some x)
    /\ (separate_arrays jp src fs -> separate_values jp src fs ->
        forall i f ks, request jp src fs i f ks -> ~ schema_path (moved (rank i) ks) -> look d (moved (rank i) ks) = Some (told src f ks))
    /\ (forall q x, look t q = Some x ->
        (forall i f ks, request jp src fs i f ks -> ~ schema_path (moved (rank i) ks) -> apart q (moved (rank i) ks)) -> look d q = Some x).
Proof.
  intros Hpl H. destruct (cut_ops jp src fs t d Hpl H) as (rank & ops & Hr & Hp & Ho). exists rank. split; [assumption|].
  assert (Hok : Forall (fun o => Forall step_ok (fst o)) ops).
  { apply Forall_forall. intros [p v] Hi. apply Ho in Hi as (i & f & ks & Hq & -> & _). apply moved_ok. now apply (Hpl i f). }
  split; [|split].
  - intros q x Hl Hx. destruct (puts_src ops t d q x Hok Hp Hl Hx) as [A|[A|(p & v & r & A & -> & B)]]; auto.
    apply Ho in A as (i & f & ks & Hq & -> & -> & Hs). unfold told in B. destruct (cf_pred f) eqn:Ef.
    + destruct r as [|k r]; [|discriminate]. injection B as <-. right; right. exists i, f, ks, []. rewrite Ef. auto.
    + destruct (look src (steps ks)) as [y|] eqn:El.
      * right; right. exists i, f, ks, r. rewrite Ef, look_app, El. auto.
      * destruct r as [|k r]; [|discriminate]. injection B as <-. auto.
  - intros Ha Hv i f ks Hq Hs. eapply puts_get; [exact Hok|exact Hp| |apply Ho; exists i, f, ks; auto].
    intros p v Hi. apply Ho in Hi as (j & g & ks' & Hq' & -> & -> & Hs').
    assert (G : forall ks, (exists i f, request jp src fs i f ks) -> Forall good_key ks).
    { intros l (i' & f' & Hl). eapply Forall_impl; [apply plain_good|]. now apply (Hpl i' f'). }
    assert (GR : forall rk l pre, Forall good_key l -> Forall good_key (renumber rk pre l)).
    { clear. induction l as [|[n|s] l IH]; intros pre Hl; cbn; inversion Hl; subst; constructor; auto; exact I. }
    assert (PR : forall i f ks j g ks' r, request jp src fs i f ks -> request jp src fs j g ks' -> moved (rank i) ks = (moved (rank j) ks' ++ r)%list ->
              exists r', ks = (ks' ++ r')%list).
    { clear - Ha Hr G GR. intros i f ks j g ks' r Hq Hq' E. unfold moved in E.
      apply steps_prefix in E as (r2 & E); [|apply GR, G; eauto|apply GR, G; eauto].
      destruct (Nat.eq_dec i j) as [->|Hne].
      - destruct Hq as (N1 & rs & J1 & I1), Hq' as (N2 & rs' & J2 & I2). assert (g = f) by congruence. subst g. rewrite J1 in J2. injection J2 as <-.
        eapply (renumber_prefix rs (rank j) (Hr j f rs N1 J1) ks' ks []); eassumption.
      - eapply (renumber_prefix2 (request jp src fs i f) (request jp src fs j g) (rank i) (rank j)) with (pre := []); [|exact Hq|exact Hq'|exact E].
        intros p v w r' s. now apply Ha. }
    destruct (Hv i j f g ks ks' Hq Hq') as [[A1 A2]|[<- Hpred]].
    + left. split; intros r E.
      * destruct (PR i f ks j g ks' r Hq Hq' E) as (r' & E'). now apply (A1 r').
      * destruct (PR j g ks' i f ks r Hq' Hq E) as (r' & E'). now apply (A2 r').
    + right. split; [|unfold told; now rewrite Hpred]. destruct (Nat.eq_dec i j) as [->|Hne]; [reflexivity|].
      unfold moved. f_equal. apply renumber_names. intros a v r ->. now apply (Ha j i g f a v v r r (not_eq_sym Hne)).
  - intros q x Hx Ha. eapply puts_keep; [exact Hok|exact Hp| |exact Hx]. intros p v Hi. left.
    apply Ho in Hi as (i & f & ks & Hq & -> & _ & Hs). now apply (Ha i f).
Qed.
