(** Resolution does not depend on the order of object members; provenance of the output. *)
From Verif Require Import GoBase Base64 JwtSpec JwtModel SdSpec SdModel SdProofs SdRun.

(** ** [jeq] *)
Definition mem_eq (a b : string * json) : Prop := fst a = fst b /\ jeq (snd a) (snd b).
Lemma jeq_refl j : jeq j j.
Proof.
  induction j using json_ind'; try (constructor; exact I).
  - apply jeq_arr. induction H; constructor; auto.
  - apply jeq_obj with (p := m); [apply Permutation_refl|]. induction H; constructor; auto.
Qed.
Lemma jeq_null j j' : jeq j j' -> (j = JNull <-> j' = JNull).
Proof. inversion 1; subst; split; congruence. Qed.
Lemma jeq_str s j' : jeq (JStr s) j' -> j' = JStr s.
Proof. inversion 1; subst; reflexivity. Qed.
Lemma jeq_str_r s j : jeq j (JStr s) -> j = JStr s.
Proof. inversion 1; subst; reflexivity. Qed.

Lemma Forall2_perm_l {A B} (R : A -> B -> Prop) l p : Permutation l p ->
  forall l', Forall2 R p l' -> exists q, Forall2 R l q /\ Permutation q l'.
Proof.
  induction 1; intros lz F.
  - inversion F; subst. exists []. auto.
  - inversion F as [|a1 b1 t1 u1 R1 F1]; subst. destruct (IHPermutation _ F1) as (q & F' & P). exists (b1 :: q). split; constructor; auto.
  - inversion F as [|a1 b1 t1 u1 R1 F1]; subst. inversion F1 as [|a2 b2 t2 u2 R2 F2]; subst.
    exists (b2 :: b1 :: u2). split; [repeat constructor; auto|constructor].
  - destruct (IHPermutation2 _ F) as (q & F1 & P1). destruct (IHPermutation1 _ F1) as (q2 & F2 & P2).
    exists q2. split; [assumption|]. now transitivity q.
Qed.
Lemma Forall2_perm_r {A B} (R : A -> B -> Prop) q l' : Permutation q l' ->
  forall l, Forall2 R l q -> exists p, Permutation l p /\ Forall2 R p l'.
Proof.
  induction 1; intros l0 F.
  - inversion F; subst. exists []. auto.
  - inversion F as [|a1 b1 t1 u1 R1 F1]; subst. destruct (IHPermutation _ F1) as (p & P & F'). exists (a1 :: p). split; constructor; auto.
  - inversion F as [|a1 b1 t1 u1 R1 F1]; subst. inversion F1 as [|a2 b2 t2 u2 R2 F2]; subst.
    exists (a2 :: a1 :: t2). split; [constructor|repeat constructor; auto].
  - destruct (IHPermutation1 _ F) as (p & P & F1). destruct (IHPermutation2 _ F1) as (p2 & P2 & F2).
    exists p2. split; [now transitivity p|assumption].
Qed.
Lemma mem_eq_keys m m' : Forall2 mem_eq m m' -> map fst m = map fst m'.
Proof. induction 1 as [|a b m m' [H _] _ IH]; simpl; congruence. Qed.
Lemma mem_eq_get m m' k : Forall2 mem_eq m m' ->
  match mget m k, mget m' k with Some v, Some v' => jeq v v' | None, None => True | _, _ => False end.
Proof.
  induction 1 as [|[a x] [b y] m m' [H1 H2] _ IH]; simpl in *; [exact I|]. subst b.
  destruct (String.eqb k a); assumption.
Qed.
Lemma jeq_obj_inv m m' : jeq (JObj m) (JObj m') -> exists q, Forall2 mem_eq m q /\ Permutation q m'.
Proof.
  inversion 1; subst; [tauto|]. eapply Forall2_perm_l; [|exact H3]. assumption.
Qed.
Lemma jeq_obj_intro m q m' : Forall2 mem_eq m q -> Permutation q m' -> jeq (JObj m) (JObj m').
Proof. intros F P. destruct (Forall2_perm_r _ _ _ P _ F) as (p & P' & F'). econstructor; eauto. Qed.
Lemma jeq_get m m' k : NoDup (map fst m) -> jeq (JObj m) (JObj m') ->
  match mget m k, mget m' k with Some v, Some v' => jeq v v' | None, None => True | _, _ => False end.
Proof.
  intros N J. apply jeq_obj_inv in J as (q & F & P).
  assert (Nq : NoDup (map fst q)) by (rewrite <- (mem_eq_keys _ _ F); assumption).
  rewrite <- (mget_perm q m' k Nq P). now apply mem_eq_get.
Qed.

(** ** Resolution up to member order *)
Definition ceq (c c' : dcontent) : Prop :=
  match c, c' with
  | CElem v, CElem v' => jeq v v'
  | CMember n v, CMember n' v' => n = n' /\ jeq v v'
  | COther, COther => True
  | _, _ => False
  end.
Definition Deq (D D' : string -> option dcontent) : Prop :=
  forall d, match D d, D' d with Some c, Some c' => ceq c c' | None, None => True | _, _ => False end.
Definition wfD (D : string -> option dcontent) : Prop := forall d c, D d = Some c -> wf_json (disclosed_value c).

Lemma digest_elem_jeq v v' : wf_json v -> jeq v v' ->
  match digest_elem v, digest_elem v' with Some x, Some y => jeq x y | None, None => True | _, _ => False end.
Proof.
  intros Hw J. inversion J; subst; try exact I.
  - destruct v'; try tauto; exact I.
  - simpl. apply wf_obj in Hw as [Hn _]. now apply jeq_get.
Qed.
Lemma all_strings_jeq l l' : Forall2 jeq l l' -> forall r, all_strings l = Some r -> all_strings l' = Some r.
Proof.
  induction 1 as [|x y l l' J _ IH]; simpl; [auto|]. intros r H. destruct x; try discriminate.
  apply jeq_str in J as ->. destruct (all_strings l) as [r'|]; [|discriminate]. now rewrite (IH _ eq_refl).
Qed.
Lemma sd_list_jeq m m' sds : NoDup (map fst m) -> jeq (JObj m) (JObj m') -> sd_list m = Some sds -> sd_list m' = Some sds.
Proof.
  intros N J. pose proof (jeq_get _ _ "_sd" N J) as H. unfold sd_list.
  destruct (mget m "_sd") as [x|], (mget m' "_sd") as [y|]; try tauto; auto.
  inversion H; subst; [destruct y; tauto|now apply all_strings_jeq|auto].
Qed.
Lemma Members_perm clean D m : forall mem ds p, Members clean D m mem ds -> Permutation m p ->
  exists mem' ds', Members clean D p mem' ds' /\ Permutation mem mem' /\ Permutation ds ds'.
Proof.
  intros mem ds p H P. revert mem ds H. induction P; intros mem ds H.
  - exists mem, ds. auto.
  - inversion H; subst.
    + destruct (IHP _ _ H5) as (mem' & ds' & ? & ? & ?). exists mem', ds'. split; [now constructor|auto].
    + destruct (IHP _ _ H6) as (mem' & ds' & ? & ? & ?).
      eexists _, _. split; [apply Mb_keep; eassumption|]. split; [destruct v'; auto|now apply Permutation_app_head].
  - destruct x as [k1 v1], y as [k2 v2]. inversion H; subst; match goal with K : Members _ _ (_ :: _) _ _ |- _ => inversion K; subst end.
    + exists mem, ds. split; [repeat constructor; assumption|auto].
    + eexists _, _. split; [apply Mb_keep; [assumption|eassumption|apply Mb_skip; eassumption]|]. auto.
    + eexists _, _. split; [apply Mb_skip; [assumption|apply Mb_keep; eassumption]|]. auto.
    + eexists _, _. split; [apply Mb_keep; [assumption|eassumption|apply Mb_keep; eassumption]|].
      split; [|rewrite !app_assoc; apply Permutation_app_tail, Permutation_app_comm].
      destruct v', v'0; auto; constructor.
  - destruct (IHP1 _ _ H) as (m1 & d1 & HA & ? & ?). destruct (IHP2 _ _ HA) as (m2 & d2 & HB & ? & ?).
    exists m2, d2. split; [assumption|]. split; [now transitivity m1|now transitivity d1].
Qed.
Lemma Forall2_mset m m' k v v' : Forall2 mem_eq m m' -> jeq v v' -> Forall2 mem_eq (mset m k v) (mset m' k v').
Proof.
  intros F J. induction F as [|[a x] [b y] m m' [H1 H2] HF IH]; simpl in *; [constructor; [split; auto|constructor]|]. subst b.
  destruct (String.eqb k a); (constructor; [split; auto|auto]).
Qed.
Lemma Forall2_with_hidden clean n n' hid : Forall2 mem_eq n n' -> Forall2 mem_eq (with_hidden clean n hid) (with_hidden clean n' hid).
Proof.
  intros F. unfold with_hidden. destruct clean; [assumption|]. destruct hid; [assumption|].
  apply Forall2_mset; [assumption|apply jeq_refl].
Qed.

Section Order.
Variables (clean : bool) (D D' : string -> option dcontent).
Hypotheses (HD : Deq D D') (HwD : wfD D).
Lemma Deq_none d : D d = None -> D' d = None.
Proof. intros H. specialize (HD d). rewrite H in HD. destruct (D' d); tauto. Qed.
Lemma Deq_elem d x : D d = Some (CElem x) -> exists x', D' d = Some (CElem x') /\ jeq x x'.
Proof. intros H. specialize (HD d). rewrite H in HD. destruct (D' d) as [[]|]; simpl in HD; try tauto. eauto. Qed.
Lemma Deq_member d n x : D d = Some (CMember n x) -> exists x', D' d = Some (CMember n x') /\ jeq x x'.
Proof. intros H. specialize (HD d). rewrite H in HD. destruct (D' d) as [[]|]; simpl in HD; try tauto. destruct HD as [<- ?]. eauto. Qed.

Lemma Res_jeq :
  (forall j out ds, Res clean D j out ds -> forall j', wf_json j -> jeq j j' ->
     exists out' ds', Res clean D' j' out' ds' /\ jeq out out' /\ Permutation ds ds') /\
  (forall l out ds, Elems clean D l out ds -> forall l', Forall wf_json l -> Forall2 jeq l l' ->
     exists out' ds', Elems clean D' l' out' ds' /\ Forall2 jeq out out' /\ Permutation ds ds') /\
  (forall l out hid ds, Named clean D l out hid ds ->
     exists out' ds', Named clean D' l out' hid ds' /\ Forall2 mem_eq out out' /\ Permutation ds ds') /\
  (forall m out ds, Members clean D m out ds -> forall m', Forall (fun kv => wf_json (snd kv)) m -> Forall2 mem_eq m m' ->
     exists out' ds', Members clean D' m' out' ds' /\ Forall2 mem_eq out out' /\ Permutation ds ds').
Proof.
  apply Res_mutind; intros.
  - inversion H0; subst; try tauto. exists j', []. split; [now constructor|]. split; [assumption|constructor].
  - inversion H1; subst; try tauto. apply wf_arr in H0. destruct (H _ H0 H3) as (o & d & E & F & P).
    eexists _, d. split; [constructor; eassumption|]. split; [|assumption].
    destruct F; simpl; [apply jeq_refl|]. apply jeq_arr. constructor; assumption.
  - destruct j' as [| | | | |m']; try (inversion H2; fail).
    apply wf_obj in H1 as [Hnd Hwf]. destruct H as (named' & ds1' & HN' & FN & PN).
    pose proof H2 as J. apply jeq_obj_inv in J as (q & Fq & Pq).
    destruct (H0 q Hwf Fq) as (mem1 & d1 & HM & FM & PM).
    destruct (Members_perm _ _ _ _ _ _ HM Pq) as (mem' & ds2' & HM' & PM' & PD').
    eexists _, _. split; [|split].
    + econstructor; [eapply sd_list_jeq; eassumption|exact HN'|exact HM'| |].
      * rewrite <- (mem_eq_keys _ _ FN). assumption.
      * intros k Hk Hp. rewrite <- (mem_eq_keys _ _ FN). apply n1; [|assumption].
        rewrite (mem_eq_keys _ _ Fq). eapply Permutation_in; [apply Permutation_sym, Permutation_map; exact Pq|exact Hk].
    + eapply jeq_obj_intro; [apply Forall2_app; [apply Forall2_with_hidden; eassumption|exact FM]|].
      now apply Permutation_app_head.
    + apply Permutation_app; [assumption|]. now transitivity d1.
  - inversion H0; subst. exists [], []. split; [constructor|]. split; constructor.
  - inversion H0; subst. inversion H1; subst. destruct (H _ H5 H8) as (o & d & E & F & P).
    pose proof (digest_elem_jeq _ _ H4 H6) as Hd. rewrite e in Hd.
    exists (y :: o), d. split; [apply El_plain; [destruct (digest_elem y); tauto|assumption]|]. split; [now constructor|assumption].
  - inversion H0; subst. inversion H1; subst. destruct (H _ H5 H8) as (o & d' & E & F & P).
    pose proof (digest_elem_jeq _ _ H4 H6) as Hd. rewrite e in Hd. destruct (digest_elem y) as [z|] eqn:Ey; [|tauto].
    apply jeq_str in Hd as ->.
    exists (if clean then o else y :: o), (d :: d'). split; [now apply El_hidden; [|apply Deq_none|]|].
    split; [destruct clean; [assumption|now constructor]|now constructor].
  - inversion H1; subst. inversion H2; subst. destruct (H0 _ H6 H9) as (o & d' & E & F & P).
    pose proof (digest_elem_jeq _ _ H5 H7) as Hd. rewrite e in Hd. destruct (digest_elem y) as [z|] eqn:Ey; [|tauto].
    apply jeq_str in Hd as ->. destruct (Deq_elem _ _ e0) as (x2 & Hx2 & Jx).
    destruct (H x2 (HwD _ _ e0) Jx) as (ox & dx & Rx & Jo & Px).
    eexists _, _. split; [eapply El_disclosed; eassumption|]. split; [now constructor|].
    constructor. now apply Permutation_app.
  - exists [], []. split; [constructor|]. split; constructor.
  - destruct H as (o & d' & E & F & P). eexists _, _. split; [apply Nm_hidden; [now apply Deq_none|eassumption]|].
    split; [assumption|now constructor].
  - destruct (Deq_member _ _ _ e) as (x2 & Hx2 & Jx). destruct (H x2 (HwD _ _ e) Jx) as (ox & dx & Rx & Jo & Px).
    destruct H0 as (o & d' & E & F & P). eexists _, _. split; [eapply Nm_disclosed; eassumption|].
    split; [constructor; [now split|assumption]|]. constructor. now apply Permutation_app.
  - inversion H0; subst. exists [], []. split; [constructor|]. split; constructor.
  - inversion H1; subst. destruct y as [k' v']. destruct H4 as [Hk Hj]. simpl in Hk, Hj. subst k'.
    inversion H0; subst. destruct (H _ H5 H6) as (o & d' & E & F & P). exists o, d'.
    split; [now apply Mb_skip|auto].
  - inversion H2; subst. destruct y as [k' w']. destruct H5 as [Hk Hj]. simpl in Hk, Hj. subst k'.
    inversion H1; subst. destruct (H0 _ H6 H7) as (o & d' & E & F & P). destruct (H _ H5 Hj) as (ov & dv & Rv & Jv & Pv).
    eexists _, _. split; [apply Mb_keep; eassumption|]. split; [|now apply Permutation_app].
    pose proof (jeq_null _ _ Jv) as Hnull.
    assert (Hc : (v' = JNull /\ ov = JNull) \/ (v' <> JNull /\ ov <> JNull)).
    { destruct v'; [left; split; [reflexivity|now apply Hnull]|..]; right; (split; [discriminate|]); intros ->;
        destruct Hnull as [_ Hx]; specialize (Hx eq_refl); discriminate. }
    destruct Hc as [[-> ->]|[N1 N2]]; [assumption|].
    assert (K : Forall2 mem_eq ((k, v') :: out) ((k, ov) :: o)) by (constructor; [now split|assumption]).
    destruct v'; try congruence; destruct ov; try congruence; exact K.
Qed.
End Order.

(** ** Provenance *)
Lemma arr_or_null_cases l : arr_or_null l = JNull \/ arr_or_null l = JArr l.
Proof. destruct l; auto. Qed.
Definition from_sources (D : string -> option dcontent) (P : json -> Prop) (j : json) : Prop :=
  P j \/ exists d c, D d = Some c /\ P (disclosed_value c).

Lemma Members_in clean D m mem ds : Members clean D m mem ds -> forall k v', In (k, v') mem ->
  exists v ds', In (k, v) m /\ plain_key clean k = true /\ Res clean D v v' ds'.
Proof.
  induction 1; intros k0 w Hi; [destruct Hi| |].
  - destruct (IHMembers _ _ Hi) as (v0 & ds' & ? & ? & ?). exists v0, ds'. split; [right; assumption|auto].
  - assert (Hor : (k, v') = (k0, w) \/ In (k0, w) out) by (destruct v'; simpl in Hi; tauto).
    destruct Hor as [[= -> ->]|Hi'].
    + exists v, ds1. split; [left; reflexivity|auto].
    + destruct (IHMembers _ _ Hi') as (v0 & ds' & ? & ? & ?). exists v0, ds'. split; [right; assumption|auto].
Qed.

Lemma Res_scalars D :
  (forall j out ds, Res true D j out ds -> forall x, scalar_of x out -> x <> JNull -> from_sources D (scalar_of x) j) /\
  (forall l out ds, Elems true D l out ds -> forall x v, In v out -> scalar_of x v -> x <> JNull -> from_sources D (scalar_of x) (JArr l)) /\
  (forall l out hid ds, Named true D l out hid ds -> forall x n v, In (n, v) out -> scalar_of x v -> x <> JNull ->
     exists d c, D d = Some c /\ scalar_of x (disclosed_value c)) /\
  (forall m out ds, Members true D m out ds -> forall x k v, In (k, v) out -> scalar_of x v -> x <> JNull -> from_sources D (scalar_of x) (JObj m)).
Proof.
  assert (Hup : forall D P j j', from_sources D P j -> (P j -> P j') -> from_sources D P j').
  { intros D0 P j j' [H|H] Hi; [left; auto|right; assumption]. }
  apply Res_mutind; intros; simpl in *; try tauto.
  - now left.
  - destruct (arr_or_null_cases out) as [E|E]; rewrite E in H0.
    + inversion H0; subst; tauto.
    + inversion H0; subst; [tauto|]. eauto.
  - inversion H1; subst; [tauto|]. apply in_app_iff in H4 as [H4|H4]; [right; eauto|eauto].
  - destruct H0 as [->|H0]; [left; eapply so_arr; simpl; eauto|]. eapply Hup; [eapply H; eauto|].
    intros K. inversion K; subst; [tauto|]. eapply so_arr; simpl; eauto.
  - eapply Hup; [eapply H; eauto|]. intros K. inversion K; subst; [tauto|]. eapply so_arr; simpl; eauto.
  - destruct H1 as [<-|H1].
    + destruct (H _ H2 H3) as [K|K]; [|right; assumption]. right. exists d, (CElem x). auto.
    + eapply Hup; [eapply H0; eauto|]. intros K. inversion K; subst; [tauto|]. eapply so_arr; simpl; eauto.
  - eauto.
  - destruct H1 as [[= <- <-]|H1]; [|eauto]. destruct (H _ H2 H3) as [K|K]; [|assumption].
    exists d, (CMember n x). auto.
  - eapply Hup; [eapply H; eauto|]. intros K. inversion K; subst; [tauto|]. eapply so_obj; simpl; eauto.
  - assert (Hor : (k, v') = (k0, v0) \/ In (k0, v0) out) by (destruct v'; simpl in H1; tauto).
    destruct Hor as [[= -> ->]|Hi].
    + eapply Hup; [eapply H; eauto|]. intros K. eapply so_obj; simpl; eauto.
    + eapply Hup; [eapply H0; eauto|]. intros K. inversion K; subst; [tauto|]. eapply so_obj; simpl; eauto.
Qed.

Definition name_source (D : string -> option dcontent) (n : string) (j : json) : Prop :=
  name_of n j \/ (exists d c, D d = Some c /\ name_of n (disclosed_value c)) \/ exists d v, D d = Some (CMember n v).
Lemma Res_names D :
  (forall j out ds, Res true D j out ds -> forall n, name_of n out -> name_source D n j) /\
  (forall l out ds, Elems true D l out ds -> forall n v, In v out -> name_of n v -> name_source D n (JArr l)) /\
  (forall l out hid ds, Named true D l out hid ds -> forall n k v, In (k, v) out -> n = k \/ name_of n v ->
     (exists d c, D d = Some c /\ name_of n (disclosed_value c)) \/ exists d v, D d = Some (CMember n v)) /\
  (forall m out ds, Members true D m out ds -> forall n k v, In (k, v) out -> n = k \/ name_of n v -> name_source D n (JObj m)).
Proof.
  assert (Hup : forall D n j j', name_source D n j -> (name_of n j -> name_of n j') -> name_source D n j').
  { intros D0 n j j' [H|H] Hi; [left; auto|right; assumption]. }
  apply Res_mutind; intros; simpl in *; try tauto.
  - now left.
  - destruct (arr_or_null_cases out) as [E|E]; rewrite E in H0; inversion H0; subst. eauto.
  - inversion H1; subst.
    + apply in_app_iff in H3 as [H3|H3]; [right; eauto|eauto].
    + apply in_app_iff in H3 as [H3|H3]; [right; eauto|eauto].
  - destruct H0 as [->|H0]; [left; eapply no_arr; simpl; eauto|]. eapply Hup; [eapply H; eauto|].
    intros K. inversion K; subst. eapply no_arr; simpl; eauto.
  - eapply Hup; [eapply H; eauto|]. intros K. inversion K; subst. eapply no_arr; simpl; eauto.
  - destruct H1 as [<-|H1].
    + destruct (H _ H2) as [K|K]; [|right; assumption]. right. left. exists d, (CElem x). auto.
    + eapply Hup; [eapply H0; eauto|]. intros K. inversion K; subst. eapply no_arr; simpl; eauto.
  - eauto.
  - destruct H1 as [[= <- <-]|H1]; [|eauto]. destruct H2 as [->|H2]; [right; eauto|].
    destruct (H _ H2) as [K|K]; [|assumption]. left. exists d, (CMember n x). auto.
  - eapply Hup; [eapply H; eauto|]. intros K. inversion K; subst; [eapply no_here|eapply no_obj]; simpl; eauto.
  - assert (Hor : (k, v') = (k0, v0) \/ In (k0, v0) out) by (destruct v'; simpl in H1; tauto).
    destruct Hor as [[= -> ->]|Hi].
    + destruct H2 as [->|H2]; [left; eapply no_here; simpl; eauto|]. eapply Hup; [eapply H; eauto|].
      intros K. eapply no_obj; simpl; eauto.
    + eapply Hup; [eapply H0; eauto|]. intros K. inversion K; subst; [eapply no_here|eapply no_obj]; simpl; eauto.
Qed.

(** ** No digest survives cleaning *)
Section NoDigest.
Variable D : string -> option dcontent.
Hypotheses (Htidy : forall d c, D d = Some c -> tidy (disclosed_value c)).
Hypotheses (Hname : forall d n v, D d = Some (CMember n v) -> n <> "_sd" /\ n <> "...").
Hypotheses (Helem : forall d m, D d = Some (CElem (JObj m)) -> mget m "..." = None).

Lemma Named_in l out hid ds : Named true D l out hid ds -> forall n v', In (n, v') out ->
  exists d v ds', D d = Some (CMember n v) /\ Res true D v v' ds'.
Proof.
  induction 1; intros n0 w Hi; [destruct Hi|eauto|]. destruct Hi as [[= <- <-]|Hi]; eauto.
Qed.
Lemma out_no_dots j m' ds : Res true D j (JObj m') ds -> (forall m, j = JObj m -> mget m "..." = None) ->
  forall v, ~ In ("...", v) m'.
Proof.
  intros R Hj v Hi. inversion R; subst; [tauto| |].
  - destruct (arr_or_null_cases out) as [E|E]; rewrite E in *; discriminate.
  - simpl in Hi. apply in_app_iff in Hi as [Hi|Hi].
    + eapply Named_in in Hi; [|eassumption]. destruct Hi as (d & w & ds' & Hd & _). apply Hname in Hd. tauto.
    + eapply Members_in in Hi; [|eassumption]. destruct Hi as (w & ds' & Hw & _).
      specialize (Hj _ eq_refl). apply mget_None in Hj. apply Hj. exact (in_map fst _ _ Hw).
Qed.
Lemma Res_no_digest :
  (forall j out ds, Res true D j out ds -> tidy j -> forall d, ~ digest_anywhere d out) /\
  (forall l out ds, Elems true D l out ds -> tidy (JArr l) -> forall d, ~ digest_anywhere d (JArr out)) /\
  (forall l out hid ds, Named true D l out hid ds -> forall d n v, In (n, v) out -> ~ digest_anywhere d v) /\
  (forall m out ds, Members true D m out ds -> (forall k v, In (k, v) m -> k <> "_sd" -> tidy v) ->
     forall d k v, In (k, v) out -> ~ digest_anywhere d v).
Proof.
  assert (Hcons : forall v l, tidy (JArr (v :: l)) -> tidy (JArr l)).
  { intros v l H. inversion H; subst; [tauto|]. apply tidy_arr. intros w Hw. apply H1. now right. }
  apply Res_mutind; intros; simpl in *; try tauto.
  - intros K. inversion K; subst; tauto.
  - intros K. destruct (arr_or_null_cases out) as [E|E]; rewrite E in K; [inversion K|]. eapply H; eauto.
  - inversion H1; subst; [tauto|]. intros K. inversion K; subst.
    + match goal with Q : In _ (_ ++ _)%list |- _ => apply in_app_iff in Q as [Q|Q]; rename Q into HQ end.
      * eapply Named_in in HQ; [|eassumption]. destruct HQ as (d0 & w & ds' & Hd & _). apply Hname in Hd. tauto.
      * eapply Members_in in HQ; [|eassumption]. destruct HQ as (w & ds' & _ & Hp & _). discriminate.
    + match goal with Q : In _ (_ ++ _)%list |- _ => apply in_app_iff in Q as [Q|Q] end; [eapply H; eauto|eapply H0; eauto].
  - intros K. inversion K; subst; match goal with Q : In _ [] |- _ => destruct Q end.
  - intros K. pose proof (Hcons _ _ H0) as Hc. inversion H0 as [?|? Ht|]; subst; [tauto|]. inversion K as [|? ? Hi1 Hi2| |? ? Hi1 Hi2]; subst.
    + destruct Hi1 as [->|Hi1].
      * simpl in e. apply mget_None in e. apply e. exact (in_map fst _ _ Hi2).
      * apply (H Hc d). eapply da_elem; eauto.
    + destruct Hi1 as [->|Hi1].
      * eapply Ht; [left; reflexivity|assumption|eassumption].
      * apply (H Hc d). eapply da_arr; eauto.
  - eapply H. eauto.
  - intros K. pose proof (Hcons _ _ H1) as Hc. inversion K as [|? ? Hi1 Hi2| |? ? Hi1 Hi2]; subst.
    + destruct Hi1 as [->|Hi1].
      * eapply out_no_dots; [eassumption| |eassumption]. intros m' ->. eapply Helem; eauto.
      * apply (H0 Hc d0). eapply da_elem; eauto.
    + destruct Hi1 as [->|Hi1].
      * eapply H; [|eassumption]. apply (Htidy _ _ e0).
      * apply (H0 Hc d0). eapply da_arr; eauto.
  - eauto.
  - destruct H1 as [[= <- <-]|H1]; [|eauto]. apply H. apply (Htidy _ _ e).
  - eapply H; eauto.
  - assert (Hor : (k, v') = (k0, v0) \/ In (k0, v0) out) by (destruct v'; simpl in H2; tauto).
    destruct Hor as [[= <- <-]|Hi].
    + apply H. apply H1 with (k := k); [auto|]. intros ->. discriminate.
    + eapply H0; eauto.
Qed.
End NoDigest.
