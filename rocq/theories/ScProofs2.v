From Verif Require Import GoBase StatusModel ScModel ScSpec ScProofs.

(** what a sequence of calls shows *)
Lemma answered_stale life m l rs : answered life m l rs -> forall j b r, nth_error l j = Some b -> nth_error rs j = Some (r, false) ->
  (exists v t0, m (ca_url b) = Some (v, t0) /\ r = Ok v /\ good life t0 (ca_t1 b)) \/
  (exists i a v, (i < j)%nat /\ nth_error l i = Some a /\ nth_error rs i = Some (Ok v, true) /\ ca_url a = ca_url b /\
     ca_answer a = Answer 200 (Ok v) /\ r = Ok v /\ good life (ca_t2 a) (ca_t1 b)).
Proof.
  induction 1 as [m|m c l v t0 rs E G A IH|m c l v rs N E A IH|m m0 c l e rs N E K Z L A IH]; intros j b r Hb Hr.
  - destruct j; discriminate.
  - destruct j as [|j]; cbn in Hb, Hr.
    + injection Hb as <-. injection Hr as <-. left. eauto 6.
    + destruct (IH j b r Hb Hr) as [X|(i & a & w & Hi & X)]; [now left|]. right. exists (Datatypes.S i), a, w. split; [lia|exact X].
  - destruct j as [|j]; cbn in Hb, Hr; [discriminate|].
    destruct (IH j b r Hb Hr) as [(w & t0 & X & Y & Z)|(i & a & w & Hi & X)].
    + unfold remember in X. destruct (String.eqb_spec (ca_url b) (ca_url c)) as [Eq|Ne].
      * injection X as <- <-. right. exists 0%nat, c, v. repeat split; auto; lia.
      * left. eauto 6.
    + right. exists (Datatypes.S i), a, w. split; [lia|exact X].
  - destruct j as [|j]; cbn in Hb, Hr; [discriminate|].
    destruct (IH j b r Hb Hr) as [(w & t0 & X & Y & Z')|(i & a & w & Hi & X)].
    + left. destruct (string_dec (ca_url b) (ca_url c)) as [Eq|Ne]; [rewrite Eq in X; congruence|]. rewrite K in X by assumption. eauto 6.
    + right. exists (Datatypes.S i), a, w. split; [lia|exact X].
Qed.
Lemma answered_kept life m l rs : answered life m l rs -> forall j b v t0, nth_error l j = Some b -> m (ca_url b) = Some (v, t0) ->
  (forall i a, (i <= j)%nat -> nth_error l i = Some a -> ca_url a = ca_url b -> good life t0 (ca_t1 a)) -> nth_error rs j = Some (Ok v, false).
Proof.
  induction 1 as [m|m c l w t1 rs E G A IH|m c l w rs N E A IH|m m0 c l e rs N E K Z L A IH]; intros j b v t0 Hb Hm Hg.
  - destruct j; discriminate.
  - destruct j as [|j]; cbn in Hb |- *.
    + injection Hb as <-. congruence.
    + eapply IH; eauto. intros i a Hi Ha. apply (Hg (Datatypes.S i) a); [lia|exact Ha].
  - assert (Ne : ca_url c <> ca_url b).
    { intros Eq. apply (N v t0); [now rewrite Eq|]. apply (Hg 0%nat c); [lia|reflexivity|exact Eq]. }
    destruct j as [|j]; cbn in Hb |- *; [congruence|].
    eapply IH; eauto; [unfold remember; destruct (String.eqb_spec (ca_url b) (ca_url c)); [congruence|eassumption]|].
    intros i a Hi Ha. apply (Hg (Datatypes.S i) a); [lia|exact Ha].
  - assert (Ne : ca_url c <> ca_url b).
    { intros Eq. apply (N v t0); [now rewrite Eq|]. apply (Hg 0%nat c); [lia|reflexivity|exact Eq]. }
    destruct j as [|j]; cbn in Hb |- *; [congruence|].
    eapply IH; eauto; [rewrite K by congruence; eassumption|]. intros i a Hi Ha. apply (Hg (Datatypes.S i) a); [lia|exact Ha].
Qed.
Lemma answered_reused life m l rs : answered life m l rs -> forall i j a b v, (i < j)%nat -> nth_error l i = Some a -> nth_error l j = Some b ->
  ca_url a = ca_url b -> nth_error rs i = Some (Ok v, true) ->
  (forall k c, (i < k <= j)%nat -> nth_error l k = Some c -> ca_url c = ca_url b -> good life (ca_t2 a) (ca_t1 c)) -> nth_error rs j = Some (Ok v, false).
Proof.
  induction 1 as [m|m c l w t1 rs E G A IH|m c l w rs N E A IH|m m0 c l e rs N E K Z L A IH]; intros i j a b v Hij Ha Hb Hu Hr Hg.
  - destruct i; discriminate.
  - destruct i as [|i]; cbn in Hr, Ha; [discriminate|]. destruct j as [|j]; [lia|]. cbn in Hb |- *. apply (IH i j a b v); auto; [lia|].
    intros k c0 Hk Hc. apply (Hg (Datatypes.S k) c0); [lia|exact Hc].
  - destruct j as [|j]; [lia|]. destruct i as [|i]; cbn in Hr, Ha, Hb |- *.
    + injection Hr as ->. injection Ha as <-. eapply answered_kept; eauto; [unfold remember; now rewrite <- Hu, String.eqb_refl|].
      intros i c0 Hi Hc. apply (Hg (Datatypes.S i) c0); [lia|exact Hc].
    + apply (IH i j a b v); auto; [lia|]. intros k c0 Hk Hc. apply (Hg (Datatypes.S k) c0); [lia|exact Hc].
  - destruct j as [|j]; [lia|]. destruct i as [|i]; cbn in Hr, Ha, Hb |- *.
    + injection Hr as ->. apply load_ok in L. exfalso. eapply E; eauto.
    + apply (IH i j a b v); auto; [lia|]. intros k c0 Hk Hc. apply (Hg (Datatypes.S k) c0); [lia|exact Hc].
Qed.

(** ** Interleaved calls *)
Section Conc.
  Variable life : Z.
  Definition cached_ok (c : gomap string) (past : list event) : Prop :=
    forall k b, mget c k = Some b -> exists v t0, b = stamped life t0 v /\ In (Stored k v t0) past.
  Definition thread_ok (past : list event) (url : string) (th : thread) : Prop :=
    match th with
    | Want u | Missed u | Failed u _ => u = url
    | Loaded u v | Fresh u v => u = url /\ In (Delivered url v) past
    | Hit u v t => u = url /\ exists t0, In (Stored url v t0) past /\ unix t <= expiry life t0
    end.
  Definition inv (urls : list string) (s : state) : Prop :=
    cached_ok (st_cache s) (st_past s) /\
    (forall u v t, In (Stored u v t) (st_past s) -> In (Delivered u v) (st_past s)) /\
    List.length (st_threads s) = List.length urls /\
    (forall i url th, nth_error urls i = Some url -> nth_error (st_threads s) i = Some th -> thread_ok (st_past s) url th).
  Lemma set_thread_len l : forall i t, List.length (set_thread l i t) = List.length l.
  Proof. induction l as [|x l IH]; intros [|i] t; cbn; auto. Qed.
  Lemma set_thread_nth l : forall i t j th, nth_error (set_thread l i t) j = Some th -> (j = i /\ th = t) \/ (j <> i /\ nth_error l j = Some th).
  Proof.
    induction l as [|x l IH]; intros [|i] t [|j] th H; cbn in *; try discriminate; auto.
    - left. split; [reflexivity|congruence].
    - destruct (IH i t j th H) as [[-> ->]|[N E]]; [left|right]; auto.
  Qed.
  Lemma thread_ok_more past e url th : thread_ok past url th -> thread_ok (e :: past) url th.
  Proof. destruct th; cbn; intuition eauto. destruct H1 as (t0 & ? & ?). eauto. Qed.
  Lemma cached_del c past k : cached_ok c past -> cached_ok (mdel c k) past.
  Proof. intros H k' b E. rewrite mget_mdel in E. destruct (String.eqb k' k); [discriminate|now apply H]. Qed.
  Lemma cache_get_ok c past now k : cached_ok c past ->
    (exists c', cache_get now k c = Ok (None, c') /\ cached_ok c' past) \/
    (exists v t0, cache_get now k c = Ok (Some v, c) /\ In (Stored k v t0) past /\ unix now <= expiry life t0).
  Proof.
    intros H. destruct (mget c k) as [b|] eqn:E.
    - destruct (H k b E) as (v & t0 & -> & I). rewrite (get_stamped life _ _ _ _ _ E). destruct (Z.ltb_spec (expiry life t0) (unix now)).
      + left. eexists. split; [reflexivity|now apply cached_del].
      + right. exists v, t0. auto.
    - left. exists c. split; [now apply get_none|assumption].
  Qed.
  Lemma inv_step urls s s' : inv urls s -> step life s s' -> inv urls s'.
  Proof.
    intros (C & D & Len & T) S. inversion S as [s0 t|s0 k|s0 i url v c E G|s0 i url r v E G|s0 i url r e E G|s0 i url v E|s0 i url v E]; subst; unfold inv; cbn [st_cache st_threads st_clock st_past];
      rewrite ?set_thread_len.
    - auto.
    - split; [now apply cached_del|auto].
    - destruct (cache_get_ok _ _ (st_clock s) url C) as [(c' & G' & C')|(w & t0 & G' & I & Ex)]; rewrite G in G'; injection G' as -> ->.
      + split; [assumption|]. split; [assumption|]. split; [assumption|]. intros j url' th Hu Hj. apply set_thread_nth in Hj as [[-> ->]|[N Hj]]; [|eauto].
        exact (T i url' _ Hu E).
      + split; [assumption|]. split; [assumption|]. split; [assumption|]. intros j url' th Hu Hj. apply set_thread_nth in Hj as [[-> ->]|[N Hj]]; [|eauto].
        pose proof (T i url' _ Hu E) as X. cbn in X. subst. cbn. eauto.
    - split; [intros k b Hk; destruct (C k b Hk) as (w & t0 & -> & I); exists w, t0; cbn; auto|].
      split; [intros u w t [X|X]; [discriminate|right; eauto]|]. split; [assumption|].
      intros j url' th Hu Hj. apply set_thread_nth in Hj as [[-> ->]|[N Hj]]; [|apply thread_ok_more; eauto].
      pose proof (T i url' _ Hu E) as X. cbn in X. subst. cbn. auto.
    - split; [assumption|]. split; [assumption|]. split; [assumption|]. intros j url' th Hu Hj. apply set_thread_nth in Hj as [[-> ->]|[N Hj]]; [|eauto].
      exact (T i url' _ Hu E).
    - assert (Dl : In (Delivered url v) (st_past s)).
      { destruct (nth_error urls i) as [url'|] eqn:Hu.
        - pose proof (T i url' _ Hu E) as X. cbn in X. destruct X as [-> X]. exact X.
        - apply nth_error_None in Hu. rewrite <- Len in Hu. apply nth_error_None in Hu. congruence. }
      split.
      { intros k b Hk. unfold cache_put in Hk. rewrite mget_mset in Hk. destruct (String.eqb_spec k url) as [->|Ne].
        - injection Hk as <-. exists v, (st_clock s). cbn. auto.
        - destruct (C k b Hk) as (w & t0 & -> & I). exists w, t0. cbn. auto. }
      split; [intros u w t [X|X]; [injection X as <- <- <-; now right|right; eauto]|]. split; [assumption|].
      intros j url' th Hu Hj. apply set_thread_nth in Hj as [[-> ->]|[N Hj]]; [|apply thread_ok_more; eauto].
      pose proof (T i url' _ Hu E) as X. cbn in X |- *. intuition.
    - split; [assumption|]. split; [assumption|]. split; [assumption|]. intros j url' th Hu Hj. apply set_thread_nth in Hj as [[-> ->]|[N Hj]]; [|eauto].
      exact (T i url' _ Hu E).
  Qed.
  Lemma inv_start urls t : inv urls (start urls t).
  Proof.
    unfold inv, start. cbn. split; [intros k b [=]|]. split; [intros ? ? ? []|]. split; [apply map_length|].
    intros i url th Hu Ht. rewrite nth_error_map, Hu in Ht. injection Ht as <-. reflexivity.
  Qed.
  Lemma inv_runs urls t s : runs life (start urls t) s -> inv urls s.
  Proof.
    intros R. remember (start urls t) as s0 eqn:E. induction R as [s1|s1 s2 s3 R IH St]; [subst; apply inv_start|]. eapply inv_step; eauto.
  Qed.
End Conc.
