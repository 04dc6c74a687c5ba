(** Correctness of the bitset iterator (C09) and of the search built on it (C10). *)
From Coq Require Import ZifyN.
From Verif Require Import GoBase ReqSpec ReqModel ReqProofs.
Local Open Scope N_scope.

Notation satb r T := (is_satisfied_by r T).

Lemma satb_same_set r T U : same_set T U -> satb r T = satb r U.
Proof. intros H. apply is_satisfied_ext. intros x _. apply H. Qed.
Lemma satb_init r T : satb r (init_from_slice T) = satb r T.
Proof. apply satb_same_set. intros x. unfold init_from_slice. apply nodup_In. Qed.

Definition width (it : iter) : N := N.of_nat (List.length (it_descs it)).

(** ** incrementUntilValid *)
Lemma inc_spec : forall fuel it,
  0 < it_state it <= 2 ^ width it -> (N.to_nat (2 ^ width it - it_state it) < fuel)%nat ->
  exists it' out, increment_until_valid fuel it = Some (it', out) /\
    it_req it' = it_req it /\ it_descs it' = it_descs it /\ it_done it' = it_done it /\
    it_state it <= it_state it' /\
    (forall t, it_state it <= t < it_state it' -> satb (it_req it) (sel (it_descs it) t) = false) /\
    ((out = [] /\ it_state it' = 2 ^ width it) \/
     (out = sel (it_descs it) (it_state it') /\ out <> [] /\ it_state it' < 2 ^ width it /\
      satb (it_req it) out = true)).
Proof.
  induction fuel as [|f IH]; intros it Hs Hf; [lia|].
  cbn [increment_until_valid]. rewrite current_sel.
  destruct (sel (it_descs it) (it_state it)) as [|c cs] eqn:Ec.
  - exists it, []. do 4 (split; [reflexivity|]). split; [lia|]. split; [intros t Ht; lia|].
    left. split; [reflexivity|].
    apply sel_nil_iff in Ec. fold (width it) in Ec.
    destruct (N.lt_ge_cases (it_state it) (2 ^ width it)) as [L|L]; [|lia].
    rewrite N.mod_small in Ec by assumption. lia.
  - rewrite satb_init. destruct (satb (it_req it) (c :: cs)) eqn:Es.
    + exists it, (c :: cs). do 4 (split; [reflexivity|]). split; [lia|]. split; [intros t Ht; lia|].
      right. rewrite Ec. repeat split; [discriminate| |assumption].
      destruct (N.lt_ge_cases (it_state it) (2 ^ width it)) as [L|L]; [assumption|].
      assert (E : it_state it = 2 ^ width it) by lia.
      assert (Hn : sel (it_descs it) (it_state it) = []).
      { apply sel_nil_iff. rewrite E. apply N.mod_same. apply N.pow_nonzero. lia. }
      congruence.
    + assert (Hlt : it_state it < 2 ^ width it).
      { destruct (N.lt_ge_cases (it_state it) (2 ^ width it)) as [L|L]; [assumption|].
        assert (E : it_state it = 2 ^ width it) by lia.
        assert (Hn : sel (it_descs it) (it_state it) = []).
        { apply sel_nil_iff. rewrite E. apply N.mod_same. apply N.pow_nonzero. lia. }
        congruence. }
      destruct (IH (set_state it (it_state it + 1))) as (it' & out & E & Hr & Hd & Hdn & Hle & Hno & Hout).
      { unfold set_state, width in *. cbn. lia. }
      { unfold set_state, width in *. cbn. lia. }
      exists it', out. split; [exact E|]. unfold set_state, width in Hr, Hd, Hdn, Hle, Hno, Hout; cbn in Hr, Hd, Hdn, Hle, Hno, Hout.
      split; [exact Hr|]. split; [exact Hd|]. split; [exact Hdn|]. split; [lia|]. split.
      * intros t Ht. destruct (N.eq_dec t (it_state it)) as [->|Hne]; [rewrite Ec; exact Es|]. apply Hno. lia.
      * exact Hout.
Qed.

(** ** Invariants *)
(** Every satisfying non-empty selection with code below [s] has been answered, and no other. *)
Definition answered (r : rlogic) (descs : list string) (s : N) (Y : list (list string)) : Prop :=
  forall P, filter P descs <> [] -> satb r (filter P descs) = true ->
    (code descs P < s <-> exists y, In y Y /\ same_set y (filter P descs)).

Lemma answered_skip r descs s t Y : NoDup descs -> s <= t ->
  (forall u, s <= u < t -> satb r (sel descs u) = false) ->
  answered r descs s Y -> answered r descs t Y.
Proof.
  intros Hnd Hst Hno H P Hne Hs. rewrite <- (H P Hne Hs). split; [|lia].
  intros Hlt. destruct (N.lt_ge_cases (code descs P) s) as [L|L]; [assumption|]. exfalso.
  assert (E : satb r (sel descs (code descs P)) = false) by (apply Hno; lia).
  rewrite sel_code in E. congruence.
Qed.

Lemma same_set_filter descs y z : incl y descs -> same_set y z -> same_set (filter (fun x => str_in x z) descs) y.
Proof.
  intros Hi Hs x. rewrite filter_In, str_in_In. rewrite (Hs x). split; [tauto|]. intros Hx. split; [|assumption].
  apply Hi. now apply Hs.
Qed.

Lemma answered_step r descs s Y : NoDup descs -> s < 2 ^ N.of_nat (List.length descs) ->
  satb r (sel descs s) = true -> answered r descs s Y -> answered r descs (s + 1) (sel descs s :: Y).
Proof.
  intros Hnd Hb Hsat H P Hne Hs. specialize (H P Hne Hs). split.
  - intros Hlt. destruct (N.eq_dec (code descs P) s) as [E|E].
    + exists (sel descs s). split; [now left|]. rewrite <- E, sel_code. intros x; tauto.
    + destruct H as [H _]. destruct H as (y & Hy & Hyy); [lia|]. exists y. split; [now right|assumption].
  - intros (y & [<-|Hy] & Hyy).
    + assert (E : code descs P = s); [|lia]. rewrite <- (code_sel descs s Hnd Hb). apply code_ext.
      intros x Hx. specialize (Hyy x). rewrite filter_In in Hyy.
      destruct (P x) eqn:EP; symmetry; [apply str_in_In, Hyy; auto|].
      apply str_in_nIn. intros Hin. apply Hyy in Hin as [_ Hin]. congruence.
    + destruct H as [_ H]. assert (code descs P < s) by (apply H; eauto). lia.
Qed.

(** The exclusion step keeps [answered] for the remaining descriptors. *)
Lemma exclude_answered it excl Y :
  NoDup (it_descs it) -> it_state it < 2 ^ width it ->
  (exists d, In d (it_descs it) /\ str_in d excl = true) ->
  (forall d, In d (it_descs it) -> str_in d excl = true -> In d (sel (it_descs it) (it_state it))) ->
  answered (it_req it) (it_descs it) (it_state it + 1) Y ->
  let it' := exclude_descriptors it (exclude_indices (it_descs it) 0 excl) in
  it_descs it' = filter (fun d => negb (str_in d excl)) (it_descs it) /\
  0 < it_state it' <= 2 ^ width it' /\ it_req it' = it_req it /\ it_done it' = it_done it /\
  answered (it_req it') (it_descs it') (it_state it') Y.
Proof.
  intros Hnd Hlt Hex Hsel Hans it'.
  destruct (split_last_excluded excl _ Hex) as (a & dk & b & Hd & Hk & Hb).
  assert (Hbit : N.testbit (it_state it) (N.of_nat (List.length a)) = true).
  { assert (Hin : In dk (sel (it_descs it) (it_state it))) by (apply Hsel; [rewrite Hd; apply in_elt|assumption]).
    rewrite Hd, sel_app in Hin. rewrite Hd in Hnd.
    assert (Hna : ~ In dk a /\ ~ In dk b).
    { apply NoDup_remove_2 in Hnd. rewrite in_app_iff in Hnd. tauto. }
    apply in_app_or in Hin as [Hin|Hin]; [apply sel_incl in Hin; tauto|].
    cbn [sel] in Hin. rewrite <- N.shiftr_div_pow2 in Hin.
    destruct (N.odd (N.shiftr (it_state it) (N.of_nat (List.length a)))) eqn:Eo.
    - rewrite <- N.bit0_odd, N.shiftr_spec', N.add_0_l in Eo. exact Eo.
    - apply sel_incl in Hin. tauto. }
  destruct (exclude_state it excl a dk b Hd Hk Hb Hbit) as (Hd' & Hs' & Hr' & Hdn').
  fold it' in Hd', Hs', Hr', Hdn'. set (a' := filter (fun d => negb (str_in d excl)) a) in *.
  assert (Hf : filter (fun d => negb (str_in d excl)) (it_descs it) = (a' ++ b)%list).
  { rewrite Hd, filter_app. cbn [filter]. rewrite Hk. cbn [negb]. rewrite (filter_all _ b); [reflexivity|].
    intros x Hx. now rewrite Hb. }
  split; [congruence|]. split; [|split; [assumption|split; [assumption|]]].
  - rewrite Hs'. unfold width in *. rewrite Hd', app_length, Nat2N.inj_add, N.pow_add_r.
    assert (Hhi : it_state it / 2 ^ N.of_nat (S (List.length a)) < 2 ^ N.of_nat (List.length b)).
    { apply N.div_lt_upper_bound; [apply N.pow_nonzero; lia|]. rewrite <- N.pow_add_r.
      replace (N.of_nat (S (List.length a)) + N.of_nat (List.length b)) with (N.of_nat (List.length (it_descs it))); [assumption|].
      rewrite Hd, app_length. cbn [List.length]. lia. }
    set (hi := it_state it / 2 ^ N.of_nat (S (List.length a))) in *.
    assert (0 < 2 ^ N.of_nat (List.length a')) by (apply N.neq_0_lt_0, N.pow_nonzero; lia).
    split; [lia|]. rewrite (N.mul_comm (2 ^ N.of_nat (List.length a'))). apply N.mul_le_mono_r. lia.
  - rewrite Hr'. intros P Hne Hs. rewrite Hd' in *.
    set (Q := fun x => (P x && negb (str_in x excl))%bool).
    assert (HQ : filter Q (it_descs it) = filter P (a' ++ b)).
    { rewrite <- Hf. clear. induction (it_descs it) as [|x l IH]; [reflexivity|]. cbn [filter]. unfold Q at 1.
      destruct (str_in x excl); cbn [negb filter]; [rewrite andb_false_r; exact IH|].
      rewrite andb_true_r. rewrite IH. reflexivity. }
    rewrite Hs'.
    assert (HPQ : code (a' ++ b) P = code (a' ++ b) Q).
    { apply code_ext. intros x Hx. unfold Q. rewrite <- Hf in Hx. apply filter_In in Hx as [_ Hx]. now rewrite Hx, andb_true_r. }
    rewrite HPQ.
    rewrite <- (code_compare (it_state it) a dk b a' Q); [| |  |exact Hbit].
    + rewrite <- Hd. specialize (Hans Q). rewrite HQ in Hans. specialize (Hans Hne Hs).
      rewrite <- Hans. lia.
    + unfold Q. rewrite Hk. apply andb_false_r.
    + intros d Hda. destruct (str_in d excl) eqn:E.
      * right. unfold Q. rewrite E. apply andb_false_r.
      * left. unfold a'. apply filter_In. split; [assumption|]. now rewrite E.
Qed.

(** ** One call of Next *)
Record iter_inv (r : rlogic) (it : iter) (last : list string) (Y : list (list string)) : Prop := {
  inv_req : it_req it = r;
  inv_nodup : NoDup (it_descs it);
  inv_done : it_done it = true ->
    forall P, filter P (it_descs it) <> [] -> satb r (filter P (it_descs it)) = true ->
      exists y, In y Y /\ same_set y (filter P (it_descs it));
  inv_live : it_done it = false ->
    it_state it < 2 ^ width it /\ sel (it_descs it) (it_state it) = last /\
    answered r (it_descs it) (it_state it + 1) Y }.

Lemma iter_next_spec r it last Y excl :
  iter_inv r it last Y -> incl excl last ->
  exists it' ans, iter_next it excl = Some (it', ans) /\
    it_descs it' = (if it_done it then it_descs it else filter (fun d => negb (str_in d excl)) (it_descs it)) /\
    (it_done it' = true <-> ans = []) /\
    iter_inv r it' ans (match ans with [] => Y | _ => ans :: Y end) /\
    (ans <> [] -> it_done it = false /\ NoDup ans /\ incl ans (it_descs it') /\ satb r ans = true /\
       forall y, In y Y -> ~ same_set y ans).
Proof.
  intros Hinv Hincl. unfold iter_next. destruct (it_done it) eqn:Edone.
  { exists it, []. split; [reflexivity|]. split; [reflexivity|]. rewrite Edone. split; [tauto|].
    split; [|congruence]. destruct Hinv as [H1 H2 H3 H4]. constructor; auto. intros H; congruence. }
  destruct Hinv as [Hr Hnd _ Hlive]. destruct (Hlive Edone) as (Hlt & Hlast & Hans). clear Hlive.
  set (idx := exclude_indices (it_descs it) 0 excl).
  set (it1 := match idx with [] => set_state it (it_state it + 1) | _ => exclude_descriptors it idx end).
  assert (H1 : it_descs it1 = filter (fun d => negb (str_in d excl)) (it_descs it) /\
     0 < it_state it1 <= 2 ^ width it1 /\ it_req it1 = r /\ it_done it1 = false /\
     answered r (it_descs it1) (it_state it1) Y).
  { destruct (existsb (fun d => str_in d excl) (it_descs it)) eqn:Ex.
    - assert (Hne : idx <> []).
      { intros E. apply existsb_exists in Ex as (d & Hd & Hde).
        assert (Hl : List.length (filter (fun d => str_in d excl) (it_descs it)) = 0%nat).
        { rewrite <- (exclude_indices_length _ 0). fold idx. now rewrite E. }
        assert (In d (filter (fun d => str_in d excl) (it_descs it))) by (apply filter_In; auto).
        destruct (filter (fun d => str_in d excl) (it_descs it)); [assumption|discriminate]. }
      subst it1. destruct idx as [|i0 is] eqn:Ei; [congruence|]. rewrite <- Ei in *. 
      destruct (exclude_answered it excl Y) as (A & B & C & D & E).
      + assumption.
      + assumption.
      + apply existsb_exists in Ex as (d & Hd & Hde). eauto.
      + intros d Hd Hde. rewrite Hlast. apply Hincl. now apply str_in_In.
      + now rewrite Hr.
      + unfold idx in *. rewrite Ei in A, B, C, D, E. rewrite Hr in C. rewrite C in E. rewrite Edone in D. rewrite Ei. auto.
    - assert (Hno : forall d, In d (it_descs it) -> str_in d excl = false).
      { intros d Hd. destruct (str_in d excl) eqn:E; [|reflexivity]. exfalso.
        assert (existsb (fun d => str_in d excl) (it_descs it) = true) by (apply existsb_exists; eauto). congruence. }
      subst it1. unfold idx. rewrite exclude_indices_none by assumption.
      unfold set_state, width in *. cbn [it_descs it_state it_req it_done].
      split; [symmetry; apply filter_all; intros x Hx; now rewrite Hno|].
      split; [lia|]. auto. }
  destruct H1 as (Hd1 & Hs1 & Hr1 & Hdn1 & Hans1).
  assert (Hnd1 : NoDup (it_descs it1)) by (rewrite Hd1; now apply NoDup_filter).
  destruct (inc_spec (iter_fuel it1) it1 Hs1) as (it2 & out & E & Hr2 & Hd2 & Hdn2 & Hle & Hno & Hout).
  { unfold iter_fuel, width. lia. }
  rewrite E. rewrite Hr1 in *.
  assert (Hans2 : answered r (it_descs it1) (it_state it2) Y) by (eapply answered_skip; eassumption).
  eexists. exists out. split; [reflexivity|]. cbn [it_descs it_state it_req it_done].
  split; [congruence|].
  destruct Hout as [[-> Hend]|(Hsel & Hne & Hlt2 & Hsat)].
  - split; [tauto|]. split; [|congruence]. constructor; cbn [it_descs it_state it_req it_done].
    + assumption.
    + now rewrite Hd2.
    + intros _ P Hpe Hps. rewrite Hd2 in *. apply (Hans2 P Hpe Hps). rewrite Hend. apply code_bound.
    + discriminate.
  - destruct out as [|o os] eqn:Eo; [congruence|]. rewrite <- Eo in *. clear Eo o os.
    split; [split; [rewrite Hdn2; congruence|congruence]|]. split.
    + constructor; cbn [it_descs it_state it_req it_done].
      * assumption.
      * now rewrite Hd2.
      * congruence.
      * intros _. unfold width in *. cbn [it_descs it_state] in *. rewrite Hd2. split; [assumption|]. split; [congruence|].
        rewrite Hsel. apply answered_step; auto. congruence.
    + intros _. split; [reflexivity|]. split; [rewrite Hsel; now apply sel_nodup|].
      split; [rewrite Hsel, Hd2; intros x Hx; now apply sel_incl in Hx|]. split; [assumption|].
      intros y Hy Hyy.
      set (P := fun x => str_in x out).
      assert (HF : filter P (it_descs it1) = out).
      { rewrite <- sel_code. transitivity (sel (it_descs it1) (it_state it2)); [|congruence]. f_equal. unfold P. rewrite Hsel. now apply code_sel. }
      assert (Hc : code (it_descs it1) P < it_state it2).
      { apply Hans2; rewrite HF; [assumption|assumption|]. eauto. }
      unfold P in Hc. rewrite Hsel in Hc. rewrite code_sel in Hc by assumption. lia.
Qed.

(** ** The initial iterator *)
Lemma filter_set_has_nodup_length (req D : list string) :
  NoDup req -> NoDup D -> incl req D -> List.length (filter (set_has req) D) = List.length req.
Proof.
  intros Hr Hd Hi. apply Nat.le_antisymm; apply NoDup_incl_length; auto.
  - now apply NoDup_filter.
  - intros x Hx. apply filter_In in Hx as [_ Hx]. now apply str_in_In.
  - intros x Hx. apply filter_In. split; [auto|]. now apply str_in_In.
Qed.

Lemma new_iterator_spec r D :
  NoDup D -> incl (get_all_descriptors r) D ->
  exists it, new_iterator r D = Ok it /\ it_descs it = filter (set_has (get_all_descriptors r)) D /\
    it_done it = false /\ iter_inv r it [] [].
Proof.
  intros Hnd Hi. unfold new_iterator.
  rewrite filter_set_has_nodup_length by (try apply get_all_nodup; assumption).
  rewrite Nat.ltb_irrefl, Nat.sub_diag. cbn [repeat]. rewrite app_nil_r.
  eexists. split; [reflexivity|]. cbn [it_descs it_done]. split; [reflexivity|]. split; [reflexivity|].
  constructor; cbn [it_descs it_state it_req it_done]; auto.
  - now apply NoDup_filter.
  - discriminate.
  - intros _. unfold width. cbn [it_descs].
    split; [apply N.neq_0_lt_0, N.pow_nonzero; lia|]. split.
    + apply sel_nil_iff. apply N.mod_0_l, N.pow_nonzero. lia.
    + intros P Hne Hs. split; [|intros (y & [] & _)]. intros Hlt. exfalso.
      assert (E : code (filter (set_has (get_all_descriptors r)) D) P = 0) by lia.
      assert (filter P (filter (set_has (get_all_descriptors r)) D) = []); [|congruence].
      rewrite <- sel_code, E. apply sel_nil_iff. apply N.mod_0_l, N.pow_nonzero. lia.
Qed.

(** ** Histories of calls (latest first): exclusions and answer of each call. *)
Definition last_answer (h : list (list string * list string)) : list string :=
  match h with [] => [] | (_, a) :: _ => a end.

Inductive history (r : rlogic) (D : list string) : iter -> list (list string * list string) -> Prop :=
| h_start it : new_iterator r D = Ok it -> history r D it []
| h_call it h excl it' ans : history r D it h -> incl excl (last_answer h) ->
    iter_next it excl = Some (it', ans) -> history r D it' ((excl, ans) :: h).

Definition nonempty_answers (h : list (list string * list string)) : list (list string) :=
  filter (fun a => match a with [] => false | _ => true end) (map snd h).

Lemma history_inv r D it h : NoDup D -> incl (get_all_descriptors r) D -> history r D it h ->
  iter_inv r it (last_answer h) (nonempty_answers h) /\
  (it_done it = true <-> (h <> [] /\ last_answer h = [])) /\
  (forall x, In x (it_descs it) <-> In x (get_all_descriptors r) /\ forall e a, In (e, a) h -> ~ In x e).
Proof.
  intros Hnd Hi H. induction H as [it Hnew|it h excl it' ans H IH Hincl Hnext].
  - destruct (new_iterator_spec r D Hnd Hi) as (it0 & E & Hd & Hdn & Hinv). rewrite E in Hnew. injection Hnew as ->.
    split; [exact Hinv|]. split; [rewrite Hdn; split; [discriminate|intros [Hx _]; congruence]|].
    intros x. rewrite Hd, filter_In. unfold set_has. rewrite str_in_In. split.
    + intros [H1 H2]. split; [assumption|]. intros e a [].
    + intros [H1 _]. split; [now apply Hi|assumption].
  - destruct IH as (Hinv & Hdone & Hdescs).
    destruct (iter_next_spec r it (last_answer h) (nonempty_answers h) excl Hinv Hincl)
      as (it2 & ans2 & E & Hd & Hdn & Hinv2 & _).
    rewrite E in Hnext. injection Hnext as -> ->.
    split; [|split].
    + cbn [last_answer]. unfold nonempty_answers. cbn [map snd filter]. destruct ans; exact Hinv2.
    + cbn [last_answer]. rewrite Hdn. split; [intros ->; split; [discriminate|reflexivity]|tauto].
    + intros x. rewrite Hd. destruct (it_done it) eqn:Ed.
      * assert (excl = []).
        { destruct (proj1 Hdone eq_refl) as [_ El]. rewrite El in Hincl. destruct excl; [reflexivity|].
          exfalso. apply (Hincl s). now left. }
        subst excl. rewrite Hdescs. split; intros [H1 H2]; (split; [assumption|]).
        -- intros e a [[= <- <-]|Hin]; [tauto|eauto].
        -- intros e a Hin. apply (H2 e a). now right.
      * rewrite filter_In, Hdescs. split.
        -- intros [[H1 H2] H3]. split; [assumption|]. intros e a [[= <- <-]|Hin]; [|eauto].
           apply negb_true_iff in H3. now apply str_in_nIn.
        -- intros [H1 H2]. split; [split; [assumption|]|].
           ++ intros e a Hin. apply (H2 e a). now right.
           ++ apply negb_true_iff, str_in_nIn. apply (H2 excl ans). now left.
Qed.

Lemma history_total r D it h excl : NoDup D -> incl (get_all_descriptors r) D -> history r D it h ->
  incl excl (last_answer h) -> exists it' ans, iter_next it excl = Some (it', ans).
Proof.
  intros Hnd Hi H Hincl. destruct (history_inv r D it h Hnd Hi H) as (Hinv & _).
  destruct (iter_next_spec _ _ _ _ excl Hinv Hincl) as (it' & ans & E & _). eauto.
Qed.

Lemma in_nonempty_answers h y : In y (nonempty_answers h) <-> y <> [] /\ exists e, In (e, y) h.
Proof.
  unfold nonempty_answers. rewrite filter_In, in_map_iff. split.
  - intros [((e & a) & <- & Hin) Hne]. cbn in *. destruct a; [discriminate|]. split; [discriminate|eauto].
  - intros [Hne (e & Hin)]. split; [exists (e, y); auto|]. destruct y; congruence.
Qed.

Lemma history_sound r D it h excl ans : NoDup D -> incl (get_all_descriptors r) D ->
  history r D it ((excl, ans) :: h) -> ans <> [] ->
  NoDup ans /\ incl ans (get_all_descriptors r) /\ satb r ans = true /\
  (forall e a, In (e, a) ((excl, ans) :: h) -> forall x, In x e -> ~ In x ans) /\
  (forall e a, In (e, a) h -> ~ same_set a ans).
Proof.
  intros Hnd Hi H Hne. pose proof H as H0. inversion H as [|it0 ? ? ? ? Hh Hincl Hnext]; subst.
  destruct (history_inv r D it0 h Hnd Hi Hh) as (Hinv & _).
  destruct (iter_next_spec _ _ _ _ excl Hinv Hincl) as (it2 & ans2 & E & Hd & Hdn & Hinv2 & Hans).
  rewrite E in Hnext. injection Hnext as -> ->.
  destruct (Hans Hne) as (_ & H1 & H2 & H3 & H4).
  destruct (history_inv r D it _ Hnd Hi H0) as (_ & _ & Hdescs).
  split; [assumption|]. split; [intros x Hx; apply H2, Hdescs in Hx; tauto|]. split; [assumption|]. split.
  - intros e a Hin x Hxe Hxa. apply H2, Hdescs in Hxa as [_ Hxa]. now apply (Hxa e a Hin).
  - intros e a Hin Hss. destruct a as [|a0 al].
    + destruct ans as [|b bl]; [congruence|]. apply (proj2 (Hss b)). now left.
    + apply (H4 (a0 :: al)); [|assumption]. apply in_nonempty_answers. split; [discriminate|eauto].
Qed.

Lemma history_complete r D it h : NoDup D -> incl (get_all_descriptors r) D -> history r D it h ->
  h <> [] -> last_answer h = [] ->
  forall T, T <> [] -> incl T (get_all_descriptors r) -> satb r T = true ->
    (forall e a, In (e, a) h -> forall x, In x e -> ~ In x T) ->
    exists e a, In (e, a) h /\ same_set a T.
Proof.
  intros Hnd Hi H Hh Hl T Hne HT Hs Havoid.
  destruct (history_inv r D it h Hnd Hi H) as (Hinv & Hdone & Hdescs).
  assert (Hd : it_done it = true) by tauto.
  set (P := fun x => str_in x T).
  assert (HTd : incl T (it_descs it)).
  { intros x Hx. apply Hdescs. split; [auto|]. intros e a Hin Hxe. now apply (Havoid e a Hin x). }
  assert (HF : same_set (filter P (it_descs it)) T).
  { apply same_set_filter; [assumption|]. intros x; tauto. }
  destruct (inv_done _ _ _ _ Hinv Hd P) as (y & Hy & Hyy).
  - destruct T as [|t T']; [congruence|]. intros E. assert (In t (filter P (it_descs it))) by (apply HF; now left).
    rewrite E in *. contradiction.
  - rewrite (satb_same_set r _ T HF). exact Hs.
  - apply in_nonempty_answers in Hy as [_ (e & He)]. exists e, y. split; [assumption|].
    intros x. rewrite (Hyy x). apply HF.
Qed.
