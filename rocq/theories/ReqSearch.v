(** C11 (translation of submission requirements) and C10 (the search behind CreateVP). *)
From Coq Require Import ZifyN.
From Verif Require Import GoBase ReqSpec ReqModel ReqProofs ReqIter.

(** ** C11 *)
Lemma to_requirement_nested descs l :
  (fix go l := match l with
    | [] => Ok []
    | s :: ss => let* r := to_requirement descs s in let* rs := go ss in Ok (r :: rs)
    end) l = to_requirements descs l.
Proof. induction l as [|s ss IH]; [reflexivity|]. cbn [to_requirements]. now rewrite <- IH. Qed.

Lemma to_requirements_cons descs s ss rs : to_requirements descs (s :: ss) = Ok rs ->
  exists r rs', to_requirement descs s = Ok r /\ to_requirements descs ss = Ok rs' /\ rs = r :: rs'.
Proof.
  cbn. intros H. apply bind_ok in H as (r & H1 & H). apply bind_ok in H as (rs' & H2 & H).
  injection H as <-. eauto.
Qed.
Lemma to_requirements_length descs l : forall rs, to_requirements descs l = Ok rs -> List.length rs = List.length l.
Proof.
  induction l as [|s ss IH]; intros rs H; [injection H as <-; reflexivity|].
  apply to_requirements_cons in H as (r & rs' & _ & H2 & ->). cbn. f_equal. auto.
Qed.

Lemma filter_map_length {A B} (f : A -> B) (p : B -> bool) l :
  List.length (filter p (map f l)) = List.length (filter (fun x => p (f x)) l).
Proof. induction l as [|x l IH]; cbn; [reflexivity|]. destruct (p (f x)); cbn; auto. Qed.
Lemma filter_length_le {A} (p : A -> bool) l : (List.length (filter p l) <= List.length l)%nat.
Proof. induction l as [|x l IH]; cbn; [lia|]. destruct (p x); cbn; lia. Qed.
Lemma filter_length_all {A} (p : A -> bool) l :
  List.length (filter p l) = List.length l <-> forallb p l = true.
Proof.
  induction l as [|x l IH]; cbn; [tauto|]. pose proof (filter_length_le p l).
  destruct (p x); cbn; [rewrite <- IH; lia|]. split; [lia|discriminate].
Qed.
Lemma NoDup_map_filter {A B} (f : A -> B) p l : NoDup (map f l) -> NoDup (map f (filter p l)).
Proof.
  induction l as [|x l IH]; cbn; intros H; [constructor|]. inversion H as [|? ? Hni Hnd]; subst.
  destruct (p x); cbn; auto. constructor; auto. intros Hin. apply Hni.
  apply in_map_iff in Hin as (y & <- & Hy). apply in_map. now apply filter_In in Hy.
Qed.

(** A node's window with the implicit [Max = total] that toLogic adds. *)
Lemma window_default c mn mx n total : 0 <= n <= total ->
  is_len_applicable c mn (if ((c =? 0) && (mx =? 0))%bool then total else mx) n = windowb c mn mx n.
Proof.
  intros H. rewrite is_len_applicable_windowb. destruct ((c =? 0) && (mx =? 0))%bool eqn:E; [|reflexivity].
  apply andb_true_iff in E as [E1 E2]. apply Z.eqb_eq in E1, E2. subst. unfold windowb. cbn [Z.ltb Z.compare].
  destruct (0 <? mn); cbn; destruct (mn <=? n); cbn; auto;
  destruct (0 <? total) eqn:E; cbn; auto; lia.
Qed.
Lemma windowb_all total mn mx n : mn <= 0 -> mx <= 0 -> 0 <= n <= total ->
  windowb total mn mx n = (n =? total).
Proof.
  intros H1 H2 H3. unfold windowb. destruct (0 <? mn) eqn:E1; [lia|]. destruct (0 <? mx) eqn:E2; [lia|].
  cbn. rewrite !andb_true_r. destruct (0 <? total) eqn:E3; cbn; [reflexivity|].
  symmetry. apply Z.eqb_eq. lia.
Qed.

Lemma sat_leaf ids c mn mx T : NoDup ids ->
  is_satisfied_by (RL ids [] c mn mx) T = is_len_applicable c mn mx (count_if (fun x => str_in x T) ids).
Proof.
  intros H. cbn [is_satisfied_by]. unfold init_from_slice, count_if, set_has.
  rewrite (nodup_fixed_point string_dec); [reflexivity|]. now apply NoDup_filter.
Qed.
Lemma sat_node ids nested c mn mx T : nested <> [] ->
  is_satisfied_by (RL ids nested c mn mx) T = is_len_applicable c mn mx (count_if (fun r => is_satisfied_by r T) nested).
Proof. destruct nested; [congruence|reflexivity]. Qed.

Lemma count_if_bounds {A} (p : A -> bool) l : 0 <= count_if p l <= Z.of_nat (List.length l).
Proof. unfold count_if. pose proof (filter_length_le p l). lia. Qed.
Lemma count_if_all {A} (p : A -> bool) l : (count_if p l =? Z.of_nat (List.length l)) = forallb p l.
Proof.
  unfold count_if. destruct (forallb p l) eqn:E.
  - apply filter_length_all in E. rewrite E. apply Z.eqb_refl.
  - apply Z.eqb_neq. intros H. apply Nat2Z.inj in H. apply filter_length_all in H. congruence.
Qed.
Lemma count_if_map {A B} (f : A -> B) p l : count_if p (map f l) = count_if (fun x => p (f x)) l.
Proof. unfold count_if. now rewrite filter_map_length. Qed.

Section Translate.
  Variable descs : list idesc.
  Hypothesis Hnd : NoDup (map id_id descs).

  (** The window semantics of a translated node, all or pick. *)
  Lemma node_window (all : bool) count mn mx n total :
    0 <= n <= total -> (all = true -> mn <= 0 /\ mx <= 0) ->
    windowb (if all then total else count) mn mx n = if all then n =? total else windowb count mn mx n.
  Proof. intros H1 H2. destruct all; [apply windowb_all; tauto|reflexivity]. Qed.

  Lemma to_requirement_sem T : forall sr r, plain_all sr = true -> to_requirement descs sr = Ok r ->
    is_satisfied_by (to_logic r) T = sreq_met descs (fun x => str_in x T) sr.
  Proof.
    induction sr as [all c mn mx from nested IH] using sreq_ind'. intros r Hpl H.
    cbn [plain_all] in Hpl. apply andb_true_iff in Hpl as [Hb Hpl].
    assert (Hb' : all = true -> mn <= 0 /\ mx <= 0).
    { intros ->. cbn in Hb. apply andb_true_iff in Hb as [Hb1 Hb2]. lia. }
    cbn [to_requirement] in H. cbn [sreq_met].
    destruct (String.eqb from "") eqn:Ef; cbn [negb] in H.
    - rewrite to_requirement_nested in H. apply bind_ok in H as (ns & Hns & H). injection H as <-.
      pose proof (to_requirements_length _ _ _ Hns) as Hlen.
      assert (Hcnt : count_if (fun x => is_satisfied_by (to_logic x) T) ns =
                     count_if (sreq_met descs (fun x => str_in x T)) nested).
      { clear Hb Hb' Hlen Ef. revert ns Hns Hpl. induction IH as [|s ss Hs _ IH2]; intros ns Hns Hpl.
        - injection Hns as <-. reflexivity.
        - apply to_requirements_cons in Hns as (r0 & rs' & H1 & H2 & ->). cbn [forallb] in Hpl.
          apply andb_true_iff in Hpl as [Hp1 Hp2]. specialize (IH2 rs' H2 Hp2). specialize (Hs r0 Hp1 H1).
          unfold count_if in *. cbn [filter]. rewrite Hs. destruct (sreq_met _ _ s); cbn [List.length]; lia. }
      cbn [to_logic].
      destruct ns as [|n0 ns'].
      + assert (nested = []) by (destruct nested; [reflexivity|discriminate]). subst nested.
        cbn [map]. rewrite sat_leaf by constructor. cbn [List.length].
        rewrite window_default by (unfold count_if; cbn; lia).
        unfold count_if. cbn [filter List.length forallb]. rewrite node_window by (auto; lia).
        destruct all; reflexivity.
      + rewrite sat_node by discriminate. rewrite count_if_map, Hcnt.
        rewrite window_default; [|rewrite Hlen; apply count_if_bounds].
        rewrite node_window; [|rewrite Hlen; apply count_if_bounds|assumption].
        destruct all; [|reflexivity]. rewrite Hlen. apply count_if_all.
    - set (group := filter (fun d => str_in from (id_group d)) descs) in *.
      destruct (Z.of_nat (List.length group) =? 0) eqn:E0; [discriminate|]. injection H as <-.
      cbn [to_logic map]. rewrite sat_leaf by (apply NoDup_map_filter; assumption).
      rewrite count_if_map. rewrite window_default by apply count_if_bounds.
      rewrite node_window; [|apply count_if_bounds|assumption].
      destruct all; [apply count_if_all|reflexivity].
  Qed.

  Lemma make_requirement_sem reqs r T : forallb plain_all reqs = true -> make_requirement reqs descs = Ok r ->
    is_satisfied_by (to_logic r) T = definition_met descs reqs (fun x => str_in x T).
  Proof.
    intros Hpl H. unfold make_requirement in H. destruct reqs as [|s0 ss].
    - injection H as <-. cbn [to_logic map definition_met]. rewrite sat_leaf by assumption.
      rewrite count_if_map, window_default by apply count_if_bounds.
      rewrite windowb_all by (try lia; apply count_if_bounds). apply count_if_all.
    - apply bind_ok in H as (ns & Hns & H).
      pose proof (to_requirements_length _ _ _ Hns) as Hlen.
      set (reqs := s0 :: ss) in *.
      assert (Hr : r = RQ (Z.of_nat (List.length reqs)) 0 0 [] ns) by congruence. clear H. subst r.
      assert (Hne : ns <> []) by (destruct ns; [discriminate|congruence]).
      assert (Hcnt : count_if (fun x => is_satisfied_by (to_logic x) T) ns =
                     count_if (sreq_met descs (fun x => str_in x T)) reqs).
      { clearbody reqs. clear Hlen Hne. revert ns Hns. induction reqs as [|s rs IH]; intros ns Hns.
        - injection Hns as <-. reflexivity.
        - apply to_requirements_cons in Hns as (r0 & rs' & H1 & H2 & ->). cbn [forallb] in Hpl.
          apply andb_true_iff in Hpl as [Hp1 Hp2]. specialize (IH Hp2 rs' H2).
          pose proof (to_requirement_sem T s r0 Hp1 H1) as Hs.
          unfold count_if in *. cbn [filter]. rewrite Hs. destruct (sreq_met _ _ s); cbn [List.length]; lia. }
      assert (Hz : definition_met descs reqs (fun x => str_in x T) = forallb (sreq_met descs (fun x => str_in x T)) reqs) by reflexivity.
      rewrite Hz. clear Hz. clearbody reqs.
      cbn [to_logic]. rewrite sat_node by (destruct ns; [congruence|discriminate]).
      rewrite count_if_map, Hcnt.
      destruct ns as [|n0 ns']; [congruence|].
      rewrite Hlen.
      rewrite window_default by apply count_if_bounds.
      rewrite windowb_all by (try lia; apply count_if_bounds). apply count_if_all.
  Qed.

  (** Descriptors referenced by the translated requirement. *)
  Lemma to_requirement_uses : forall sr r x, to_requirement descs sr = Ok r ->
    (In x (get_all_descriptors (to_logic r)) <-> exists d, In d descs /\ id_id d = x /\ sreq_uses sr d = true).
  Proof.
    induction sr as [all c mn mx from nested IH] using sreq_ind'. intros r x H.
    cbn [to_requirement] in H. cbn [sreq_uses].
    destruct (String.eqb from "") eqn:Ef; cbn [negb] in H.
    - rewrite to_requirement_nested in H. apply bind_ok in H as (ns & Hns & H). injection H as <-.
      assert (G : (exists rr, In rr (map to_logic ns) /\ In x (get_all_descriptors rr)) <->
                  exists d, In d descs /\ id_id d = x /\ existsb (fun n => sreq_uses n d) nested = true).
      { clear Ef. revert ns Hns. induction IH as [|s ss Hs _ IH2]; intros ns Hns.
        - injection Hns as <-. cbn. split; [intros (? & [] & _)|intros (? & _ & _ & ?); discriminate].
        - apply to_requirements_cons in Hns as (r0 & rs' & H1 & H2 & ->).
          specialize (IH2 rs' H2). specialize (Hs r0 x H1). cbn [map existsb]. split.
          + intros (rr & [<-|Hin] & Hx).
            * apply Hs in Hx as (d & A & B & C). exists d. rewrite C. auto.
            * destruct IH2 as [IH2 _]. destruct IH2 as (d & A & B & C); [eauto|]. exists d. rewrite C, orb_true_r. auto.
          + intros (d & A & B & C). apply orb_true_iff in C as [C|C].
            * exists (to_logic r0). split; [now left|]. apply Hs. eauto.
            * destruct IH2 as [_ IH2]. destruct IH2 as (rr & Hin & Hx); [eauto|]. exists rr. split; [now right|assumption]. }
      cbn [to_logic]. destruct ns as [|n0 ns'].
      + cbn [map]. rewrite in_all_descriptors_leaf. rewrite <- G. cbn. split; [tauto|intros (? & [] & _)].
      + cbn [map]. rewrite in_all_descriptors_node. exact G.
    - set (group := filter (fun d => str_in from (id_group d)) descs) in *.
      destruct (Z.of_nat (List.length group) =? 0) eqn:E0; [discriminate|]. injection H as <-.
      cbn [to_logic map]. rewrite in_all_descriptors_leaf, in_map_iff. unfold group. split.
      + intros (d & Hd & Hin). apply filter_In in Hin as [H1 H2]. eauto.
      + intros (d & H1 & H2 & H3). exists d. split; [assumption|]. apply filter_In. auto.
  Qed.

  Lemma make_requirement_uses reqs r x : make_requirement reqs descs = Ok r ->
    (In x (get_all_descriptors (to_logic r)) <-> exists d, In d descs /\ id_id d = x /\ definition_uses reqs d = true).
  Proof.
    intros H. unfold make_requirement in H. destruct reqs as [|s0 ss].
    - injection H as <-. cbn [to_logic map definition_uses]. rewrite in_all_descriptors_leaf, in_map_iff.
      split; [intros (d & A & B); eauto|intros (d & A & B & _); eauto].
    - apply bind_ok in H as (ns & Hns & H). injection H as <-.
      pose proof (to_requirements_length _ _ _ Hns) as Hlen.
      cbn [to_logic definition_uses]. destruct ns as [|n0 ns']; [discriminate|].
      cbn [map]. rewrite in_all_descriptors_node. change (to_logic n0 :: map to_logic ns') with (map to_logic (n0 :: ns')).
      set (reqs := s0 :: ss) in *. clearbody reqs. set (ns := n0 :: ns') in *. clearbody ns. clear n0 ns'. clear Hlen s0 ss.
      revert ns Hns. induction reqs as [|s rs IH]; intros ns Hns.
      + injection Hns as <-. cbn. split; [intros (? & [] & _)|intros (? & _ & _ & ?); discriminate].
      + apply to_requirements_cons in Hns as (r0 & rs' & H1 & H2 & ->).
        specialize (IH rs' H2). pose proof (to_requirement_uses s r0 x H1) as Hs. cbn [map existsb]. split.
        * intros (rr & [<-|Hin] & Hx).
          -- apply Hs in Hx as (d & A & B & C). exists d. rewrite C. auto.
          -- destruct IH as [IH _]. destruct IH as (d & A & B & C); [eauto|]. exists d. rewrite C, orb_true_r. auto.
        * intros (d & A & B & C). apply orb_true_iff in C as [C|C].
          -- exists (to_logic r0). split; [now left|]. apply Hs. eauto.
          -- destruct IH as [_ IH]. destruct IH as (rr & Hin & Hx); [eauto|]. exists rr. split; [now right|assumption].
  Qed.
End Translate.

(** ** Descriptor lookup *)
Section QInd.
  Variable P : requirement -> Prop.
  Hypothesis H : forall c mn mx ds nested, Forall P nested -> P (RQ c mn mx ds nested).
  Fixpoint requirement_ind' (r : requirement) : P r :=
    match r with RQ c mn mx ds nested =>
      H c mn mx ds nested ((fix go l : Forall P l := match l with
        [] => Forall_nil _ | x :: xs => Forall_cons x (requirement_ind' x) (go xs) end) nested) end.
End QInd.

(** A requirement tree whose nodes carry either descriptors or children, descriptors taken from [descs]. *)
Fixpoint tree_ok (descs : list idesc) (r : requirement) : Prop :=
  match r with RQ _ _ _ ds nested =>
    incl ds descs /\ (ds = [] \/ nested = []) /\
    (fix go l := match l with [] => True | n :: ns => tree_ok descs n /\ go ns end) nested end.

Lemma req_descriptor_go id (l : list requirement) d :
  (fix go l := match l with [] => None | c :: cs =>
     match req_descriptor c id with Some d => Some d | None => go cs end end) l = Some d ->
  exists c, In c l /\ req_descriptor c id = Some d.
Proof.
  induction l as [|c cs IH]; [discriminate|]. destruct (req_descriptor c id) eqn:E.
  - intros [= <-]. exists c. split; [now left|assumption].
  - intros H. destruct (IH H) as (c' & Hin & Hc'). exists c'. split; [now right|assumption].
Qed.
Lemma req_descriptor_go_none id (l : list requirement) :
  (fix go l := match l with [] => None | c :: cs =>
     match req_descriptor c id with Some d => Some d | None => go cs end end) l = None ->
  forall c, In c l -> req_descriptor c id = None.
Proof.
  induction l as [|c cs IH]; [intros _ c []|]. destruct (req_descriptor c id) eqn:E; [discriminate|].
  intros H c' [<-|Hin]; auto.
Qed.
Lemma tree_ok_go descs l :
  (fix go l := match l with [] => True | n :: ns => tree_ok descs n /\ go ns end) l -> forall c, In c l -> tree_ok descs c.
Proof. induction l as [|c cs IH]; [intros _ c []|]. intros [H1 H2] c' [<-|Hin]; auto. Qed.

Lemma req_descriptor_spec descs r : tree_ok descs r ->
  (forall id d, req_descriptor r id = Some d -> In d descs /\ id_id d = id) /\
  (forall id, In id (get_all_descriptors (to_logic r)) -> exists d, req_descriptor r id = Some d).
Proof.
  induction r as [c mn mx ds nested IH] using requirement_ind'. cbn [tree_ok]. intros (Hi & Hx & Hn).
  rewrite Forall_forall in IH. pose proof (tree_ok_go _ _ Hn) as Hn'. split.
  - intros id d. cbn [req_descriptor]. destruct ds as [|d0 ds'].
    + intros H. apply req_descriptor_go in H as (c' & Hin & Hc'). now apply (IH c' Hin (Hn' c' Hin)).
    + intros H. apply find_some in H as [H1 H2]. apply String.eqb_eq in H2. split; [|assumption].
      apply Hi. now apply in_rev.
  - intros id Hid. cbn [req_descriptor]. destruct ds as [|d0 ds'].
    + cbn [to_logic map] in Hid. destruct nested as [|n0 ns]; [now apply in_all_descriptors_leaf in Hid|].
      apply in_all_descriptors_node in Hid as (rr & Hrr & Hid).
      apply (in_map_iff to_logic (n0 :: ns)) in Hrr as (n & <- & Hin).
      match goal with |- exists d, ?e = Some d => destruct e as [d|] eqn:E; [eauto|] end. exfalso.
      pose proof (req_descriptor_go_none id (n0 :: ns) E n Hin) as Hnone.
      destruct (proj2 (IH n Hin (Hn' n Hin)) id Hid) as (d & Hd). congruence.
    + destruct Hx as [Hx|Hx]; [discriminate|]. subst nested. cbn [to_logic map] in Hid.
      apply (in_all_descriptors_leaf id (map id_id (d0 :: ds'))) in Hid.
      apply in_map_iff in Hid as (d & Hd & Hin).
      destruct (find (fun d1 => String.eqb (id_id d1) id) (rev (d0 :: ds'))) as [d1|] eqn:E; [eauto|].
      exfalso. apply in_rev in Hin. apply (find_none _ _ E d) in Hin.
      apply String.eqb_neq in Hin. congruence.
Qed.

(** a descriptor that is looked up is one the requirements speak about *)
Lemma req_descriptor_used descs r : tree_ok descs r -> forall id d, req_descriptor r id = Some d -> In id (get_all_descriptors (to_logic r)).
Proof.
  induction r as [c mn mx ds nested IH] using requirement_ind'. cbn [tree_ok]. intros (Hi & Hx & Hn) id d.
  rewrite Forall_forall in IH. pose proof (tree_ok_go _ _ Hn) as Hn'. cbn [req_descriptor]. destruct ds as [|d0 ds'].
  - intros H. apply req_descriptor_go in H as (c' & Hin & Hc'). destruct nested as [|n0 ns]; [destruct Hin|].
    cbn [to_logic map]. apply in_all_descriptors_node. exists (to_logic c'). split; [now apply (in_map to_logic (n0 :: ns))|].
    eapply IH; [exact Hin|now apply Hn'|exact Hc'].
  - intros H. apply find_some in H as [H1 H2]. apply String.eqb_eq in H2. destruct Hx as [Hx|Hx]; [discriminate|]. subst nested.
    cbn [to_logic map]. apply (in_all_descriptors_leaf id (map id_id (d0 :: ds'))). rewrite <- H2. apply in_map. now apply in_rev.
Qed.

Lemma to_requirement_tree_ok descs : forall sr r, to_requirement descs sr = Ok r -> tree_ok descs r.
Proof.
  induction sr as [all c mn mx from nested IH] using sreq_ind'. intros r H. cbn [to_requirement] in H.
  destruct (String.eqb from ""); cbn [negb] in H.
  - rewrite to_requirement_nested in H. apply bind_ok in H as (ns & Hns & H). injection H as <-.
    cbn [tree_ok]. split; [intros x []|]. split; [now left|].
    revert ns Hns. induction IH as [|s ss Hs _ IH2]; intros ns Hns; [injection Hns as <-; exact I|].
    apply to_requirements_cons in Hns as (r0 & rs' & H1 & H2 & ->). split; [now apply Hs|now apply IH2].
  - destruct (_ =? 0); [discriminate|]. injection H as <-. cbn [tree_ok].
    split; [intros x Hx; now apply filter_In in Hx|]. split; [now right|exact I].
Qed.
Lemma make_requirement_tree_ok descs reqs r : make_requirement reqs descs = Ok r -> tree_ok descs r.
Proof.
  unfold make_requirement. destruct reqs as [|s0 ss].
  - intros [= <-]. cbn. split; [apply incl_refl|]. split; [now right|exact I].
  - intros H. apply bind_ok in H as (ns & Hns & H). injection H as <-.
    cbn [tree_ok]. split; [intros x []|]. split; [now left|].
    revert ns Hns. generalize (s0 :: ss) as l. induction l as [|s l IH]; intros ns Hns; [injection Hns as <-; exact I|].
    apply to_requirements_cons in Hns as (r0 & rs' & H1 & H2 & ->).
    split; [eapply to_requirement_tree_ok; eassumption|now apply IH].
Qed.

(** ** C10: the search *)
Section Search.
  Variable cred : Type.
  Variable eval : idesc -> res (string * list cred).
  Variable lk : string -> option idesc.      (* req.getAllDescriptors() lookup *)
  Variable r : rlogic.
  Variable D : list string.
  Hypothesis HD : NoDup D.
  Hypothesis Hreq : incl (get_all_descriptors r) D.
  Hypothesis Hlk : forall id, In id (get_all_descriptors r) -> exists d, lk id = Some d /\ id_id d = id.

  Definition matched (id : string) : Prop := exists d f cs, lk id = Some d /\ eval d = Ok (f, cs) /\ cs <> [].
  Definition unmatched (id : string) : Prop := exists d f, lk id = Some d /\ eval d = Ok (f, []).

  (** Every evaluated descriptor has its match recorded or has been found unmatched. *)
  Definition st_ok (st : search cred) : Prop :=
    (forall id, In id (se_evaluated _ st) -> mhas (se_matches _ st) id = true \/ unmatched id) /\
    (forall id fc, mget (se_matches _ st) id = Some fc ->
        exists d, lk id = Some d /\ eval d = Ok fc /\ snd fc <> []).

  Lemma walk_spec : forall sol st, st_ok st -> incl sol (get_all_descriptors r) ->
    (forall id, In id sol -> In id (se_evaluated _ st) -> mhas (se_matches _ st) id = true) -> NoDup sol ->
    match walk cred eval lk st sol with
    | Panic => exists id d, In id sol /\ lk id = Some d /\ eval d = Panic
    | Err e => exists id d, In id sol /\ lk id = Some d /\ eval d = Err e
    | Ok (st', Solved) => st_ok st' /\ (forall id, In id sol -> mhas (se_matches _ st') id = true) /\
        (forall id, mhas (se_matches _ st) id = true -> mhas (se_matches _ st') id = true)
    | Ok (st', Excluding l) => exists id, l = [id] /\ In id sol /\ unmatched id /\ st_ok st' /\
        (forall x, In x (se_evaluated _ st') -> mhas (se_matches _ st') x = false -> x = id \/
            (In x (se_evaluated _ st) /\ mhas (se_matches _ st) x = false))
    end.
  Proof.
    induction sol as [|d sol IH]; intros st Hst Hsub Hev Hnd; cbn [walk].
    - split; [assumption|]. split; [intros id []|auto].
    - inversion Hnd as [|? ? Hni Hnd']; subst.
      destruct (set_has (se_evaluated cred st) d) eqn:Ee.
      + unfold set_has in Ee. apply str_in_In in Ee.
        rewrite (Hev d (or_introl eq_refl) Ee).
        assert (IH' := IH st Hst ltac:(intros x Hx; apply Hsub; now right) ltac:(intros x Hx; apply Hev; now right) Hnd').
        destruct (walk cred eval lk st sol) as [[st' [|l]]|e|].
        * destruct IH' as (A & B & C). split; [assumption|]. split; [|assumption].
          intros id [<-|Hin]; [|auto]. apply C. apply Hev; [now left|assumption].
        * destruct IH' as (id & A & B & C & E & F). exists id. split; [assumption|].
          split; [now right|]. auto.
        * destruct IH' as (id & dd & A & B). exists id, dd. split; [now right|assumption].
        * destruct IH' as (id & dd & A & B). exists id, dd. split; [now right|assumption].
      + unfold set_has in Ee. apply str_in_nIn in Ee.
        destruct (Hlk d (Hsub d (or_introl eq_refl))) as (desc & Hdesc & Hid). rewrite Hdesc.
        destruct (eval desc) as [[f cs]|e|] eqn:Ev; cbn [bind snd].
        2:{ exists d, desc. split; [now left|]. auto. }
        2:{ exists d, desc. split; [now left|]. auto. }
        destruct cs as [|c cs].
        * exists d. split; [reflexivity|]. split; [now left|].
          assert (Hu : unmatched d) by (exists desc, f; auto).
          split; [assumption|]. split.
          -- destruct Hst as [H1 H2]. split; cbn [se_evaluated se_matches]; [|assumption].
             intros id [<-|Hin]; [now right|auto].
          -- cbn [se_evaluated se_matches]. intros x [<-|Hin]; auto.
        * assert (Hst2 : st_ok {| se_evaluated := d :: se_evaluated cred st;
                                  se_matches := mset (se_matches cred st) (id_id desc) (f, c :: cs) |}).
          { destruct Hst as [H1 H2]. split; cbn [se_evaluated se_matches].
            - intros id [<-|Hin].
              + left. unfold mhas. rewrite mget_mset, Hid, String.eqb_refl. reflexivity.
              + destruct (H1 id Hin) as [Hm|Hu]; [left|now right]. unfold mhas in *. rewrite mget_mset.
                destruct (String.eqb id (id_id desc)); [reflexivity|assumption].
            - intros id fc. rewrite mget_mset. destruct (String.eqb_spec id (id_id desc)) as [->|Hne].
              + intros [= <-]. exists desc. rewrite Hid. repeat split; auto. discriminate.
              + apply H2. }
          assert (Hmono : forall x, mhas (se_matches cred st) x = true ->
             mhas (mset (se_matches cred st) (id_id desc) (f, c :: cs)) x = true).
          { intros x Hx. unfold mhas in *. rewrite mget_mset. destruct (String.eqb x (id_id desc)); [reflexivity|assumption]. }
          assert (Hmd : mhas (mset (se_matches cred st) (id_id desc) (f, c :: cs)) d = true).
          { unfold mhas. rewrite mget_mset, Hid, String.eqb_refl. reflexivity. }
          assert (IH' := IH _ Hst2 ltac:(intros x Hx; apply Hsub; now right)).
          cbn [se_evaluated se_matches] in IH'.
          assert (Hev2 : forall id, In id sol -> In id (d :: se_evaluated cred st) ->
              mhas (mset (se_matches cred st) (id_id desc) (f, c :: cs)) id = true).
          { intros id Hin [<-|Hin2]; [contradiction|]. apply Hmono. apply Hev; [now right|assumption]. }
          specialize (IH' Hev2 Hnd').
          match goal with |- match ?w with _ => _ end => destruct w as [[st' [|l]]|e|] end.
          -- destruct IH' as (A & B & C). split; [assumption|]. split; [|auto].
             intros id [<-|Hin]; [|auto]. apply C, Hmd.
          -- destruct IH' as (id & A & B & C & E & F). exists id. split; [assumption|]. split; [now right|].
             split; [assumption|]. split; [assumption|]. intros x Hx1 Hx2. destruct (F x Hx1 Hx2) as [->|[[<-|Hin] Hm]]; [now left| |].
             ++ congruence.
             ++ right. split; [assumption|]. destruct (mhas (se_matches cred st) x) eqn:Em; [|reflexivity].
                rewrite (Hmono x Em) in Hm. discriminate.
          -- destruct IH' as (id & dd & A & B). exists id, dd. split; [now right|assumption].
          -- destruct IH' as (id & dd & A & B). exists id, dd. split; [now right|assumption].
  Qed.

  Lemma collect_spec (m : gomap (string * list cred)) : forall sol fmt acc,
    (forall id, In id sol -> mhas m id = true) ->
    exists f out, collect cred m sol fmt acc = Ok (f, out) /\
      (forall id cs, mget out id = Some cs <->
        ((In id sol /\ exists f', mget m id = Some (f', cs)) \/ (~ In id sol /\ mget acc id = Some cs))) /\
      ((f = fmt /\ forall id f' cs, In id sol -> mget m id = Some (f', cs) -> f' = "")
       \/ (f <> "" /\ exists id cs, In id sol /\ mget m id = Some (f, cs))).
  Proof.
    induction sol as [|d sol IH]; intros fmt acc Hm; cbn [collect].
    - exists fmt, acc. split; [reflexivity|]. split; [|left; split; [reflexivity|intros ? ? ? []]]. intros id cs. cbn. split; [intros H; right; tauto|].
      intros [[[] _]|[_ H]]; assumption.
    - pose proof (Hm d (or_introl eq_refl)) as Hd. unfold mhas in Hd.
      destruct (mget m d) as [[f cs]|] eqn:E; [|discriminate].
      destruct (IH (if String.eqb f "" then fmt else f) (mset acc d cs)) as (f2 & out & E2 & Hout & Hf).
      { intros id Hin. apply Hm. now right. }
      exists f2, out. split; [exact E2|]. split.
      + intros id cs'. rewrite Hout. rewrite mget_mset. cbn [In].
        destruct (in_dec string_dec id sol) as [Hin|Hin].
        * split; [intros [[_ H]|[H _]]; [left; auto|tauto]|]. intros [[_ H]|[H _]]; [left; auto|tauto].
        * destruct (String.eqb_spec id d) as [->|Hne].
          -- split.
             ++ intros [[H _]|[_ [= <-]]]; [tauto|]. left. split; [now left|]. eauto.
             ++ intros [[_ (f' & H)]|[H _]]; [|tauto]. right. split; [assumption|]. congruence.
          -- split.
             ++ intros [[H _]|[_ H]]; [tauto|]. right. split; [intros [H1|H1]; congruence|assumption].
             ++ intros [[[H|H] _]|[_ H]]; [congruence|tauto|]. right. auto.
      + destruct Hf as [[-> Hall]|(Hne & id & cs' & Hin & Hg)].
        * destruct (String.eqb_spec f "") as [->|Hf]; [left|right].
          -- split; [reflexivity|]. intros id f' cs' [<-|Hin] Hg; [congruence|eauto].
          -- split; [assumption|]. exists d, cs. split; [now left|assumption].
        * right. split; [assumption|]. exists id, cs'. split; [now right|assumption].
  Qed.

  Definition remaining (it : iter) (excl : list string) : nat :=
    List.length (filter (fun d => negb (str_in d excl)) (it_descs it)).

  Definition search_ok (fmt : string) (out : res (string * gomap (list cred))) : Prop :=
    match out with
    | Ok (f, m) => exists T, T <> [] /\ NoDup T /\ incl T (get_all_descriptors r) /\ is_satisfied_by r T = true /\
        (forall id, In id T -> matched id) /\
        (forall id cs, mget m id = Some cs <-> In id T /\ exists d f', lk id = Some d /\ eval d = Ok (f', cs)) /\
        ((f = fmt /\ forall id d f' cs, In id T -> lk id = Some d -> eval d = Ok (f', cs) -> f' = "")
         \/ (f <> "" /\ exists id d cs, In id T /\ lk id = Some d /\ eval d = Ok (f, cs)))
    | Err e => (e = "credentials do not satisfy requirements" /\
        forall T, T <> [] -> incl T (get_all_descriptors r) -> (forall id, In id T -> matched id) ->
          is_satisfied_by r T = false) \/ (exists id d, lk id = Some d /\ eval d = Err e)
    | Panic => exists id d, lk id = Some d /\ eval d = Panic
    end.

  Lemma matched_unmatched id : matched id -> unmatched id -> False.
  Proof. intros (d & f & cs & H1 & H2 & H3) (d' & f' & H4 & H5). rewrite H1 in H4. injection H4 as <-. congruence. Qed.

  Lemma search_loop_spec : forall fuel it st h excl fmt,
    history r D it h -> incl excl (last_answer h) -> st_ok st ->
    (* whatever was evaluated without success is excluded *)
    (forall x, In x (se_evaluated _ st) -> mhas (se_matches _ st) x = false ->
        In x excl \/ exists e a, In (e, a) h /\ In x e) ->
    (forall x, In x excl -> unmatched x) ->
    (forall e a x, In (e, a) h -> In x e -> unmatched x) ->
    (forall e a, In (e, a) h -> a <> [] /\ exists x, In x a /\ unmatched x) ->
    (remaining it excl < fuel)%nat -> it_done it = false ->
    exists out, search_loop cred eval fuel lk it st excl fmt = Some out /\ search_ok fmt out.
  Proof.
    induction fuel as [|fuel IH]; intros it st h excl fmt Hh Hincl Hst Hev Hex Hexh Hans Hfuel Hdone; [lia|].
    cbn [search_loop].
    destruct (history_total r D it h excl HD Hreq Hh Hincl) as (it' & sol & Hnext). rewrite Hnext.
    assert (Hh' : history r D it' ((excl, sol) :: h)) by (econstructor; eassumption).
    destruct sol as [|s0 sol'] eqn:Esol.
    - eexists. split; [reflexivity|]. left. split; [reflexivity|]. intros T Hne HT Hm.
      destruct (is_satisfied_by r T) eqn:Es; [|reflexivity]. exfalso.
      destruct (history_complete r D it' _ HD Hreq Hh') with (T := T) as (e & a & Hin & Hss); auto; try discriminate.
      { intros e a [[= <- <-]|Hin] x Hxe HxT.
        - eapply matched_unmatched; [apply Hm; exact HxT|apply Hex; exact Hxe].
        - eapply matched_unmatched; [apply Hm; exact HxT|eapply Hexh; eassumption]. }
      destruct Hin as [[= <- <-]|Hin].
      + destruct T as [|t T']; [congruence|]. apply (proj2 (Hss t)). now left.
      + destruct (Hans e a Hin) as (_ & x & Hxa & Hxu). eapply matched_unmatched; [apply Hm, Hss; exact Hxa|exact Hxu].
    - rewrite <- Esol in *. assert (Hne : sol <> []) by (rewrite Esol; discriminate). clear Esol s0 sol'.
      destruct (history_sound r D it' h excl sol HD Hreq Hh' Hne) as (S1 & S2 & S3 & S4 & S5).
      assert (Hsolev : forall id, In id sol -> In id (se_evaluated _ st) -> mhas (se_matches _ st) id = true).
      { intros id Hin Hev1. destruct (mhas (se_matches _ st) id) eqn:Em; [reflexivity|]. exfalso.
        destruct (Hev id Hev1 Em) as [Hx|(e & a & H1 & H2)].
        - apply (S4 excl sol (or_introl eq_refl) id Hx Hin).
        - apply (S4 e a (or_intror H1) id H2 Hin). }
      pose proof (walk_spec sol st Hst S2 Hsolev S1) as Hw.
      destruct sol as [|s0 sol'] eqn:Esol; [congruence|]. rewrite <- Esol in *. clear Esol s0 sol'.
      destruct (walk cred eval lk st sol) as [[st' [|l]]|e|].
      + destruct Hw as (W1 & W2 & W3).
        destruct (collect_spec (se_matches _ st') sol fmt [] W2) as (f & m & Ec & Hm & Hfm).
        exists (Ok (f, m)). split; [now rewrite Ec|]. exists sol. split; [assumption|]. split; [assumption|].
        split; [assumption|]. split; [assumption|].
        assert (Hmt : forall id fc, mget (se_matches _ st') id = Some fc -> exists d, lk id = Some d /\ eval d = Ok fc /\ snd fc <> [])
          by apply W1.
        split.
        * intros id Hin. specialize (W2 id Hin). unfold mhas in W2. destruct (mget (se_matches _ st') id) as [[f1 cs]|] eqn:E; [|discriminate].
          destruct (Hmt id _ E) as (d & A & B & C). exists d, f1, cs. auto.
        * split; [|destruct Hfm as [[-> Hall]|(Hnf & id & cs & Hin & Hg)]; [left|right]].
          2:{ split; [reflexivity|]. intros id d f' cs Hin A B. specialize (W2 id Hin). unfold mhas in W2.
              destruct (mget (se_matches _ st') id) as [[f1 cs1]|] eqn:E; [|discriminate].
              destruct (Hmt id _ E) as (d' & A' & B' & _). apply (Hall id f' cs Hin). congruence. }
          2:{ split; [assumption|]. destruct (Hmt id _ Hg) as (d & A & B & _). eauto 6. }
          intros id cs. rewrite Hm. split.
          -- intros [[Hin (f' & Hg)]|[_ Hx]]; [|discriminate]. split; [assumption|].
             destruct (Hmt id _ Hg) as (d & A & B & _). eauto.
          -- intros [Hin (d & f' & A & B)]. left. split; [assumption|].
             specialize (W2 id Hin). unfold mhas in W2. destruct (mget (se_matches _ st') id) as [[f1 cs1]|] eqn:E; [|discriminate].
             destruct (Hmt id _ E) as (d' & A' & B' & _). exists f1. congruence.
      + destruct Hw as (id & -> & W1 & W2 & W3 & W4).
        destruct (history_inv r D it' _ HD Hreq Hh') as (_ & Hd' & Hdescs').
        destruct (history_inv r D it h HD Hreq Hh) as (Hinv & Hd & Hdescs).
        assert (Hdone' : it_done it' = false).
        { destruct (it_done it') eqn:E; [|reflexivity]. destruct (proj1 Hd' eq_refl) as [_ Hl]. cbn in Hl. congruence. }
        destruct (iter_next_spec _ _ _ _ excl Hinv Hincl) as (it2 & ans2 & E2 & Hdd & _ & _ & Hans2).
        rewrite E2 in Hnext. injection Hnext as -> ->. rewrite Hdone in Hdd.
        apply (IH it' st' ((excl, sol) :: h)); auto.
        * intros x [<-|[]]. exact W1.
        * intros x Hx1 Hx2. destruct (W4 x Hx1 Hx2) as [->|[H1 H2]]; [left; now left|].
          right. destruct (Hev x H1 H2) as [Hx|(e & a & A & B)].
          -- exists excl, sol. split; [now left|assumption].
          -- exists e, a. split; [now right|assumption].
        * intros x [<-|[]]. exact W2.
        * intros e a x [[= <- <-]|Hin] Hx; eauto.
        * intros e a [[= <- <-]|Hin]; [|now apply (Hans e a)]. split; [assumption|]. eauto.
        * unfold remaining in Hfuel |- *. rewrite Hdd.
          assert (Hin : In id (filter (fun d => negb (str_in d excl)) (it_descs it))).
          { destruct (Hans2 Hne) as (_ & _ & Hsub & _). rewrite <- Hdd. now apply Hsub. }
          assert (L : (List.length (filter (fun d => negb (str_in d [id])) (filter (fun d => negb (str_in d excl)) (it_descs it)))
                       < List.length (filter (fun d => negb (str_in d excl)) (it_descs it)))%nat).
          { clear -Hin. induction (filter (fun d => negb (str_in d excl)) (it_descs it)) as [|x l IH]; [destruct Hin|].
            cbn [filter]. destruct Hin as [->|Hin].
            - cbn [str_in]. rewrite String.eqb_refl. cbn. pose proof (filter_length_le (fun d => negb (String.eqb d id || false)) l).
              cbn [str_in] in *. lia.
            - specialize (IH Hin). cbn [str_in] in *. destruct (negb _); cbn [List.length]; lia. }
          lia.
      + destruct Hw as (id & d & _ & A & B). eexists. split; [reflexivity|]. right. eauto.
      + destruct Hw as (id & d & _ & A & B). eexists. split; [reflexivity|]. cbn. eauto.
  Qed.
End Search.

(** Putting it together for a presentation definition. *)
Lemma apply_requirement_spec cred eval descs reqs r fmt :
  NoDup (map id_id descs) -> make_requirement reqs descs = Ok r ->
  exists out, apply_requirement cred eval descs r fmt = Some out /\
    search_ok cred eval (req_descriptor r) (to_logic r) fmt out.
Proof.
  intros Hnd Hmk.
  assert (Hinc : incl (get_all_descriptors (to_logic r)) (map id_id descs)).
  { intros x Hx. apply (make_requirement_uses descs reqs r x Hmk) in Hx as (d & A & <- & _). now apply in_map. }
  pose proof (make_requirement_tree_ok _ _ _ Hmk) as Htree.
  destruct (req_descriptor_spec descs r Htree) as [Hl1 Hl2].
  destruct (new_iterator_spec (to_logic r) (map id_id descs) Hnd Hinc) as (it & E & Hd & Hdn & Hinv).
  unfold apply_requirement. rewrite E.
  apply (search_loop_spec cred eval (req_descriptor r) (to_logic r) (map id_id descs)) with (h := []); auto.
  - intros id Hid. destruct (Hl2 id Hid) as (d & Hd1). exists d. split; [assumption|]. now apply Hl1 in Hd1.
  - constructor. exact E.
  - intros x [].
  - split; [intros id []|intros id fc; discriminate].
  - intros x [].
  - contradiction.
  - contradiction.
  - unfold remaining. pose proof (filter_length_le (fun d => negb (str_in d [])) (it_descs it)). lia.
Qed.

(** Translation fails exactly when a referenced group has no member. *)
Lemma to_requirement_defined descs : forall sr,
  is_ok (to_requirement descs sr) = groups_exist descs sr /\ to_requirement descs sr <> Panic.
Proof.
  induction sr as [all c mn mx from nested IH] using sreq_ind'. cbn [to_requirement groups_exist].
  destruct (String.eqb from "") eqn:Ef; cbn [negb].
  - rewrite to_requirement_nested.
    assert (G : is_ok (to_requirements descs nested) = forallb (groups_exist descs) nested /\
                to_requirements descs nested <> Panic).
    { induction IH as [|s ss [Hs1 Hs2] _ [IH1 IH2]]; [split; [reflexivity|discriminate]|].
      cbn [to_requirements forallb]. rewrite <- Hs1, <- IH1.
      destruct (to_requirement descs s); cbn; [|split; [reflexivity|discriminate]|contradiction].
      destruct (to_requirements descs ss); cbn; split; congruence. }
    destruct G as [G1 G2]. rewrite <- G1. destruct (to_requirements descs nested); cbn; split; congruence.
  - destruct (filter (fun d => str_in from (id_group d)) descs) as [|d l] eqn:E.
    + cbn. split; [|discriminate]. symmetry. apply not_true_is_false. intros H.
      apply existsb_exists in H as (d & Hd & Hf).
      assert (Hin : In d []) by (rewrite <- E; apply filter_In; auto). destruct Hin.
    + split; [|cbn; discriminate]. cbn. symmetry. apply existsb_exists. exists d. apply (filter_In (fun d => str_in from (id_group d)) d descs). rewrite E. now left.
Qed.
Lemma make_requirement_defined : forall descs reqs,
  is_ok (make_requirement reqs descs) = forallb (groups_exist descs) reqs /\ make_requirement reqs descs <> Panic.
Proof.
  intros descs reqs. unfold make_requirement. destruct reqs as [|s0 ss]; [split; [reflexivity|discriminate]|].
  generalize (s0 :: ss) as l. intros l.
  assert (G : is_ok (to_requirements descs l) = forallb (groups_exist descs) l /\ to_requirements descs l <> Panic).
  { induction l as [|s l' [IH1 IH2]]; [split; [reflexivity|discriminate]|].
    cbn [to_requirements forallb]. destruct (to_requirement_defined descs s) as [Hs1 Hs2]. rewrite <- Hs1, <- IH1.
    destruct (to_requirement descs s); cbn; [|split; [reflexivity|discriminate]|contradiction].
    destruct (to_requirements descs l'); cbn; split; congruence. }
  destruct G as [G1 G2]. rewrite <- G1. destruct (to_requirements descs l); cbn; split; congruence.
Qed.

Lemma NoDup_map_inj {A B} (f : A -> B) l x y : NoDup (map f l) -> In x l -> In y l -> f x = f y -> x = y.
Proof.
  induction l as [|a l IH]; cbn; [intros _ []|]. intros Hnd Hx Hy E. inversion Hnd as [|? ? Hni Hnd']; subst.
  destruct Hx as [->|Hx], Hy as [->|Hy]; auto.
  - exfalso. apply Hni. rewrite E. now apply in_map.
  - exfalso. apply Hni. rewrite <- E. now apply in_map.
Qed.

Lemma search_sem cred (eval : idesc -> res (string * list cred)) descs reqs r fmt :
  NoDup (map id_id descs) -> forallb plain_all reqs = true -> make_requirement reqs descs = Ok r ->
  exists out, apply_requirement cred eval descs r fmt = Some out /\
    match out with
    | Ok (f, m) => exists T, submission_of eval descs reqs T /\ NoDup T /\
        (forall id cs, mget m id = Some cs <->
          In id T /\ exists d f', In d descs /\ id_id d = id /\ eval d = Ok (f', cs)) /\
        ((f = fmt /\ forall d f' cs, In d descs -> In (id_id d) T -> eval d = Ok (f', cs) -> f' = "")
         \/ (f <> "" /\ exists d cs, In d descs /\ In (id_id d) T /\ eval d = Ok (f, cs)))
    | Err e => (e = "credentials do not satisfy requirements" /\ ~ exists T, submission_of eval descs reqs T) \/
               (exists d, In d descs /\ definition_uses reqs d = true /\ eval d = Err e)
    | Panic => exists d, In d descs /\ definition_uses reqs d = true /\ eval d = Panic
    end.
Proof.
  intros Hnd Hpl Hmk. destruct (apply_requirement_spec cred eval descs reqs r fmt Hnd Hmk) as (out & E & H).
  exists out. split; [exact E|]. clear E.
  destruct (req_descriptor_spec descs r (make_requirement_tree_ok _ _ _ Hmk)) as [Hl1 Hl2].
  assert (Huse : forall id, In id (get_all_descriptors (to_logic r)) <-> _) by (intros id; apply (make_requirement_uses descs reqs r id Hmk)).
  assert (Hlk : forall d, In d descs -> In (id_id d) (get_all_descriptors (to_logic r)) -> req_descriptor r (id_id d) = Some d).
  { intros d Hd Hin. destruct (Hl2 _ Hin) as (d' & Hd'). rewrite Hd'. f_equal. destruct (Hl1 _ _ Hd') as [A B].
    eapply NoDup_map_inj; eassumption. }
  assert (Hused : forall id d, req_descriptor r id = Some d -> definition_uses reqs d = true).
  { intros id d A. pose proof (req_descriptor_used descs r (make_requirement_tree_ok _ _ _ Hmk) id d A) as U. apply Huse in U as (d' & E1 & E2 & E3).
    destruct (Hl1 _ _ A) as [D1 D2]. assert (d = d') by (eapply NoDup_map_inj; try eassumption; congruence). now subst d'. }
  destruct out as [[f m]|e|]; cbn in H.
  - destruct H as (T & Hne & HT & Hinc & Hs & Hm & Hg & Hf). exists T. split; [|split; [assumption|split]].
    + split; [assumption|]. split.
      * intros id Hin. destruct (Hm id Hin) as (d & f' & cs & A & B & C).
        destruct (Hl1 _ _ A) as [D1 D2]. exists d. split; [assumption|]. split; [assumption|].
        specialize (Hinc id Hin). apply Huse in Hinc as (d' & E1 & E2 & E3).
        assert (d = d') by (eapply NoDup_map_inj; try eassumption; congruence). subst d'.
        split; [assumption|]. exists f', cs. auto.
      * rewrite <- (make_requirement_sem descs Hnd reqs r T Hpl Hmk). exact Hs.
    + intros id cs. rewrite Hg. split.
      * intros [Hin (d & f' & A & B)]. split; [assumption|]. exists d, f'. destruct (Hl1 _ _ A). auto.
      * intros [Hin (d & f' & A & <- & B)]. split; [assumption|]. exists d, f'. split; [|assumption]. auto.
    + destruct Hf as [[-> Hf]|(Hf & id & d & cs & Hin & A & B)]; [left|right]; (split; [auto|]).
      * intros d f' cs Hd Hin Hev. eapply Hf; try eassumption. apply Hlk; auto.
      * destruct (Hl1 _ _ A) as [D1 <-]. eauto 6.
  - destruct H as [[He H]|(id & d & A & B)].
    + left. split; [assumption|]. intros (T & Hne & HT & Hmet).
      assert (Hinc : incl T (get_all_descriptors (to_logic r))).
      { intros x Hx. apply Huse. destruct (HT x Hx) as (d & A & B & C & _). eauto. }
      rewrite <- (make_requirement_sem descs Hnd reqs r T Hpl Hmk) in Hmet. rewrite H in Hmet; [discriminate|assumption|assumption|].
      intros id Hin. destruct (HT id Hin) as (d & A & <- & C & f' & cs & D1 & D2). exists d, f', cs.
      split; [|auto]. apply Hlk; [assumption|]. now apply Hinc.
    + right. exists d. destruct (Hl1 _ _ A). eauto.
  - destruct H as (id & d & A & B). exists d. destruct (Hl1 _ _ A). eauto.
Qed.
