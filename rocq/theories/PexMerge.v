(** Proofs about merge (C12), Match (C13, C14), path compaction (C42). *)
From Coq Require Import ZifyN ZifyNat.
From Verif Require Import GoBase PexSpec StatusModel StatusProofs PexModel PexProofs StrLemmas.

(** The mapping that points descriptor [d] at credential number [i]. *)
Definition entry (fmt : string) (separate : bool) (d : string) (vc : cred) (i : nat) : mapping :=
  let jwt_vp := if String.eqb fmt "jwt_vp" then ".vp" else "" in
  let vc_fmt := if c_jwt vc then "jwt_vc" else "ldp_vc" in
  if separate then Mapping d fmt ("$[" ++ itoa i ++ "]") (Some (Mapping d vc_fmt ("$" ++ jwt_vp ++ ".verifiableCredential[0]") None))
  else Mapping d fmt "$" (Some (Mapping d vc_fmt ("$" ++ jwt_vp ++ ".verifiableCredential[" ++ itoa i ++ "]") None)).

Definition pairs_of (table : gomap (list credw)) : list (string * credw) :=
  List.concat (map (fun d => map (fun cw => (d, cw)) (match mget table d with Some l => l | None => [] end))
                 (sort_strings (mkeys table))).
Definition step2 fmt sep (st : merge_state) (p : string * credw) := merge_step fmt sep (fst p) st (snd p).

Lemma merge_pairs fmt table sep :
  merge fmt table sep =
  (let st := fold_left (step2 fmt sep) (pairs_of table) {| ms_index := []; ms_result := []; ms_descs := [] |} in
   (ms_result st, ms_descs st)).
Proof.
  unfold merge, pairs_of. generalize {| ms_index := []; ms_result := []; ms_descs := [] |} as st.
  generalize (sort_strings (mkeys table)) as ks. intros ks st.
  assert (G : forall st, fold_left (merge_descriptor fmt sep table) ks st =
    fold_left (step2 fmt sep) (List.concat (map (fun d => map (fun cw => (d, cw)) (match mget table d with Some l => l | None => [] end)) ks)) st).
  { clear st. induction ks as [|k ks IH]; intros st; cbn [fold_left map List.concat]; [reflexivity|].
    rewrite fold_left_app, IH. f_equal. unfold merge_descriptor.
    generalize (match mget table k with Some l => l | None => [] end) as l. intros l. revert st.
    induction l as [|cw l IHl]; intros st; cbn; [reflexivity|]. apply IHl. }
  rewrite G. reflexivity.
Qed.

Lemma insert_sorted_In k l x : In x (insert_sorted k l) <-> x = k \/ In x l.
Proof.
  induction l as [|y l IH]; cbn; [intuition|]. destruct (String.leb k y); cbn; [intuition|]. rewrite IH. intuition.
Qed.
Lemma sort_strings_In l x : In x (sort_strings l) <-> In x l.
Proof.
  induction l as [|y l IH]; cbn; [tauto|]. fold (sort_strings l). rewrite insert_sorted_In, IH. intuition.
Qed.
Lemma insert_sorted_perm k l : Permutation (k :: l) (insert_sorted k l).
Proof.
  induction l as [|y l IH]; cbn; [reflexivity|]. destruct (String.leb k y); [reflexivity|].
  rewrite perm_swap. now constructor.
Qed.
Lemma sort_strings_perm l : Permutation l (sort_strings l).
Proof.
  induction l as [|y l IH]; cbn; [constructor|]. fold (sort_strings l). rewrite <- insert_sorted_perm. now constructor.
Qed.
Lemma pairs_of_In table d cw : NoDup (map fst table) ->
  (In (d, cw) (pairs_of table) <-> exists l, In (d, l) table /\ In cw l).
Proof.
  intros Hnd. unfold pairs_of. rewrite in_concat. split.
  - intros (x & Hx & Hin). apply in_map_iff in Hx as (k & <- & Hk). apply in_map_iff in Hin as (c & [= -> ->] & Hc).
    destruct (mget table d) as [l|] eqn:E; [|destruct Hc]. exists l. split; [now apply mget_In|assumption].
  - intros (l & Hl & Hc). eexists. split.
    + apply in_map_iff. exists d. split; [reflexivity|]. apply sort_strings_In. apply in_map_iff. exists (d, l). auto.
    + apply (mget_In_nodup table d l Hnd) in Hl. rewrite Hl. now apply (in_map (fun cw => (d, cw))).
Qed.
Fixpoint total (table : gomap (list credw)) : nat :=
  match table with [] => 0 | (_, l) :: t => List.length l + total t end.
Lemma pairs_of_length table : NoDup (map fst table) -> List.length (pairs_of table) = total table.
Proof.
  intros Hnd. unfold pairs_of.
  set (f := fun d => map (fun cw => (d, cw)) (match mget table d with Some l => l | None => [] end)).
  assert (P : Permutation (List.concat (map f (sort_strings (mkeys table)))) (List.concat (map f (mkeys table)))).
  { rewrite <- !flat_map_concat_map. apply Permutation_flat_map. symmetry. apply sort_strings_perm. }
  rewrite (Permutation_length P). subst f. clear P.
  assert (G : forall t, NoDup (map fst t) -> incl t table ->
     List.length (List.concat (map (fun d => map (fun cw : credw => (d, cw)) (match mget table d with Some l => l | None => [] end)) (map fst t))) = total t).
  { induction t as [|[k l] t IH]; intros Ht Hi; cbn; [reflexivity|].
    inversion Ht; subst. rewrite app_length, IH; [|assumption|intros x Hx; apply Hi; now right].
    rewrite (mget_In_nodup table k l Hnd (Hi _ (or_introl eq_refl))). now rewrite map_length. }
  apply G; [assumption|apply incl_refl].
Qed.

(** Invariant of the loop. *)
Definition minv fmt sep (ps : list (string * credw)) (st : merge_state) : Prop :=
  (forall u i, mget (ms_index st) u = Some i ->
      exists d cw, In (d, cw) ps /\ cw_uid cw = u /\ nth_error (ms_result st) i = Some (cw_vc cw)) /\
  (forall u v i, mget (ms_index st) u = Some i -> mget (ms_index st) v = Some i -> u = v) /\
  (forall d cw, In (d, cw) ps -> exists i, mget (ms_index st) (cw_uid cw) = Some i) /\
  (forall i c, nth_error (ms_result st) i = Some c -> exists d cw, In (d, cw) ps /\ cw_vc cw = c /\
      mget (ms_index st) (cw_uid cw) = Some i) /\
  ms_descs st = map (fun p => entry fmt sep (fst p) (cw_vc (snd p))
                       (match mget (ms_index st) (cw_uid (snd p)) with Some i => i | None => 0%nat end)) ps.

Lemma minv_step fmt sep ps st p : minv fmt sep ps st -> minv fmt sep (ps ++ [p])%list (step2 fmt sep st p).
Proof.
  intros (H1 & H2 & H3 & H4 & H5). destruct p as [d cw]. unfold step2. cbn [fst snd].
  unfold merge_step, minv. destruct (mhas (ms_index st) (cw_uid cw)) eqn:Em.
  - (* already present *)
    unfold mhas in Em. destruct (mget (ms_index st) (cw_uid cw)) as [i|] eqn:Ei; [|discriminate].
    cbn [ms_index ms_result ms_descs]. split; [|split; [|split; [|split]]].
    + intros u j Hu. destruct (H1 u j Hu) as (d' & cw' & A & B). exists d', cw'. split; [apply in_or_app; now left|assumption].
    + exact H2.
    + intros d' cw' Hin. apply in_app_or in Hin as [Hin|[[= <- <-]|[]]]; eauto.
    + intros j c Hj. destruct (H4 j c Hj) as (d' & cw' & A & B). exists d', cw'. split; [apply in_or_app; now left|assumption].
    + cbn [ms_index]. rewrite map_app. cbn [map fst snd]. rewrite Ei, <- H5. reflexivity.
  - unfold mhas in Em. destruct (mget (ms_index st) (cw_uid cw)) as [i|] eqn:Ei; [discriminate|].
    cbn [ms_index ms_result ms_descs]. rewrite mget_mset, String.eqb_refl.
    set (n := List.length (ms_result st)).
    assert (Hn : nth_error (ms_result st ++ [cw_vc cw])%list n = Some (cw_vc cw)).
    { unfold n. rewrite nth_error_app2 by lia. now rewrite Nat.sub_diag. }
    assert (Hlt : forall u j, mget (ms_index st) u = Some j -> (j < n)%nat).
    { intros u j Hu. destruct (H1 u j Hu) as (d' & cw' & _ & _ & Hj). apply nth_error_Some. congruence. }
    split; [|split; [|split; [|split]]].
    + intros u j. rewrite mget_mset. destruct (String.eqb_spec u (cw_uid cw)) as [->|Hne].
      * intros [= <-]. exists d, cw. split; [apply in_or_app; right; now left|]. split; [reflexivity|exact Hn].
      * intros Hu. destruct (H1 u j Hu) as (d' & cw' & A & B & C). exists d', cw'.
        split; [apply in_or_app; now left|]. split; [assumption|]. rewrite nth_error_app1; [assumption|]. now apply (Hlt u).
    + intros u v j. rewrite !mget_mset. destruct (String.eqb_spec u (cw_uid cw)) as [->|Hu], (String.eqb_spec v (cw_uid cw)) as [->|Hv]; auto.
      * intros [= <-] Hj. apply Hlt in Hj. lia.
      * intros Hj [= <-]. apply Hlt in Hj. lia.
      * apply H2.
    + intros d' cw' Hin. rewrite mget_mset. destruct (String.eqb_spec (cw_uid cw') (cw_uid cw)) as [|Hne]; [eauto|].
      apply in_app_or in Hin as [Hin|[[= <- <-]|[]]]; [eauto|congruence].
    + intros j c Hj. destruct (Nat.lt_ge_cases j n) as [Hjn|Hjn].
      * rewrite nth_error_app1 in Hj by exact Hjn. destruct (H4 j c Hj) as (d' & cw' & A & B & C). exists d', cw'.
        split; [apply in_or_app; now left|]. split; [assumption|]. rewrite mget_mset.
        destruct (String.eqb_spec (cw_uid cw') (cw_uid cw)) as [E|]; [|assumption]. rewrite E in C. congruence.
      * assert (j = n).
        { assert (j < List.length (ms_result st ++ [cw_vc cw])%list)%nat by (apply nth_error_Some; congruence).
          rewrite app_length in H. cbn in H. fold n in H. lia. }
        subst j. rewrite Hn in Hj. injection Hj as <-. exists d, cw. split; [apply in_or_app; right; now left|].
        split; [reflexivity|]. now rewrite mget_mset, String.eqb_refl.
    + rewrite map_app. cbn [map fst snd]. rewrite mget_mset, String.eqb_refl. f_equal. rewrite H5. apply map_ext_in.
      intros [d' cw'] Hin. cbn [fst snd]. rewrite mget_mset. destruct (String.eqb_spec (cw_uid cw') (cw_uid cw)) as [E|]; [|reflexivity].
      destruct (H3 d' cw' Hin) as (i & Hi). rewrite E in Hi. congruence.
Qed.
Lemma minv_fold fmt sep : forall qs ps st, minv fmt sep ps st -> minv fmt sep (ps ++ qs)%list (fold_left (step2 fmt sep) qs st).
Proof.
  induction qs as [|q qs IH]; intros ps st H; cbn [fold_left]; [now rewrite app_nil_r|].
  replace (ps ++ q :: qs)%list with ((ps ++ [q]) ++ qs)%list by now rewrite <- app_assoc. apply IH, minv_step, H.
Qed.
Lemma minv_init fmt sep : minv fmt sep [] {| ms_index := []; ms_result := []; ms_descs := [] |}.
Proof.
  unfold minv; cbn. split; [intros; discriminate|]. split; [intros; discriminate|]. split; [intros ? ? []|].
  split; [|reflexivity]. intros [|n] c H; discriminate.
Qed.

(** Same unique id, same credential. *)
Definition uid_identifies (table : gomap (list credw)) : Prop :=
  forall d l cw d' l' cw', In (d, l) table -> In cw l -> In (d', l') table -> In cw' l' ->
    cw_uid cw = cw_uid cw' -> cw_vc cw = cw_vc cw'.

Lemma merge_spec fmt table sep result maps :
  NoDup (map fst table) -> merge fmt table sep = (result, maps) ->
  (* one entry per match, pointing at a credential with the same unique id *)
  List.length maps = total table /\
  (forall d l cw, In (d, l) table -> In cw l -> exists i d' l' cw',
      In (d', l') table /\ In cw' l' /\ cw_uid cw' = cw_uid cw /\ nth_error result i = Some (cw_vc cw') /\
      In (entry fmt sep d (cw_vc cw) i) maps) /\
  (forall m, In m maps -> exists d l cw i d' l' cw',
      In (d, l) table /\ In cw l /\ m = entry fmt sep d (cw_vc cw) i /\
      In (d', l') table /\ In cw' l' /\ cw_uid cw' = cw_uid cw /\ nth_error result i = Some (cw_vc cw')) /\
  (forall i c, nth_error result i = Some c -> exists d l cw, In (d, l) table /\ In cw l /\ cw_vc cw = c) /\
  (* no credential is included twice under one unique id *)
  (exists uids, NoDup uids /\ Forall2 (fun u c => exists d l cw, In (d, l) table /\ In cw l /\ cw_uid cw = u /\ cw_vc cw = c) uids result).
Proof.
  intros Hnd H. rewrite merge_pairs in H. cbv zeta in H. injection H as <- <-.
  pose proof (minv_fold fmt sep (pairs_of table) [] _ (minv_init fmt sep)) as Hinv. cbn [app] in Hinv.
  set (st := fold_left (step2 fmt sep) (pairs_of table) {| ms_index := []; ms_result := []; ms_descs := [] |}) in *.
  destruct Hinv as (H1 & H2 & H3 & H4 & H5).
  split; [rewrite H5, map_length; now apply pairs_of_length|]. split; [|split; [|split]].
  - intros d l cw Hl Hc. assert (Hp : In (d, cw) (pairs_of table)) by (apply pairs_of_In; eauto).
    destruct (H3 d cw Hp) as (i & Hi). destruct (H1 _ _ Hi) as (d' & cw' & A & B & C).
    apply pairs_of_In in A as (l' & A1 & A2); [|assumption]. exists i, d', l', cw'. repeat (split; [assumption|]).
    rewrite H5. apply in_map_iff. exists (d, cw). split; [|assumption]. cbn [fst snd]. now rewrite Hi.
  - intros m Hm. rewrite H5 in Hm. apply in_map_iff in Hm as ([d cw] & <- & Hp). cbn [fst snd].
    destruct (H3 d cw Hp) as (i & Hi). rewrite Hi. destruct (H1 _ _ Hi) as (d' & cw' & A & B & C).
    apply pairs_of_In in A as (l' & A1 & A2); [|assumption]. apply pairs_of_In in Hp as (l & P1 & P2); [|assumption].
    exists d, l, cw, i, d', l', cw'. auto 10.
  - intros i c Hc. destruct (H4 i c Hc) as (d & cw & A & B & _). apply pairs_of_In in A as (l & A1 & A2); [|assumption]. exists d, l, cw; auto.
  - assert (G : forall n, (n <= List.length (ms_result st))%nat -> exists uids, List.length uids = n /\ NoDup uids /\
        (forall i u, nth_error uids i = Some u -> mget (ms_index st) u = Some i) /\
        Forall2 (fun u c => exists d l cw, In (d, l) table /\ In cw l /\ cw_uid cw = u /\ cw_vc cw = c) uids (firstn n (ms_result st))).
    { induction n as [|n IH]; intros Hn.
      - exists []. split; [reflexivity|]. split; [constructor|]. split; [intros [|i] u; discriminate|constructor].
      - destruct IH as (uids & L & N & I & F); [lia|].
        destruct (nth_error (ms_result st) n) as [c|] eqn:Ec; [|apply nth_error_None in Ec; lia].
        destruct (H4 n c Ec) as (d & cw & A & B & C). apply pairs_of_In in A as (l & A1 & A2); [|assumption].
        exists (uids ++ [cw_uid cw])%list. split; [rewrite app_length; cbn; lia|]. split; [|split].
        + apply Permutation_NoDup with (l := cw_uid cw :: uids); [apply Permutation_cons_append|]. constructor; [|assumption].
          intros Hin. apply In_nth_error in Hin as (j & Hj). pose proof (I j _ Hj). rewrite C in H. injection H as <-.
          assert (n < List.length uids)%nat by (apply nth_error_Some; congruence). lia.
        + intros i u Hi. destruct (Nat.lt_ge_cases i (List.length uids)).
          * rewrite nth_error_app1 in Hi by assumption. auto.
          * rewrite nth_error_app2 in Hi by assumption. destruct (i - List.length uids)%nat as [|k] eqn:Ek; [|destruct k; discriminate].
            cbn in Hi. injection Hi as <-. rewrite C. f_equal. lia.
        + assert (Ef : firstn (S n) (ms_result st) = (firstn n (ms_result st) ++ [c])%list).
          { clear -Ec. revert n Ec. induction (ms_result st) as [|x l IH]; intros [|n] E; cbn in *; try discriminate; [congruence|]. f_equal. now apply IH. }
          rewrite Ef. apply Forall2_app; [assumption|]. constructor; [|constructor]. eauto 10. }
    destruct (G (List.length (ms_result st)) (le_n _)) as (uids & _ & N & _ & F). rewrite firstn_all in F. eauto.
Qed.
