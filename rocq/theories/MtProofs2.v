From Coq Require Import ZifyN ZifyNat.
From Verif Require Import GoBase StatusModel JwtModel PexSpec PexModel StrLemmas PexMerge PexMatch VcModel VcParse VpModel MtModel MtSpec MtProofs.

Lemma custom_kept k v cf : forall m, mget m k = Some v -> mget (add_custom m cf) k = Some v.
Proof.
  unfold add_custom. induction cf as [|[k' x] cf IH]; intros m H; cbn [fold_left]; [assumption|]. apply IH. cbn [fst snd].
  unfold mhas. destruct (mget m k') eqn:E; [assumption|]. rewrite mget_mset. destruct (String.eqb_spec k k'); [congruence|assumption].
Qed.
Lemma raw_creds U p js : map_res U (pr_creds p) = Ok js -> exists m, pres_raw U p = Ok m /\ (js <> [] -> mget m "verifiableCredential" = Some (JArr js)).
Proof.
  intros H. unfold pres_raw. rewrite H. cbn [bind]. eexists. split; [reflexivity|]. intros N. apply custom_kept. destruct js as [|j js]; [congruence|]. cbn [nonempty opt_set].
  now rewrite mget_mset, String.eqb_refl.
Qed.
(** the steps to credential [i] *)
Definition steps_to (fmt : string) (i : nat) : list jstep :=
  if String.eqb fmt "jwt_vp" then [Name "vp"; Name "verifiableCredential"; Index i] else [Name "verifiableCredential"; Index i].
Lemma steps_to_good fmt i : Z.of_nat i < 2 ^ 63 -> Forall good_step (steps_to fmt i).
Proof. intros H. unfold steps_to. destruct (String.eqb fmt "jwt_vp"); repeat constructor; assumption. Qed.
Lemma steps_to_text fmt i : path_text (steps_to fmt i) = "$" ++ (if String.eqb fmt "jwt_vp" then ".vp" else "") ++ ".verifiableCredential[" ++ itoa i ++ "]".
Proof. unfold steps_to, path_text. destruct (String.eqb fmt "jwt_vp"); cbn [path_tail step_text append]; now rewrite append_nil_r. Qed.
Lemma entry_single_text fmt d c i : entry fmt false d c i =
  Mapping d fmt (path_text []) (Some (Mapping d (if c_jwt c then "jwt_vc" else "ldp_vc") (path_text (steps_to fmt i)) None)).
Proof. rewrite steps_to_text. reflexivity. Qed.
Lemma entry_array_text fmt d c i : entry fmt true d c i =
  Mapping d fmt (path_text [Index i]) (Some (Mapping d (if c_jwt c then "jwt_vc" else "ldp_vc") (path_text (steps_to fmt 0)) None)).
Proof. rewrite steps_to_text. unfold entry, path_text. cbn [path_tail step_text append]. now rewrite append_nil_r. Qed.

Section Match.
  Variables (E : venv) (U : credential -> res json) (other : string -> json -> res json) (ft : nat -> string) (parse : json -> res cred).
  Lemma carries_leads fmt p js : carries E U fmt p js -> exists j, typeless E U p = Ok j /\ forall i x, nth_error js i = Some x -> leads ft (steps_to fmt i) j x.
  Proof.
    intros [Hj Hc Hf Hm|claims vp Ht Hv Hc Hf].
    - destruct (raw_creds U p js Hm) as (m & R & C). exists (JObj m). split.
      + unfold typeless, is_jwt_vp. rewrite Hj, Hc. cbn. now rewrite R.
      + intros i x Hx. assert (N : js <> []) by (intros ->; destruct i; discriminate). unfold steps_to. destruct (String.eqb_spec fmt "jwt_vp"); [congruence|].
        apply le_direct. eapply re_name; [exact (C N)|]. eapply re_item; [exact Hx|constructor].
    - exists (JObj claims). split; [assumption|]. intros i x Hx. unfold steps_to. destruct (String.eqb_spec fmt "jwt_vp") as [->|N].
      + apply le_direct. eapply re_name; [exact Hv|]. eapply re_name; [exact Hc|]. eapply re_item; [exact Hx|constructor].
      + apply le_vp.
        * intros w R. inversion R as [|? ? v ? ? Eq _| |]; subst. rewrite (Hf N) in Eq. discriminate.
        * eapply re_name; [exact Hv|]. eapply re_name; [exact Hc|]. eapply re_item; [exact Hx|constructor].
  Qed.
  Lemma leads_nil j v : leads ft [] j v -> v = j.
  Proof. intros H. inversion H as [l j' v' R|]; subst. now inversion R. Qed.
  Lemma select_single fmt d c i j x : Z.of_nat i < 2 ^ 63 -> leads ft (steps_to fmt i) j x -> select_value other ft (entry fmt false d c i) j = Ok x.
  Proof.
    intros Hi L. rewrite entry_single_text. pose proof (steps_to_good fmt i Hi) as G. cbn [select_value].
    assert (S0 : select_step other ft (path_text []) j = Ok j) by (apply select_step_ok; [constructor|apply le_direct; constructor]).
    rewrite S0. cbn [bind]. assert (S1 : select_step other ft (path_text (steps_to fmt i)) j = Ok x) by now apply select_step_ok. rewrite S1. reflexivity.
  Qed.
  Lemma select_array fmt d c i a j x : Z.of_nat i < 2 ^ 63 -> nth_error a i = Some j -> leads ft (steps_to fmt 0) j x -> select_value other ft (entry fmt true d c i) (JArr a) = Ok x.
  Proof.
    intros Hi Hn L. rewrite entry_array_text. pose proof (steps_to_good fmt 0 ltac:(lia)) as G. cbn [select_value].
    assert (S0 : select_step other ft (path_text [Index i]) (JArr a) = Ok j).
    { apply select_step_ok; [repeat constructor; assumption|]. apply le_direct. eapply re_item; [exact Hn|constructor]. }
    rewrite S0. cbn [bind]. assert (S1 : select_step other ft (path_text (steps_to fmt 0)) j = Ok x) by now apply select_step_ok. rewrite S1. reflexivity.
  Qed.
  Lemma nth_raw ps i upto p j : nth_error ps i = Some p -> (i <= upto)%nat -> typeless E U p = Ok j -> exists a, raw_vps E U ps upto = JArr a /\ nth_error a i = Some j.
  Proof.
    intros Hp Hi Ht. eexists. split; [reflexivity|]. rewrite nth_error_map.
    assert (X : nth_error (combine (seq 0 (List.length ps)) ps) i = Some (i, p)).
    { assert (G : forall (l : list presentation) k n, nth_error l k = Some p -> nth_error (combine (seq n (List.length l)) l) k = Some ((n + k)%nat, p)).
      { induction l as [|y l IH]; intros k n H; [destruct k; discriminate|]. destruct k as [|k]; cbn in *.
        - injection H as ->. now rewrite Nat.add_0_r.
        - rewrite IH by assumption. do 2 f_equal. lia. }
      now apply (G ps i 0%nat). }
    rewrite X. cbn [option_map fst snd]. destruct (Nat.leb_spec i upto); [|lia]. now rewrite Ht.
  Qed.
  Lemma context_ok p : submission_vp p -> context_type_ok p = true.
  Proof.
    intros [H1 H2]. unfold context_type_ok, credential_application_context. apply andb_true_iff. split; apply orb_true_iff.
    - destruct H1 as [H|H]; [left|right]; now apply str_in_In.
    - destruct H2 as [H|H]; [left|right]; now apply str_in_In.
  Qed.
  Lemma forall2_nth {A B} (R : A -> B -> Prop) l l' : Forall2 R l l' -> forall i b, nth_error l' i = Some b -> exists a, nth_error l i = Some a /\ R a b.
  Proof. induction 1 as [|a b l l' H _ IH]; intros [|i] x Hx; cbn in *; try discriminate; [injection Hx as <-; eauto|eauto]. Qed.

  Variable f_schema : list schema -> list cred -> res (list cred).
  Variable f_constraints : option constraints -> list cred -> res (list cred).
  Lemma match_single disable descs fmt table result maps maps' id def p js :
    good_table f_schema f_constraints disable descs table -> merge fmt table false = (result, maps) -> Permutation maps maps' ->
    Z.of_nat (List.length result) < 2 ^ 63 ->
    submission_vp p -> mget (pr_custom p) "presentation_submission" = Some (submission_json id def maps') ->
    carries E U fmt p js -> Forall2 (fun j c => parse j = Ok c) js result ->
    exists r, match_presentations E U other ft parse f_schema f_constraints disable descs NoSubmission [p] = Ok r /\
      forall id c, (exists v, In v r /\ mv_desc v = id /\ mv_cred v = c) <-> (exists l cw, In (id, l) table /\ In cw l /\ cw_vc cw = c).
  Proof.
    intros Hg Hm Hp Hbig Hs Hsub Hc HF. destruct (carries_leads fmt p js Hc) as (j & Ht & HL).
    destruct (create_then_match_single (select_in E U other ft parse [p]) f_schema f_constraints disable descs fmt table result maps maps' (pr_id p) Hg Hm Hp) as (r & R & Q).
    - intros d c i Hi. cbn [select_in nth_error]. rewrite Ht. cbn [bind]. unfold select_vc. destruct (forall2_nth _ _ _ HF i c Hi) as (x & Hx & Px).
      rewrite (select_single fmt d c i j x); [exact Px| |now apply HL]. assert (i < List.length result)%nat by (apply nth_error_Some; congruence). lia.
    - exists r. split; [|exact Q]. unfold match_presentations. cbn [bind List.length map]. unfold seen.
      rewrite (context_ok p Hs), Ht. cbn [is_ok andb]. unfold parse_descriptor_map. rewrite Hsub.
      destruct (submission_json id def maps') as [| | | | |m] eqn:Es; try discriminate Es. rewrite (submission_round _ _ _ _ Es). exact R.
  Qed.
  Lemma match_array disable descs fmt table result maps maps' sub ps :
    good_table f_schema f_constraints disable descs table -> merge fmt table true = (result, maps) -> Permutation maps maps' ->
    Z.of_nat (List.length result) < 2 ^ 63 ->
    Forall submission_vp ps -> (sub = Typed maps' \/ exists id def m, submission_json id def maps' = JObj m /\ sub = Untyped m) ->
    Forall2 (fun p c => exists j, carries E U fmt p [j] /\ parse j = Ok c) ps result ->
    exists r, match_presentations E U other ft parse f_schema f_constraints disable descs sub ps = Ok r /\
      (forall id c, (exists v, In v r /\ mv_desc v = id /\ mv_cred v = c) <-> (exists l cw, In (id, l) table /\ In cw l /\ cw_vc cw = c)) /\
      (forall v, In v r -> exists i p, nth_error ps i = Some p /\ mv_pres v = pr_id p /\ nth_error result i = Some (mv_cred v)).
  Proof.
    intros Hg Hm Hp Hbig Hs Hsub HF.
    destruct (create_then_match_array (select_in E U other ft parse ps) f_schema f_constraints disable descs fmt table result maps maps' (map (seen E U) ps) Hg Hm Hp) as (r & R & Q1 & Q2).
    - rewrite map_length. clear - HF. induction HF; cbn; auto.
    - clear - Hs HF ft. revert Hs. induction HF as [|p c ps cs (j & Hc & _) _ IH]; intros Hs; cbn [map]; constructor; inversion Hs; subst; auto.
      cbn. destruct (carries_leads fmt p [j] Hc) as (j' & Ht & _). now rewrite Ht, (context_ok p).
    - assumption.
    - intros d c i Hi. cbn [select_in]. unfold select_vc. destruct (forall2_nth _ _ _ HF i c Hi) as (p & Hpn & j & Hc & Px).
      destruct (carries_leads fmt p [j] Hc) as (j' & Ht & HL). destruct (nth_raw ps i i p j' Hpn (le_n _) Ht) as (a & Ea & Hn). rewrite Ea.
      rewrite (select_array fmt d c i a j' j); [exact Px| |assumption|now apply HL]. assert (i < List.length result)%nat by (apply nth_error_Some; congruence). lia.
    - exists r. split; [|split; [exact Q1|]].
      + unfold match_presentations. rewrite map_length in R. destruct Hsub as [->|(id & def & m & Es & ->)]; cbn [bind]; [exact R|].
        assert (Hne : m <> []) by (intros ->; unfold submission_json in Es; destruct (String.eqb id ""), (String.eqb def ""); discriminate).
        destruct m as [|x m]; [congruence|]. rewrite (submission_round _ _ _ _ Es). exact R.
      + intros v Hv. destruct (Q2 v Hv) as (i & q & Hq & Hid & Hr). rewrite nth_error_map in Hq. destruct (nth_error ps i) as [p|] eqn:Ep; [|discriminate]. injection Hq as <-.
        exists i, p. auto.
  Qed.
End Match.
