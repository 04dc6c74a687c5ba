(** Proofs about MatchSubmissionRequirement: the tree of answers. *)
From Verif Require Import GoBase StatusModel StatusProofs PexSpec ReqSpec ReqModel PexModel PexProofs VcModel VcView WmModel WmSpec WmProofs.

Section Ind.
  Variable P : wsreq -> Prop.
  Hypothesis H : forall name purpose rule count mn mx from nested, Forall P nested -> P (WSR name purpose rule count mn mx from nested).
  Fixpoint wsreq_ind' (s : wsreq) : P s :=
    match s with WSR name purpose rule count mn mx from nested =>
      H name purpose rule count mn mx from nested ((fix go (l : list wsreq) : Forall P l := match l with [] => Forall_nil P | x :: xs => Forall_cons x (wsreq_ind' x) (go xs) end) nested)
    end.
End Ind.
Lemma bind_err {A B} (r : res A) (f : A -> res B) e : bind r f = Err e -> r = Err e \/ exists a, r = Ok a /\ f a = Err e.
Proof. destruct r; cbn; intros H; [right; eauto|left; congruence|discriminate]. Qed.
Lemma bind_panic {A B} (r : res A) (f : A -> res B) : bind r f = Panic -> r = Panic \/ exists a, r = Ok a /\ f a = Panic.
Proof. destruct r; cbn; intros H; [right; eauto|discriminate|now left]. Qed.

Lemma to_wreq_eq descs name purpose rule count mn mx from nested :
  to_wreq descs (WSR name purpose rule count mn mx from nested) =
  if negb (String.eqb from "") then
    let group := filter (fun d => str_in from (wd_group d)) descs in
    if Z.of_nat (List.length group) =? 0 then Err "no descriptors for from"
    else Ok (WRQ name purpose rule (if String.eqb rule "all" then Z.of_nat (List.length group) else count) mn mx group [])
  else let* ns := map_res (to_wreq descs) nested in
       Ok (WRQ name purpose rule (if String.eqb rule "all" then Z.of_nat (List.length ns) else count) mn mx [] ns).
Proof.
  cbn [to_wreq]. destruct (String.eqb from ""); cbn [negb]; [|reflexivity].
  assert (E : (fix go (l : list wsreq) := match l with [] => Ok [] | s :: ss => let* r := to_wreq descs s in let* rs := go ss in Ok (r :: rs) end) nested = map_res (to_wreq descs) nested).
  { induction nested as [|s ss IH]; [reflexivity|]. cbn [map_res]. now rewrite IH. }
  now rewrite E.
Qed.
Lemma group_selects descs from : selects (fun d => In from (wd_group d)) descs (filter (fun d => str_in from (wd_group d)) descs).
Proof. apply selects_filter. intros d. apply str_in_In. Qed.
Lemma to_wreq_err descs : forall sr e, to_wreq descs sr = Err e -> e = "no descriptors for from" /\ empty_group descs sr.
Proof.
  induction sr as [name purpose rule count mn mx from nested IH] using wsreq_ind'. intros e. rewrite to_wreq_eq.
  destruct (String.eqb_spec from "") as [->|Hne]; cbn [negb].
  - intros He. apply bind_err in He as [He|(ns & _ & He)]; [|discriminate].
    assert (K : e = "no descriptors for from" /\ exists s, In s nested /\ empty_group descs s).
    { clear - IH He. revert e He. induction IH as [|s ss Hs _ IHss]; intros e He; [discriminate|]. cbn [map_res] in He. apply bind_err in He as [He|(r & _ & He)].
      - destruct (Hs _ He) as [-> Hg]. split; [reflexivity|]. exists s. split; [now left|assumption].
      - apply bind_err in He as [He|(rs & _ & He)]; [|discriminate]. destruct (IHss _ He) as [-> (s' & Hin & Hg)]. split; [reflexivity|]. exists s'. split; [now right|assumption]. }
    destruct K as [-> (s & Hin & Hg)]. split; [reflexivity|]. eapply eg_in; eassumption.
  - cbn zeta. destruct (Z.eqb_spec (Z.of_nat (List.length (filter (fun d => str_in from (wd_group d)) descs))) 0) as [E|E]; [|discriminate].
    intros [= <-]. split; [reflexivity|]. apply eg_here; [assumption|]. intros d Hd Hin.
    assert (Hf : In d (filter (fun d => str_in from (wd_group d)) descs)) by (apply filter_In; split; [assumption|now apply str_in_In]).
    destruct (filter _ descs); [destruct Hf|cbn in E; lia].
Qed.
Lemma to_wreq_np descs : forall sr, to_wreq descs sr <> Panic.
Proof.
  induction sr as [name purpose rule count mn mx from nested IH] using wsreq_ind'. rewrite to_wreq_eq. destruct (negb _); cbn zeta; [destruct (_ =? 0); discriminate|].
  intros H. apply bind_panic in H as [H|(ns & _ & H)]; [|discriminate]. revert H. induction IH as [|s ss Hs _ IHss]; cbn [map_res]; [discriminate|].
  intros H. apply bind_panic in H as [H|(r & _ & H)]; [contradiction|]. apply bind_panic in H as [H|(rs & _ & H)]; [now apply IHss|discriminate].
Qed.

Definition ext {A} (h h' : list A) : Prop := exists t, h' = (h ++ t)%list.
Lemma ext_refl {A} (h : list A) : ext h h.
Proof. exists []. now rewrite app_nil_r. Qed.
Lemma ext_trans {A} (a b c : list A) : ext a b -> ext b c -> ext a c.
Proof. intros [t ->] [u ->]. exists (t ++ u)%list. now rewrite app_assoc. Qed.
Lemma described_mono (M M' : wdesc -> list nat -> Prop) d m : (forall l, M d l -> M' d l) -> described M d m -> described M' d m.
Proof. unfold described. intuition. Qed.
Scheme mirrors_ind2 := Induction for mirrors Sort Prop with mirror_all_ind2 := Induction for mirror_all Sort Prop.
Combined Scheme mirrors_mutind from mirrors_ind2, mirror_all_ind2.
Lemma mirrors_mono descs (M M' : wdesc -> list nat -> Prop) : (forall d l, In d descs -> M d l -> M' d l) ->
  (forall s m, mirrors descs M s m -> mirrors descs M' s m) /\ (forall ss ms, mirror_all descs M ss ms -> mirror_all descs M' ss ms).
Proof.
  intros H.
  assert (G : (forall s m (_ : mirrors descs M s m), mirrors descs M' s m) /\ (forall ss ms (_ : mirror_all descs M ss ms), mirror_all descs M' ss ms)).
  { apply (mirrors_mutind descs M (fun s m _ => mirrors descs M' s m) (fun ss ms _ => mirror_all descs M' ss ms)).
    - intros name purpose rule count mn mx from nested ds l Hne Hs Hds Hl. eapply mi_group; try eassumption.
      assert (Hin : forall d, In d ds -> In d descs) by (intros d Hd; eapply selects_in in Hs; [apply Hs|exact Hd]).
      clear - Hl Hin H. induction Hl as [|d m ds l Hd _ IH]; constructor; [eapply described_mono; [|exact Hd]; intros l' Hl'; apply H; [apply Hin; now left|assumption]|].
      apply IH. intros d' Hd'. apply Hin. now right.
    - intros. now apply mi_nested.
    - constructor.
    - intros. now constructor. }
  exact G.
Qed.

Section Tree.
  Variable A : Type.
  Variable obs : A -> cred.
  Variable none : A.
  Variable valid : wdef -> res unit.
  Variable frame : gomap json -> A -> res A.
  Variable limit : wcons -> A -> res (limited A).
  Variable idof : A -> string.
  Variable ctx : Type.
  Variable load : string -> res ctx.
  Variable type_ids : ctx -> string -> option (list string).
  Variable jp_parse : string -> option (json -> list json).
  Variable validate : jschema -> json -> bool.
  Variable rfc3339 : string -> option Z.
  Variable order : list (string * string).
  Notation md := (match_desc A obs none frame limit idof ctx load type_ids jp_parse validate rfc3339 order).
  Notation mds := (match_descs A obs none frame limit idof ctx load type_ids jp_parse validate rfc3339 order).
  Notation mr := (match_req A obs none frame limit idof ctx load type_ids jp_parse validate rfc3339 order).
  Notation mrs := (match_reqs A obs none frame limit idof ctx load type_ids jp_parse validate rfc3339 order).
  Notation ms := (match_submission A obs none valid frame limit idof ctx load type_ids jp_parse validate rfc3339 order).
  Variable pd : wdef.
  Variable sd : bool.
  Variable wallet : list nat.

  Lemma match_req_eq h name purpose rule count mn mx descs nested :
    mr pd sd wallet h (WRQ name purpose rule count mn mx descs nested) =
    let* a := mds pd sd wallet h descs in let* b := mrs pd sd wallet (fst a) nested in Ok (fst b, MR name purpose rule count mn mx (snd a) (snd b)).
  Proof.
    cbn [match_req]. destruct (mds pd sd wallet h descs) as [a|e|]; cbn [bind]; try reflexivity.
    assert (E : forall l h, (fix go (h : list A) (l : list wreq) : res (list A * list mreq) := match l with [] => Ok (h, [])
       | x :: xs => let* y := mr pd sd wallet h x in let* z := go (fst y) xs in Ok (fst z, snd y :: snd z) end) h l = mrs pd sd wallet h l).
    { induction l as [|x xs IH]; intros h'; [reflexivity|]. cbn [match_reqs]. destruct (mr pd sd wallet h' x) as [y|e|]; cbn [bind]; try reflexivity. now rewrite IH. }
    now rewrite E.
  Qed.

  Variable inv : list A -> Prop.
  Variable M : list A -> wdesc -> list nat -> Prop.
  Hypothesis step : forall h d h' m, In d (wp_descs pd) -> inv h -> md pd sd wallet h d = Ok (h', m) -> inv h' /\ ext h h' /\ described (M h') d m.
  Hypothesis mono : forall h h' d l, ext h h' -> M h d l -> M h' d l.

  Lemma descs_ok : forall ds h h' l, incl ds (wp_descs pd) -> inv h -> mds pd sd wallet h ds = Ok (h', l) -> inv h' /\ ext h h' /\ Forall2 (described (M h')) ds l.
  Proof.
    induction ds as [|d ds IH]; intros h h' l Hi Hv; cbn [match_descs].
    - intros [= <- <-]. split; [assumption|]. split; [apply ext_refl|constructor].
    - intros H. apply bind_ok in H as ([h1 m] & H1 & H). apply bind_ok in H as ([h2 l2] & H2 & H). injection H as <- <-. cbn [fst snd] in *.
      apply step in H1 as (V1 & E1 & D1); [|apply Hi; now left|assumption]. apply IH in H2 as (V2 & E2 & D2); [|intros x Hx; apply Hi; now right|assumption].
      split; [assumption|]. split; [eapply ext_trans; eassumption|]. constructor; [|assumption]. eapply described_mono; [|exact D1]. intros l. now apply mono.
  Qed.
  Lemma mirror_mono h h' : ext h h' -> forall ss l, mirror_all (wp_descs pd) (M h) ss l -> mirror_all (wp_descs pd) (M h') ss l.
  Proof. intros He. apply mirrors_mono. intros d l _. now apply mono. Qed.
  Lemma mirror1_mono h h' : ext h h' -> forall s m, mirrors (wp_descs pd) (M h) s m -> mirrors (wp_descs pd) (M h') s m.
  Proof. intros He. apply mirrors_mono. intros d l _. now apply mono. Qed.
  Lemma req_ok : forall sr r h h' m, to_wreq (wp_descs pd) sr = Ok r -> inv h -> mr pd sd wallet h r = Ok (h', m) ->
    inv h' /\ ext h h' /\ mirrors (wp_descs pd) (M h') sr m.
  Proof.
    induction sr as [name purpose rule count mn mx from nested IH] using wsreq_ind'. intros r h h' m Hr Hv. rewrite to_wreq_eq in Hr.
    destruct (String.eqb_spec from "") as [->|Hne]; cbn [negb] in Hr.
    - apply bind_ok in Hr as (ns & Hns & Hr). injection Hr as <-. rewrite match_req_eq. cbn [match_descs bind fst snd].
      intros H. apply bind_ok in H as ([h2 l2] & H2 & H). injection H as <- <-. cbn [fst snd] in *.
      assert (K : forall h h' l ns, map_res (to_wreq (wp_descs pd)) nested = Ok ns -> inv h -> mrs pd sd wallet h ns = Ok (h', l) ->
                inv h' /\ ext h h' /\ mirror_all (wp_descs pd) (M h') nested l).
      { clear - IH mono. induction IH as [|s ss Hs _ IHss]; intros h h' l ns Hns Hv H; cbn [map_res] in Hns.
        - injection Hns as <-. cbn [match_reqs] in H. injection H as <- <-. split; [assumption|]. split; [apply ext_refl|constructor].
        - apply bind_ok in Hns as (r & Hr & Hns). apply bind_ok in Hns as (rs & Hrs & Hns). injection Hns as <-. cbn [match_reqs] in H.
          apply bind_ok in H as ([h1 m1] & H1 & H). apply bind_ok in H as ([h2 l2] & H2 & H). injection H as <- <-. cbn [fst snd] in *.
          destruct (Hs _ _ _ _ Hr Hv H1) as (V1 & E1 & D1). destruct (IHss _ _ _ _ Hrs V1 H2) as (V2 & E2 & D2).
          split; [assumption|]. split; [eapply ext_trans; eassumption|]. constructor; [eapply mirror1_mono; eassumption|assumption]. }
      destruct (K _ _ _ _ Hns Hv H2) as (V & E & D). split; [assumption|]. split; [assumption|].
      apply map_res_forall2 in Hns. assert (El : List.length nested = List.length ns) by (clear - Hns; induction Hns; cbn; congruence). rewrite <- El. now apply mi_nested.
    - cbn zeta in Hr. pose proof (group_selects (wp_descs pd) from) as Hg. destruct (Z.eqb_spec (Z.of_nat (List.length (filter (fun d => str_in from (wd_group d)) (wp_descs pd)))) 0) as [E|E]; [discriminate|].
      injection Hr as <-. rewrite match_req_eq. intros H. apply bind_ok in H as ([h1 l1] & H1 & H). cbn [match_reqs bind fst snd] in H. injection H as <- <-.
      set (ds := filter (fun d => str_in from (wd_group d)) (wp_descs pd)) in *. apply descs_ok in H1 as (V & Ex & D); [|intros x Hx; eapply selects_in in Hg; [apply Hg|exact Hx]|assumption].
      split; [assumption|]. split; [assumption|]. eapply mi_group; try eassumption. intros Eq. rewrite Eq in E. now apply E.
  Qed.
  Lemma reqs_ok : forall srs rs h h' l, map_res (to_wreq (wp_descs pd)) srs = Ok rs -> inv h -> mrs pd sd wallet h rs = Ok (h', l) ->
    inv h' /\ ext h h' /\ mirror_all (wp_descs pd) (M h') srs l.
  Proof.
    induction srs as [|s ss IH]; intros rs h h' l Hrs Hv H; cbn [map_res] in Hrs.
    - injection Hrs as <-. cbn [match_reqs] in H. injection H as <- <-. split; [assumption|]. split; [apply ext_refl|constructor].
    - apply bind_ok in Hrs as (r & Hr & Hns). apply bind_ok in Hns as (rs' & Hrs & Hns). injection Hns as <-. cbn [match_reqs] in H.
      apply bind_ok in H as ([h1 m1] & H1 & H). apply bind_ok in H as ([h2 l2] & H2 & H). injection H as <- <-. cbn [fst snd] in *.
      destruct (req_ok _ _ _ _ _ Hr Hv H1) as (V1 & E1 & D1). destruct (IH _ _ _ _ Hrs V1 H2) as (V2 & E2 & D2).
      split; [assumption|]. split; [eapply ext_trans; eassumption|]. constructor; [eapply mirror1_mono; eassumption|assumption].
  Qed.
  Lemma all_ok h h' rs ts : requirements_for_match (wp_reqs pd) (wp_descs pd) = Ok rs -> inv h -> mrs pd sd wallet h rs = Ok (h', ts) ->
    inv h' /\ ext h h' /\ answers pd (M h') ts.
  Proof.
    unfold requirements_for_match. intros Hrs Hv H. destruct (wp_reqs pd) as [|s ss] eqn:Er.
    - injection Hrs as <-. cbn [match_reqs] in H. apply bind_ok in H as ([h1 m1] & H1 & H). cbn [bind fst snd] in H. injection H as <- <-.
      rewrite match_req_eq in H1. apply bind_ok in H1 as ([h2 l2] & H2 & H1). cbn [match_reqs bind fst snd] in H1. injection H1 as <- <-.
      apply descs_ok in H2 as (V & E & D); [|apply incl_refl|assumption]. split; [assumption|]. split; [assumption|]. left. split; [assumption|]. exists l2. auto.
    - destruct (reqs_ok _ _ _ _ _ Hrs Hv H) as (V & E & D). split; [assumption|]. split; [assumption|]. right. rewrite Er. split; [discriminate|assumption].
  Qed.

  (** errors and panics come from a descriptor *)
  Lemma descs_bad (bad : forall X, res X -> Prop) (Hbad : forall X Y (r : res X) (f : X -> res Y), bad Y (bind r f) -> bad X r \/ exists a, r = Ok a /\ bad Y (f a))
    (Hok : forall X (a : X), ~ bad X (Ok a)) : forall ds h, incl ds (wp_descs pd) -> inv h -> bad _ (mds pd sd wallet h ds) ->
    exists d h', In d (wp_descs pd) /\ inv h' /\ bad _ (md pd sd wallet h' d).
  Proof.
    induction ds as [|d ds IH]; intros h Hi Hv H; cbn [match_descs] in H; [now apply Hok in H|].
    apply Hbad in H as [H|([h1 m] & H1 & H)]; [exists d, h; split; [apply Hi; now left|auto]|].
    apply step in H1 as (V1 & E1 & _); [|apply Hi; now left|assumption]. cbn [fst snd] in H.
    apply Hbad in H as [H|(x & _ & H)]; [|now apply Hok in H]. apply IH in H; [assumption|intros x Hx; apply Hi; now right|assumption].
  Qed.
  Lemma req_bad (bad : forall X, res X -> Prop) (Hbad : forall X Y (r : res X) (f : X -> res Y), bad Y (bind r f) -> bad X r \/ exists a, r = Ok a /\ bad Y (f a))
    (Hok : forall X (a : X), ~ bad X (Ok a)) : forall sr r h, to_wreq (wp_descs pd) sr = Ok r -> inv h -> bad _ (mr pd sd wallet h r) ->
    exists d h', In d (wp_descs pd) /\ inv h' /\ bad _ (md pd sd wallet h' d).
  Proof.
    induction sr as [name purpose rule count mn mx from nested IH] using wsreq_ind'. intros r h Hr Hv. rewrite to_wreq_eq in Hr.
    destruct (String.eqb_spec from "") as [->|Hne]; cbn [negb] in Hr.
    - apply bind_ok in Hr as (ns & Hns & Hr). injection Hr as <-. rewrite match_req_eq. cbn [match_descs bind fst snd].
      intros H. apply Hbad in H as [H|(x & _ & H)]; [|now apply Hok in H].
      clear - IH Hns Hv H mono step Hbad Hok. revert ns h Hns Hv H. induction IH as [|s ss Hs _ IHss]; intros ns h Hns Hv H; cbn [map_res] in Hns.
      + injection Hns as <-. cbn [match_reqs] in H. now apply Hok in H.
      + apply bind_ok in Hns as (r & Hr & Hns). apply bind_ok in Hns as (rs & Hrs & Hns). injection Hns as <-. cbn [match_reqs] in H.
        apply Hbad in H as [H|([h1 m1] & H1 & H)]; [eauto|]. cbn [fst snd] in H.
        apply Hbad in H as [H|(x & _ & H)]; [|now apply Hok in H]. destruct (req_ok _ _ _ _ _ Hr Hv H1) as (V1 & E1 & D1). eauto.
    - cbn zeta in Hr. pose proof (group_selects (wp_descs pd) from) as Hg. destruct (Z.of_nat _ =? 0); [discriminate|].
      injection Hr as <-. rewrite match_req_eq. intros H. apply Hbad in H as [H|(x & _ & H)].
      + eapply descs_bad; try eassumption. intros y Hy. eapply selects_in in Hg; [apply Hg|exact Hy].
      + cbn [match_reqs bind fst snd] in H. now apply Hok in H.
  Qed.
  Lemma reqs_bad (bad : forall X, res X -> Prop) (Hbad : forall X Y (r : res X) (f : X -> res Y), bad Y (bind r f) -> bad X r \/ exists a, r = Ok a /\ bad Y (f a))
    (Hok : forall X (a : X), ~ bad X (Ok a)) : forall h rs, requirements_for_match (wp_reqs pd) (wp_descs pd) = Ok rs -> inv h -> bad _ (mrs pd sd wallet h rs) ->
    exists d h', In d (wp_descs pd) /\ inv h' /\ bad _ (md pd sd wallet h' d).
  Proof.
    intros h rs Hrs Hv H. unfold requirements_for_match in Hrs. destruct (wp_reqs pd) as [|s ss] eqn:Er.
    - injection Hrs as <-. cbn [match_reqs] in H. apply Hbad in H as [H|(x & _ & H)].
      + rewrite match_req_eq in H. apply Hbad in H as [H|(y & _ & H)]; [eapply descs_bad; try eassumption; apply incl_refl|]. cbn [match_reqs bind fst snd] in H. now apply Hok in H.
      + cbn [bind fst snd] in H. now apply Hok in H.
    - clear Er. revert rs h Hrs Hv H. generalize (s :: ss). clear s ss. induction l as [|s ss IHss]; intros rs h Hrs Hv H; cbn [map_res] in Hrs.
      + injection Hrs as <-. cbn [match_reqs] in H. now apply Hok in H.
      + apply bind_ok in Hrs as (r & Hr & Hns). apply bind_ok in Hns as (rs' & Hrs & Hns). injection Hns as <-. cbn [match_reqs] in H.
        apply Hbad in H as [H|([h1 m1] & H1 & H)]; [eapply req_bad; eassumption|]. cbn [fst snd] in H.
        apply Hbad in H as [H|(x & _ & H)]; [|now apply Hok in H]. destruct (req_ok _ _ _ _ _ Hr Hv H1) as (V1 & E1 & D1). eauto.
  Qed.
End Tree.
