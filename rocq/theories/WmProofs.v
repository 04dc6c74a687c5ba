(** Proofs about the wallet side of presentation exchange: filters, trees. *)
From Verif Require Import GoBase StatusModel StatusProofs PexSpec ReqSpec ReqModel PexModel PexProofs VcModel WmModel WmSpec.

Lemma selects_in {A} (P : A -> Prop) l l' : selects P l l' -> forall x, In x l' -> In x l /\ P x.
Proof. induction 1 as [|x l l' Hx H IH|x l l' Hx H IH]; intros y Hy; [destruct Hy| |]. - destruct Hy as [<-|Hy]; [split; [now left|assumption]|]. apply IH in Hy as [? ?]. split; [now right|assumption]. - apply IH in Hy as [? ?]. split; [now right|assumption]. Qed.
Lemma sel1_yes {A} (P : A -> Prop) x : selects P [x] [x] -> P x.
Proof. intros H. inversion H as [|? ? ? Hx H'|? ? ? Hx H']; subst; [assumption|inversion H']. Qed.
Lemma sel1_no {A} (P : A -> Prop) x : selects P [x] [] -> ~ P x.
Proof. intros H. inversion H; subst; assumption. Qed.
Lemma not_nil_iff f : not_nil f = true <-> exists s, designates f s.
Proof.
  unfold not_nil, designates. destruct f as [w|]; [|split; [discriminate|intros (s & w & H & _); discriminate]].
  cbn zeta. split.
  - intros H. exists (wf_six w), w. split; [reflexivity|]. split; [reflexivity|].
    repeat rewrite orb_true_iff in H. unfold some_b in H. destruct (f_jwt (wf_six w)), (f_jwt_vc (wf_six w)), (f_jwt_vp (wf_six w)), (f_ldp (wf_six w)), (f_ldp_vc (wf_six w)), (f_ldp_vp (wf_six w)); try (intuition discriminate).
  - intros (s & w' & [= <-] & <- & H). repeat rewrite orb_true_iff. unfold some_b.
    destruct (f_jwt (wf_six w)), (f_jwt_vc (wf_six w)), (f_jwt_vp (wf_six w)), (f_ldp (wf_six w)), (f_ldp_vc (wf_six w)), (f_ldp_vp (wf_six w)); try tauto; intuition congruence.
Qed.
Lemma not_nil_some f w : f = Some w -> not_nil f = true -> designates f (wf_six w).
Proof. intros -> H. apply not_nil_iff in H as (s & w' & [= <-] & <- & H). exists w. auto. Qed.
Lemma designates_det f s t : designates f s -> designates f t -> s = t.
Proof. intros (w & -> & <- & _) (w' & [= <-] & <- & _). reflexivity. Qed.
Lemma formats_of_det pd d a b : formats_of pd d a -> formats_of pd d b -> a = b.
Proof.
  intros H H'. inversion H as [s Hs|s Hn Hs|Hn Hn']; subst; inversion H' as [t Ht|t Mn Ht|Mn Mn']; subst; try reflexivity; try (f_equal; eapply designates_det; eassumption); exfalso; firstorder.
Qed.

Section First.
  Context {B : Type}.
  Lemma first_of_det (l : list B) ps n l1 : first_of l ps n l1 -> forall n' l2, first_of l ps n' l2 -> n = n' /\ l1 = l2.
  Proof.
    induction 1 as [|n P rest l' Hs Hne|n P rest n1 l' Hs H IH]; intros n' l2 H'; inversion H' as [|? ? ? ? Hs' Hne'|? ? ? ? ? Hs' H'']; subst; auto.
    - split; [reflexivity|]. eapply selects_det; eassumption.
    - exfalso. apply Hne. eapply selects_det; eassumption.
    - exfalso. apply Hne'. symmetry. eapply selects_det; eassumption.
  Qed.
  Lemma by_format_spec (o : B -> cred) f l : first_of l (map (fun np => (fst np, fun b => snd np (o b))) (format_priority f)) (fst (by_format B o f l)) (snd (by_format B o f l)).
  Proof.
    assert (K : forall (P : cred -> Prop) (p : cred -> bool), (forall c, p c = true <-> P c) -> selects (fun b => P (o b)) l (filter (fun b => p (o b)) l)).
    { intros P p H. apply selects_filter. intros b. apply H. }
    unfold format_priority. cbn [map fst snd].
    unfold by_format. cbn zeta. fold (alg_ok).
    repeat match goal with |- context [match (if c_jwt (o _) then _ else _) with _ => _ end] => idtac end.
    change (fun b : B => match (if c_jwt (o b) then c_alg (o b) else None) with Some a => alg_match a (f_jwt f) | None => false end) with (fun b => alg_ok (o b) (f_jwt f)).
    change (fun b : B => match (if c_jwt (o b) then c_alg (o b) else None) with Some a => alg_match a (f_jwt_vc f) | None => false end) with (fun b => alg_ok (o b) (f_jwt_vc f)).
    change (fun b : B => match (if c_jwt (o b) then c_alg (o b) else None) with Some a => alg_match a (f_jwt_vp f) | None => false end) with (fun b => alg_ok (o b) (f_jwt_vp f)).
    pose proof (K _ _ (fun c => cred_by_proof_iff c (f_ldp f))) as H1. pose proof (K _ _ (fun c => cred_by_proof_iff c (f_ldp_vc f))) as H2. pose proof (K _ _ (fun c => cred_by_proof_iff c (f_ldp_vp f))) as H3.
    pose proof (K _ _ (fun c => alg_ok_iff c (f_jwt f))) as H4. pose proof (K _ _ (fun c => alg_ok_iff c (f_jwt_vc f))) as H5. pose proof (K _ _ (fun c => alg_ok_iff c (f_jwt_vp f))) as H6. clear K.
    repeat match goal with
    | H : selects _ l ?x |- context [is_nil ?x] =>
        destruct x; cbn [is_nil negb fst snd]; [apply fi_next; [exact H|]; clear H|apply fi_here; [exact H|discriminate]]
    end. constructor.
  Qed.
End First.

Section Filters.
  Variable B : Type.
  Variable o : B -> cred.
  Variable ctx : Type.
  Variable load : string -> res ctx.
  Variable type_ids : ctx -> string -> option (list string).
  Variable jp_parse : string -> option (json -> list json).
  Variable validate : jschema -> json -> bool.
  Variable rfc3339 : string -> option Z.
  Variable order : list (string * string).
  Notation bs := (by_schema B o ctx load type_ids).
  Notation bc := (by_constraints_loop B o jp_parse validate rfc3339 order).
  Notation tm := (that_match B o ctx load type_ids jp_parse validate rfc3339 order).

  Lemma by_schema_spec schemas l : forall cache, cache_ok ctx load cache ->
    match bs schemas cache l with
    | Ok l' => (forall b x, In b l -> In x (c_contexts (o b)) -> exists cx, load x = Ok cx)
               /\ selects (fun b => schemas_ok ctx load type_ids schemas (o b)) l l'
    | Err e => exists b x, In b l /\ In x (c_contexts (o b)) /\ load x = Err e
    | Panic => exists b x, In b l /\ In x (c_contexts (o b)) /\ load x = Panic
    end.
  Proof.
    induction l as [|b l IH]; intros cache Hc; cbn [by_schema]; [split; [intros ? ? []|constructor]|].
    pose proof (satisfied_ids_spec ctx load type_ids (c_types (o b)) (c_contexts (o b)) cache Hc) as Hs.
    pose proof (filter_schema_loop_spec ctx load type_ids schemas [o b] cache Hc) as H1. cbn [filter_schema_loop] in H1.
    destruct (satisfied_ids _ load type_ids cache (c_contexts (o b)) (c_types (o b))) as [[cache' ids]|e|]; cbn [bind fst snd] in *.
    - destruct Hs as (Hk & Hl & _). specialize (IH cache' Hk). destruct (bs schemas cache' l) as [l'|e|]; cbn [bind].
      + destruct IH as [Ha Hb]. split; [intros b' x [<-|Hin] Hx; eauto|]. destruct H1 as [_ H1].
        destruct (schemas_applicable ids schemas false); [apply sel1_yes in H1; now apply sel_yes|apply sel1_no in H1; now apply sel_no].
      + destruct IH as (b' & x & H & H'). exists b', x. split; [now right|assumption].
      + destruct IH as (b' & x & H & H'). exists b', x. split; [now right|assumption].
    - destruct Hs as (x & Hx & He). exists b, x. split; [now left|auto].
    - destruct Hs as (x & Hx & He). exists b, x. split; [now left|auto].
  Qed.

  Lemma by_constraints_spec cs l : Forall plain_field (cs_fields cs) -> cs_fields cs <> [] ->
    match bc cs l with
    | Ok l' => selects (fun b => cred_holds jp_parse validate rfc3339 (jwt_path order) convert_rfc9535 cs (o b)) l l'
    | Err e => exists b doc f, In b l /\ c_src (o b) = Some doc /\ In f (cs_fields cs) /\
                 forall p, In p (fd_paths f) -> malformed jp_parse order (c_jwt (o b)) doc p
    | Panic => False
    end.
  Proof.
    intros Hf Hne. induction l as [|b l IH]; cbn [by_constraints_loop]; [constructor|].
    pose proof (filter_constraints_spec jp_parse validate rfc3339 order cs [o b] Hf Hne) as H1. cbn [filter_constraints_loop] in H1.
    destruct (cs_subject_is_issuer cs && negb (subject_is_issuer (o b)))%bool.
    - assert (Hn : ~ cred_holds jp_parse validate rfc3339 (jwt_path order) convert_rfc9535 cs (o b)) by (inversion H1; assumption).
      destruct (bc cs l); [now apply sel_no| |assumption]. destruct IH as (b' & doc & f & Hb & Hr). exists b', doc, f. split; [now right|assumption].
    - destruct (c_src (o b)) as [doc|] eqn:Es.
      + destruct (fields_applicable _ _ _ _ (cs_fields cs) doc (c_jwt (o b)) false) as [ok|e|]; cbn [bind] in *.
        * destruct (bc cs l) as [l'|e|]; cbn [bind].
          { destruct ok; [apply sel1_yes in H1; now apply sel_yes|apply sel1_no in H1; now apply sel_no]. }
          { destruct IH as (b' & doc' & f & Hb & Hr). exists b', doc', f. split; [now right|assumption]. }
          { assumption. }
        * destruct H1 as (c & doc' & f & [<-|[]] & Hd & Hin & Hm). exists b, doc', f. split; [now left|auto].
        * assumption.
      + assert (Hn : ~ cred_holds jp_parse validate rfc3339 (jwt_path order) convert_rfc9535 cs (o b)) by (inversion H1; assumption).
        destruct (bc cs l); [now apply sel_no| |assumption]. destruct IH as (b' & doc & f & Hb & Hr). exists b', doc, f. split; [now right|assumption].
  Qed.

  (** why a descriptor cannot be evaluated *)
  Definition filter_fails (d : wdesc) (l : list B) (e : string) : Prop :=
    (exists s b x, wd_schema d = Some s /\ In b l /\ In x (c_contexts (o b)) /\ load x = Err e)
    \/ (exists w b doc f, wd_cons d = Some w /\ In b l /\ c_src (o b) = Some doc /\ In f (cs_fields (wc_base w)) /\
          forall p, In p (fd_paths f) -> malformed jp_parse order (c_jwt (o b)) doc p).
  Lemma first_of_in {X} (l : list X) ps n l' : first_of l ps n l' -> incl l' l.
  Proof. induction 1 as [|n P rest l' Hs Hne|n P rest n1 l' Hs H IH]; [intros x []| |assumption]. intros x Hx. eapply selects_in in Hs; [apply Hs|exact Hx]. Qed.
  Lemma that_match_spec pd d l : plain_cons (wd_cons d) ->
    match tm pd d l with
    | Ok (fmt, l') => matching ctx load type_ids jp_parse validate rfc3339 order o pd d l fmt l'
    | Err e => filter_fails d l e
    | Panic => exists s b x, wd_schema d = Some s /\ In b l /\ In x (c_contexts (o b)) /\ load x = Panic
    end.
  Proof.
    intros Hp. unfold that_match.
    set (format := if not_nil (wd_format d) then wd_format d else wp_format pd).
    set (p := match format with Some w => if not_nil format then by_format B o (wf_six w) l else ("", l) | None => ("", l) end).
    assert (Hf : (formats_of pd d None /\ fst p = "" /\ snd p = l) \/
       (exists f, formats_of pd d (Some f) /\ first_of l (map (fun np => (fst np, fun b => snd np (o b))) (format_priority f)) (fst p) (snd p))).
    { subst p format. destruct (not_nil (wd_format d)) eqn:En.
      - right. destruct (wd_format d) as [w|] eqn:Ew; [|discriminate]. rewrite En. exists (wf_six w). split; [|apply by_format_spec].
        apply fo_own. rewrite Ew. now apply not_nil_some.
      - assert (Hn : forall t, ~ designates (wd_format d) t) by (intros t Ht; rewrite (proj2 (not_nil_iff _)) in En; [discriminate|eauto]).
        destruct (not_nil (wp_format pd)) eqn:En'.
        + right. destruct (wp_format pd) as [w|] eqn:Ew; [|discriminate]. exists (wf_six w). split; [|apply by_format_spec]. apply fo_def; [exact Hn|]. rewrite Ew. now apply not_nil_some.
        + left. assert (Hn' : forall t, ~ designates (wp_format pd) t) by (intros t Ht; rewrite (proj2 (not_nil_iff _)) in En'; [discriminate|eauto]).
          split; [now apply fo_none|]. destruct (wp_format pd); auto. }
    assert (Hi : incl (snd p) l) by (destruct Hf as [(_ & _ & ->)|(f & _ & H)]; [apply incl_refl|eapply first_of_in; exact H]).
    clearbody p. clear format. destruct p as [fmt l1]. cbn [fst snd] in *.
    assert (Hs : match match wd_schema d with Some s => bs s [] l1 | None => Ok l1 end with
      | Ok l2 => match wd_schema d with None => l2 = l1 | Some s => selects (fun b => schemas_ok ctx load type_ids s (o b)) l1 l2 end
      | Err e => exists s b x, wd_schema d = Some s /\ In b l1 /\ In x (c_contexts (o b)) /\ load x = Err e
      | Panic => exists s b x, wd_schema d = Some s /\ In b l1 /\ In x (c_contexts (o b)) /\ load x = Panic end).
    { destruct (wd_schema d) as [s|]; [|reflexivity]. pose proof (by_schema_spec s l1 [] (fun x c (H : mget [] x = Some c) => ltac:(discriminate H))) as H.
      destruct (bs s [] l1) as [l2|e|]; [apply H| |]; destruct H as (b & x & H); exists s, b, x; auto. }
    destruct (match wd_schema d with Some s => bs s [] l1 | None => Ok l1 end) as [l2|e|]; cbn [bind].
    2:{ destruct Hs as (s & b & x & E & Hb & H). left. exists s, b, x. auto. }
    2:{ destruct Hs as (s & b & x & E & Hb & H). exists s, b, x. auto. }
    assert (Hi2 : incl l2 l1). { destruct (wd_schema d); [|subst; apply incl_refl]. intros x Hx. eapply selects_in in Hs; [apply Hs|exact Hx]. }
    assert (Hc : match by_constraints B o jp_parse validate rfc3339 order (wd_cons d) l2 with
      | Ok l3 => match wd_cons d with None => l3 = l2 | Some w => selects (fun b => holds jp_parse validate rfc3339 order w (o b)) l2 l3 end
      | Err e => exists w b doc f, wd_cons d = Some w /\ In b l2 /\ c_src (o b) = Some doc /\ In f (cs_fields (wc_base w)) /\
          forall p, In p (fd_paths f) -> malformed jp_parse order (c_jwt (o b)) doc p
      | Panic => False end).
    { unfold by_constraints. destruct (wd_cons d) as [w|]; [|reflexivity]. destruct Hp as [Hp1 Hp2]. pose proof (by_constraints_spec (wc_base w) l2 Hp1 Hp2) as H.
      destruct (bc (wc_base w) l2); [exact H| |exact H]. destruct H as (b & doc & f & H). exists w, b, doc, f. auto. }
    destruct (by_constraints B o jp_parse validate rfc3339 order (wd_cons d) l2) as [l3|e|]; cbn [bind].
    - exists l1, l2. auto.
    - right. destruct Hc as (w & b & doc & f & E & Hb & H). exists w, b, doc, f. auto.
    - destruct Hc.
  Qed.
  Lemma matching_det (look : B -> cred) pd d l f1 l1 f2 l2 :
    matching ctx load type_ids jp_parse validate rfc3339 order look pd d l f1 l1 ->
    matching ctx load type_ids jp_parse validate rfc3339 order look pd d l f2 l2 -> f1 = f2 /\ l1 = l2.
  Proof.
    intros (a & b & Hf & Hs & Hc) (a' & b' & Hf' & Hs' & Hc').
    assert (f1 = f2 /\ a = a') as [-> ->].
    { destruct Hf as [(F & -> & ->)|(f & F & Ff)], Hf' as [(F' & -> & ->)|(f' & F' & Ff')]; pose proof (formats_of_det _ _ _ _ F F') as E; try discriminate; auto.
      injection E as ->. eapply first_of_det; eassumption. }
    split; [reflexivity|]. assert (b = b') as -> by (destruct (wd_schema d); [eapply selects_det; eassumption|congruence]).
    destruct (wd_cons d); [eapply selects_det; eassumption|congruence].
  Qed.
End Filters.
