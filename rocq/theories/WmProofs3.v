(** Proofs about MatchSubmissionRequirement: one descriptor, with and without limiting the disclosure. *)
From Verif Require Import GoBase StatusModel StatusProofs PexSpec ReqSpec ReqModel PexModel PexProofs VcModel VcView WmModel WmSpec WmProofs WmProofs2.

Lemma selects_map {X Y} (g : X -> Y) (P : Y -> Prop) l l' : selects (fun x => P (g x)) l l' -> selects P (map g l) (map g l').
Proof. induction 1; cbn [map]; [constructor|now apply sel_yes|now apply sel_no]. Qed.
Lemma first_of_map {X Y} (g : X -> Y) l (ps : list (string * (Y -> Prop))) fmt l' :
  first_of l (map (fun np => (fst np, fun x => snd np (g x))) ps) fmt l' -> first_of (map g l) ps fmt (map g l').
Proof.
  revert fmt l'. induction ps as [|[n P] ps IH]; cbn [map fst snd]; intros fmt l' H; inversion H as [|? ? ? ? Hs Hne|? ? ? ? ? Hs H']; subst.
  - constructor.
  - apply fi_here; [exact (selects_map g P _ _ Hs)|]. intros E. apply Hne. destruct l'; [reflexivity|discriminate].
  - apply fi_next; [exact (selects_map g P _ _ Hs)|]. now apply IH.
Qed.
Lemma matching_map ctx load type_ids jp_parse validate rfc3339 order {X Y} (g : X -> Y) (o : Y -> cred) pd d l fmt l' :
  matching ctx load type_ids jp_parse validate rfc3339 order (fun x => o (g x)) pd d l fmt l' ->
  matching ctx load type_ids jp_parse validate rfc3339 order o pd d (map g l) fmt (map g l').
Proof.
  intros (l1 & l2 & Hf & Hs & Hc). exists (map g l1), (map g l2). split; [|split].
  - destruct Hf as [(F & -> & ->)|(f & F & Ff)]; [now left|]. right. exists f. split; [assumption|]. apply (first_of_map g). rewrite map_map. exact Ff.
  - destruct (wd_schema d) as [s|]; [exact (selects_map g (fun y => schemas_ok ctx load type_ids s (o y)) _ _ Hs)|now subst].
  - destruct (wd_cons d) as [w|]; [exact (selects_map g (fun y => holds jp_parse validate rfc3339 order w (o y)) _ _ Hc)|now subst].
Qed.

Section Maps.
  Variables X Y : Type.
  Variable g : X -> Y.
  Variable o : Y -> cred.
  Lemma filter_map' (p : Y -> bool) l : filter p (map g l) = map g (filter (fun x => p (g x)) l).
  Proof. induction l as [|a l IH]; [reflexivity|]. cbn [map filter]. destruct (p (g a)); cbn [map]; now rewrite IH. Qed.
  Lemma is_nil_map {U V} (f : U -> V) l : is_nil (map f l) = is_nil l.
  Proof. now destruct l. Qed.
  Lemma by_format_map f l : by_format Y o f (map g l) = (fst (by_format X (fun x => o (g x)) f l), map g (snd (by_format X (fun x => o (g x)) f l))).
  Proof.
    unfold by_format. rewrite !filter_map', !is_nil_map. repeat match goal with |- context [if ?b then _ else _] => lazymatch b with negb _ => destruct b end end; reflexivity.
  Qed.
  Variable ctx : Type.
  Variable load : string -> res ctx.
  Variable type_ids : ctx -> string -> option (list string).
  Variable jp_parse : string -> option (json -> list json).
  Variable validate : jschema -> json -> bool.
  Variable rfc3339 : string -> option Z.
  Variable order : list (string * string).
  Lemma by_schema_map s l : forall cache, by_schema Y o ctx load type_ids s cache (map g l) = rmap (map g) (by_schema X (fun x => o (g x)) ctx load type_ids s cache l).
  Proof.
    induction l as [|a l IH]; intros cache; cbn [map by_schema]; [reflexivity|]. destruct (satisfied_ids _ _ _ _ _ _) as [p|e|]; cbn [bind rmap]; [|reflexivity|reflexivity].
    rewrite IH. destruct (by_schema X _ _ _ _ _ _ _) as [r|e|]; cbn [bind rmap]; [|reflexivity|reflexivity]. now destruct (schemas_applicable _ _ _).
  Qed.
  Lemma by_constraints_map c l : by_constraints Y o jp_parse validate rfc3339 order c (map g l) = rmap (map g) (by_constraints X (fun x => o (g x)) jp_parse validate rfc3339 order c l).
  Proof.
    destruct c as [w|]; [|reflexivity]. cbn [by_constraints]. induction l as [|a l IH]; cbn [map by_constraints_loop]; [reflexivity|].
    destruct (cs_subject_is_issuer (wc_base w) && negb (subject_is_issuer (o (g a))))%bool; [exact IH|]. destruct (c_src (o (g a))) as [doc|]; [|exact IH].
    destruct (fields_applicable _ _ _ _ _ _ _ _) as [b|e|]; cbn [bind rmap]; [|reflexivity|reflexivity]. rewrite IH.
    destruct (by_constraints_loop X _ _ _ _ _ _ _) as [r|e|]; cbn [bind rmap]; [|reflexivity|reflexivity]. now destruct b.
  Qed.
  Lemma that_match_map pd d l : that_match Y o ctx load type_ids jp_parse validate rfc3339 order pd d (map g l) =
    rmap (fun p => (fst p, map g (snd p))) (that_match X (fun x => o (g x)) ctx load type_ids jp_parse validate rfc3339 order pd d l).
  Proof.
    unfold that_match.
    set (format := if not_nil (wd_format d) then wd_format d else wp_format pd).
    set (p := match format with Some w => if not_nil format then by_format Y o (wf_six w) (map g l) else ("", map g l) | None => ("", map g l) end).
    set (q := match format with Some w => if not_nil format then by_format X (fun x => o (g x)) (wf_six w) l else ("", l) | None => ("", l) end).
    assert (Hpq : p = (fst q, map g (snd q))).
    { subst p q. destruct format as [w|]; [|reflexivity]. destruct (not_nil (Some w)); [apply by_format_map|reflexivity]. }
    cbv zeta. rewrite Hpq. cbn [fst snd]. destruct (wd_schema d) as [s|].
    - rewrite by_schema_map. destruct (by_schema X _ _ _ _ _ _ _) as [l2|e|]; cbn [bind rmap]; [|reflexivity|reflexivity].
      rewrite by_constraints_map. now destruct (by_constraints X _ _ _ _ _ _ _).
    - cbn [bind]. rewrite by_constraints_map. now destruct (by_constraints X _ _ _ _ _ _ _).
  Qed.
End Maps.

Section Desc.
  Variable A : Type.
  Variable obs : A -> cred.
  Variable none : A.
  Variable valid : wdef -> res unit.
  Variable frame : gomap json -> A -> res A.
  Variable limit : wcons -> A -> res (limited A).
  Variable idof : A -> string.
  Variable ctx : Type.
  Variable load : string -> res ctx.
  Variable type_ids : ctx -> string -> option (list string).
  Variable jp_parse : string -> option (json -> list json).
  Variable validate : jschema -> json -> bool.
  Variable rfc3339 : string -> option Z.
  Variable order : list (string * string).
  Notation md := (match_desc A obs none frame limit idof ctx load type_ids jp_parse validate rfc3339 order).
  Notation mrs := (match_reqs A obs none frame limit idof ctx load type_ids jp_parse validate rfc3339 order).
  Notation ms := (match_submission A obs none valid frame limit idof ctx load type_ids jp_parse validate rfc3339 order).
  Notation mat := (matching ctx load type_ids jp_parse validate rfc3339 order).
  Notation at_ := (at_ptr A none).
  Variable pd : wdef.
  Hypothesis plain : plain_def pd.
  Variable creds : list A.
  Notation wallet := (seq 0 (List.length creds)).

  (** ** without limiting *)
  Definition M0 (d : wdesc) (l : list nat) : Prop := exists fmt, mat (fun p => obs (at_ creds p)) pd d wallet fmt l.
  Lemma step0 h d h' m : In d (wp_descs pd) -> h = creds -> md pd false wallet h d = Ok (h', m) -> h' = creds /\ ext h h' /\ described M0 d m.
  Proof.
    intros Hd -> H. unfold match_desc in H. cbn [bind fst snd] in H. apply bind_ok in H as ([fmt l] & Hf & H). cbn [bind fst snd] in H. injection H as <- <-.
    split; [reflexivity|]. split; [apply ext_refl|]. unfold described. cbn [md_id md_name md_purpose md_cons md_schema md_vcs]. repeat (split; [reflexivity|]).
    pose proof (that_match_spec nat (fun p => obs (at_ creds p)) ctx load type_ids jp_parse validate rfc3339 order pd d wallet (plain d Hd)) as S.
    unfold found in Hf. rewrite Hf in S. exists fmt. exact S.
  Qed.
  Lemma submission0 h ts : ms pd false creds = Ok (h, ts) -> h = creds /\ valid pd = Ok tt /\ answers pd M0 ts.
  Proof.
    unfold match_submission. intros H. apply bind_ok in H as ([] & Hv & H). apply bind_ok in H as (rs & Hr & H).
    destruct (all_ok A obs none frame limit idof ctx load type_ids jp_parse validate rfc3339 order pd false wallet (fun h => h = creds) (fun _ => M0)
      (fun h d h' m => step0 h d h' m) (fun h h' d l _ H => H) creds h rs ts Hr eq_refl H) as (V & _ & D). auto.
  Qed.
  Lemma at_wallet p : In p wallet -> In (at_ creds p) creds.
  Proof. intros H. apply in_seq in H. apply nth_In. lia. Qed.
  Lemma fails_map d e : filter_fails nat (fun p => obs (at_ creds p)) ctx load jp_parse order d wallet e -> filter_fails A obs ctx load jp_parse order d creds e.
  Proof.
    intros [(s & p & x & H1 & H2 & H3)|(w & p & doc & f & H1 & H2 & H3)]; [left; exists s, (at_ creds p), x|right; exists w, (at_ creds p), doc, f]; (split; [assumption|]; split; [now apply at_wallet|assumption]).
  Qed.
  Lemma submission0_err e : ms pd false creds = Err e -> valid pd = Err e \/ (e = "no descriptors for from" /\ exists s, In s (wp_reqs pd) /\ empty_group (wp_descs pd) s)
    \/ exists d, In d (wp_descs pd) /\ filter_fails A obs ctx load jp_parse order d creds e.
  Proof.
    unfold match_submission. intros H. apply bind_err in H as [H|([] & Hv & H)]; [now left|]. apply bind_err in H as [H|(rs & Hr & H)].
    - right. left. unfold requirements_for_match in H. destruct (wp_reqs pd) as [|s0 ss0] eqn:Er; [discriminate|]. rewrite <- Er in H |- *. clear Er.
      assert (G : forall l, map_res (to_wreq (wp_descs pd)) l = Err e -> e = "no descriptors for from" /\ exists s, In s l /\ empty_group (wp_descs pd) s).
      { induction l as [|s ss IH]; cbn [map_res]; [discriminate|]. intros He. apply bind_err in He as [He|(r & _ & He)]; [apply to_wreq_err in He as [-> Hg]; split; [reflexivity|]; exists s; split; [now left|assumption]|].
        apply bind_err in He as [He|(r2 & _ & He)]; [|discriminate]. destruct (IH He) as [-> (s' & Hin & Hg)]. split; [reflexivity|]. exists s'. split; [now right|assumption]. }
      destruct (G (wp_reqs pd) H) as [-> Hg]. split; [reflexivity|]. exact Hg.
    - right. right.
      destruct (reqs_bad A obs none frame limit idof ctx load type_ids jp_parse validate rfc3339 order pd false wallet (fun h => h = creds) (fun _ => M0)
        (fun h d h' m => step0 h d h' m) (fun h h' d l _ H => H) (fun X r => r = Err e) (fun X Y r f => bind_err r f e) (fun X a H => ltac:(discriminate H)) creds rs Hr eq_refl H) as (d & h & Hd & -> & He).
      exists d. split; [assumption|]. unfold match_desc in He. cbn [bind fst snd] in He. apply bind_err in He as [He|([fmt l] & _ & He)]; [|discriminate].
      pose proof (that_match_spec nat (fun p => obs (at_ creds p)) ctx load type_ids jp_parse validate rfc3339 order pd d wallet (plain d Hd)) as S.
      unfold found in He. rewrite He in S. now apply fails_map.
  Qed.
  Lemma submission0_np : (forall x, load x <> Panic) -> valid pd <> Panic -> ms pd false creds <> Panic.
  Proof.
    intros Hl Hv H. unfold match_submission in H. apply bind_panic in H as [H|([] & _ & H)]; [contradiction|]. apply bind_panic in H as [H|(rs & Hr & H)].
    - unfold requirements_for_match in H. destruct (wp_reqs pd) as [|s0 ss0]; [discriminate|]. revert H. generalize (s0 :: ss0).
      induction l as [|s ss IH]; cbn [map_res]; [discriminate|]. intros He. apply bind_panic in He as [He|(r & _ & He)]; [now apply to_wreq_np in He|].
      apply bind_panic in He as [He|(r2 & _ & He)]; [now apply IH|discriminate].
    - destruct (reqs_bad A obs none frame limit idof ctx load type_ids jp_parse validate rfc3339 order pd false wallet (fun h => h = creds) (fun _ => M0)
        (fun h d h' m => step0 h d h' m) (fun h h' d l _ H => H) (fun X r => r = Panic) (fun X Y r f => bind_panic r f) (fun X a H => ltac:(discriminate H)) creds rs Hr eq_refl H) as (d & h & Hd & -> & He).
      unfold match_desc in He. cbn [bind fst snd] in He. apply bind_panic in He as [He|([fmt l] & _ & He)]; [|discriminate].
      pose proof (that_match_spec nat (fun p => obs (at_ creds p)) ctx load type_ids jp_parse validate rfc3339 order pd d wallet (plain d Hd)) as S.
      unfold found in He. rewrite He in S. destruct S as (s & p & x & _ & _ & _ & Hx). now apply Hl in Hx.
  Qed.

  (** ** limiting, when no credential is changed *)
  Definition in_range (h : list A) (l : list nat) : Prop := forall p, In p l -> (p < List.length h)%nat.
  Lemma at_ext h h' p : ext h h' -> (p < List.length h)%nat -> at_ h' p = at_ h p.
  Proof. intros [t ->] Hp. unfold at_ptr. now apply app_nth1. Qed.
  Lemma map_at_ext h h' l : ext h h' -> in_range h l -> map (at_ h') l = map (at_ h) l.
  Proof. intros He Hl. apply map_ext_in. intros p Hp. apply at_ext; auto. Qed.
  Lemma in_range_ext h h' l : ext h h' -> in_range h l -> in_range h' l.
  Proof. intros [t ->] Hl p Hp. rewrite app_length. specialize (Hl p Hp). lia. Qed.
  Lemma map_at_seq h : map (at_ h) (seq 0 (List.length h)) = h.
  Proof.
    unfold at_ptr. induction h as [|a h IH]; [reflexivity|]. cbn [List.length seq map nth]. f_equal. rewrite <- seq_shift, map_map. exact IH.
  Qed.
  Lemma map_at_app h t : map (at_ (h ++ t)%list) (seq (List.length h) (List.length t)) = t.
  Proof.
    unfold at_ptr. etransitivity; [|exact (map_at_seq t)]. unfold at_ptr. rewrite <- (Nat.add_0_r (List.length h)) at 1.
    assert (G : forall n s, map (fun p => nth p (h ++ t)%list none) (seq (List.length h + s) n) = map (fun p => nth p t none) (seq s n)).
    { induction n as [|n IH]; intros s; [reflexivity|]. cbn [seq map]. f_equal; [rewrite app_nth2_plus; reflexivity|]. rewrite <- (IH (Datatypes.S s)). now rewrite Nat.add_succ_r. }
    apply G.
  Qed.
  Lemma limit_all_ok c : forall l h h' r, in_range h l ->
    (forall w a id b, c = Some w -> In a (map (at_ h) l) -> limit w a <> Ok (LChange id b)) ->
    limit_all A none limit idof c h l = Ok (h', r) ->
    ext h h' /\ in_range h' (map snd r) /\ exists outs, Forall2 (handed limit c) (map (at_ h) l) outs /\ map (at_ h') (map snd r) = List.concat outs /\
      exists louts, map_res (limit_pure A limit idof c) (map (at_ h) l) = Ok louts /\ outs = map (map snd) louts.
  Proof.
    induction l as [|p l IH]; intros h h' r Hr Hq H; cbn [limit_all] in H.
    - injection H as <- <-. split; [apply ext_refl|]. split; [intros ? []|]. exists []. split; [constructor|]. split; [reflexivity|]. exists []. now split.
    - assert (Hp : (p < List.length h)%nat) by (apply Hr; now left). assert (Hl : in_range h l) by (intros q Hq'; apply Hr; now right).
      assert (Hq' : forall w a id b, c = Some w -> In a (map (at_ h) l) -> limit w a <> Ok (LChange id b)) by (intros w a id b Hc Hin; apply Hq; [assumption|now right]).
      apply bind_ok in H as (x & Hx & H).
      assert (Same : forall id, x = LSame id -> handed limit c (at_ h p) [at_ h p]).
      { intros id ->. destruct c as [w|]; [|apply ha_none]. eapply ha_same; exact Hx. }
      assert (Pure : limit_pure A limit idof c (at_ h p) = Ok match x with LDrop => [] | LSame id => [(id, at_ h p)] | LNew id b | LChange id b => [(id, b)] end).
      { unfold limit_pure. destruct c as [w|]; [rewrite Hx; reflexivity|]. injection Hx as <-. reflexivity. }
      assert (More : forall outs louts, map_res (limit_pure A limit idof c) (map (at_ h) l) = Ok louts -> outs = map (map snd) louts ->
        exists louts', map_res (limit_pure A limit idof c) (map (at_ h) (p :: l)) = Ok louts' /\
          map snd match x with LDrop => [] | LSame id => [(id, at_ h p)] | LNew id b | LChange id b => [(id, b)] end :: outs = map (map snd) louts').
      { intros outs louts E1 ->. eexists. split; [cbn [map map_res]; rewrite Pure; cbn [bind]; rewrite E1; cbn [bind]; reflexivity|reflexivity]. }
      destruct x as [|id|id a|id a].
      + destruct (IH _ _ _ Hl Hq' H) as (E & R & outs & F & C & louts & L1 & L2). split; [assumption|]. split; [assumption|]. exists ([] :: outs). split; [|split; [assumption|now apply (More outs louts)]].
        cbn [map]. constructor; [|assumption]. destruct c as [w|]; [now apply ha_drop|discriminate].
      + apply bind_ok in H as ([h1 r1] & H1 & H). injection H as <- <-. cbn [fst snd] in *. destruct (IH _ _ _ Hl Hq' H1) as (E & R & outs & F & C & louts & L1 & L2).
        split; [assumption|]. split; [intros q [<-|Hin]; [eapply (in_range_ext h h1 [p] E); [intros q [<-|[]]; assumption|now left]|now apply R]|].
        exists ([at_ h p] :: outs). split; [cbn [map]; constructor; [eauto|assumption]|]. split; [|now apply (More outs louts)].
        cbn [map List.concat app snd]. rewrite C. now rewrite (at_ext h h1 p E Hp).
      + apply bind_ok in H as ([h1 r1] & H1 & H). injection H as <- <-. cbn [fst snd] in *.
        assert (E0 : ext h (h ++ [a])%list) by (now exists [a]).
        assert (Eq : map (at_ (h ++ [a])%list) l = map (at_ h) l) by (now apply map_at_ext).
        destruct (IH (h ++ [a])%list h1 r1) as (E & R & outs & F & C & louts & L1 & L2); [now apply (in_range_ext h)|rewrite Eq; exact Hq'|assumption|].
        rewrite Eq in F, L1. split; [eapply ext_trans; eassumption|].
        assert (Hn : (List.length h < List.length (h ++ [a]))%nat) by (rewrite app_length; cbn; lia).
        split; [intros q [<-|Hin]; [destruct E as [t ->]; clear - Hn; cbn [snd]; rewrite app_length; lia|now apply R]|].
        exists ([a] :: outs). split.
        { cbn [map]. constructor; [|assumption]. destruct c as [w|]; [eapply ha_new; exact Hx|discriminate]. }
        split; [|now apply (More outs louts)]. cbn [map List.concat app snd]. rewrite C, (at_ext _ h1 _ E Hn). unfold at_ptr. now rewrite nth_middle.
      + exfalso. destruct c as [w|]; [|discriminate]. eapply Hq; [reflexivity|now left|exact Hx].
  Qed.
  Lemma frame_all_ok h h1 l1 : ext creds h -> frame_all A none frame (wp_frame pd) h wallet = Ok (h1, l1) ->
    ext h h1 /\ in_range h1 l1 /\ framed frame (wp_frame pd) creds (map (at_ h1) l1) /\ framed_creds A frame (wp_frame pd) creds = Ok (map (at_ h1) l1).
  Proof.
    intros He. unfold frame_all. assert (Hw : in_range creds wallet) by (intros p Hp; apply in_seq in Hp; lia).
    assert (Ec : map (at_ h) wallet = creds) by (rewrite (map_at_ext creds h wallet He Hw); apply map_at_seq).
    destruct (wp_frame pd) as [f|].
    - intros H. apply bind_ok in H as (new & Hn & H). injection H as <- <-. split; [now exists new|]. split.
      + intros p Hp. apply in_seq in Hp. rewrite app_length. lia.
      + rewrite map_at_app. split; [|cbn [framed_creds]; rewrite <- Ec; clear - Hn; revert new Hn; induction wallet as [|p l IH]; intros new Hn; cbn [map map_res] in *;
          [assumption|apply bind_ok in Hn as (x & -> & Hn); apply bind_ok in Hn as (y & Hy & Hn); rewrite (IH _ Hy); exact Hn]].
        apply fr_some. apply map_res_forall2 in Hn.
        assert (G : forall l n, Forall2 (fun p b => frame f (at_ h p) = Ok b) l n -> Forall2 (fun a b => frame f a = Ok b) (map (at_ h) l) n).
        { clear. intros l n HF. induction HF; constructor; assumption. }
        rewrite <- Ec at 1. now apply G.
    - intros [= <- <-]. split; [apply ext_refl|]. split; [now apply (in_range_ext creds)|]. rewrite Ec. split; [constructor|reflexivity].
  Qed.
  (** no credential is changed in place (no SD-JWT credential is limited) *)
  Definition quiet : Prop := forall d w a fr id b, In d (wp_descs pd) -> wd_cons d = Some w -> framed frame (wp_frame pd) creds fr -> In a fr ->
    limit w a <> Ok (LChange id b).
  Hypothesis Hquiet : quiet.
  (** the credentials listed for a descriptor: what limiting makes of the (framed) credentials that match *)
  Definition M1 (h : list A) (d : wdesc) (l : list nat) : Prop := in_range h l /\
    exists fr fmt kept outs, framed frame (wp_frame pd) creds fr /\ mat obs pd d fr fmt kept /\ Forall2 (handed limit (wd_cons d)) kept outs /\ map (at_ h) l = List.concat outs /\
      framed_creds A frame (wp_frame pd) creds = Ok fr /\
      exists subs, eval_desc A obs limit idof ctx load type_ids jp_parse validate rfc3339 order pd fr d = Ok (fmt, subs) /\ map snd subs = map (at_ h) l.
  Lemma M1_mono h h' d l : ext h h' -> M1 h d l -> M1 h' d l.
  Proof. intros He (R & fr & fmt & kept & outs & F & Hm & Ho & E & X). split; [eapply in_range_ext; eassumption|]. exists fr, fmt, kept, outs. rewrite (map_at_ext h h' l He R). auto 6. Qed.
  Lemma matching_in {X} (o : X -> cred) d l fmt l' : mat o pd d l fmt l' -> incl l' l.
  Proof.
    intros (l1 & l2 & Hf & Hs & Hc) x Hx.
    assert (H2 : In x l2) by (destruct (wd_cons d); [eapply selects_in in Hc; [apply Hc|exact Hx]|now subst]).
    assert (H1 : In x l1) by (destruct (wd_schema d); [eapply selects_in in Hs; [apply Hs|exact H2]|now subst]).
    destruct Hf as [(_ & _ & ->)|(f & _ & Hf)]; [assumption|]. eapply first_of_in; eassumption.
  Qed.
  Lemma step1 h d h' m : In d (wp_descs pd) -> ext creds h -> md pd true wallet h d = Ok (h', m) -> ext creds h' /\ ext h h' /\ described (M1 h') d m.
  Proof.
    intros Hd He H. unfold match_desc in H. apply bind_ok in H as ([h1 l1] & Hf & H). cbn [fst snd] in H. apply bind_ok in H as ([fmt l2] & Hg & H). cbn [fst snd] in H.
    apply bind_ok in H as ([h2 l3] & Hl & H). cbn [fst snd] in H. injection H as <- <-. apply bind_ok in Hl as ([h2' r] & Hl & H'). injection H' as <- <-. cbn [fst snd] in *.
    apply frame_all_ok in Hf as (E1 & R1 & F1 & F2); [|assumption].
    pose proof (that_match_spec nat (fun p => obs (at_ h1 p)) ctx load type_ids jp_parse validate rfc3339 order pd d l1 (plain d Hd)) as S.
    unfold found in Hg. rewrite Hg in S. pose proof (matching_in _ _ _ _ _ S) as Hi. apply matching_map in S.
    apply limit_all_ok in Hl as (E2 & R2 & outs & Ho & Hc & louts & L1 & L2).
    - split; [eapply ext_trans; [exact He|]; eapply ext_trans; eassumption|]. split; [eapply ext_trans; eassumption|].
      unfold described. cbn [md_id md_name md_purpose md_cons md_schema md_vcs]. repeat (split; [reflexivity|]). split; [assumption|].
      exists (map (at_ h1) l1), fmt, (map (at_ h1) l2), outs. repeat (split; [assumption|]).
      exists (List.concat louts). unfold eval_desc, found_creds. rewrite that_match_map. rewrite Hg. cbn [rmap bind fst snd]. rewrite L1. split; [reflexivity|]. now rewrite Hc, L2, concat_map.
    - intros p Hp. apply R1. now apply Hi.
    - intros w a id b Hw Hin. eapply Hquiet; [exact Hd|exact Hw|exact F1|]. apply in_map_iff in Hin as (p & <- & Hp). apply in_map. now apply Hi.
  Qed.
  Lemma submission1 h ts : ms pd true creds = Ok (h, ts) -> ext creds h /\ valid pd = Ok tt /\ answers pd (M1 h) ts.
  Proof.
    unfold match_submission. intros H. apply bind_ok in H as ([] & Hv & H). apply bind_ok in H as (rs & Hr & H).
    destruct (all_ok A obs none frame limit idof ctx load type_ids jp_parse validate rfc3339 order pd true wallet (fun h => ext creds h) M1
      step1 M1_mono creds h rs ts Hr (ext_refl creds) H) as (V & _ & D). auto.
  Qed.
End Desc.
