From Coq Require Import ZifyN ZifyNat.
From Verif Require Import GoBase StatusModel JwtModel PexSpec ReqSpec ReqModel ReqSearch PexModel StrLemmas PexProofs PexMerge PexMatch PexProps VcModel VcParse VpModel
  WmModel WmSpec WmProofs WmProofs2 WmProofs3 WmProofs4 WmProofs5 MtModel MtSpec MtProofs MtProofs2.

Section Table.
  Variable valid : wdef -> res unit.
  Variable frame : gomap json -> cred -> res cred.
  Variable limit : wcons -> cred -> res (limited cred).
  Variable ctx : Type.
  Variable load : string -> res ctx.
  Variable type_ids : ctx -> string -> option (list string).
  Variable jp_parse : string -> option (json -> list json).
  Variable validate : jschema -> json -> bool.
  Variable rfc3339 : string -> option Z.
  Variable order : list (string * string).
  Notation me := (fun c : cred => c).
  Notation ed pd := (eval_desc cred me limit c_id ctx load type_ids jp_parse validate rfc3339 order pd).
  Notation rs := (real_schema ctx load type_ids).
  Notation rc := (real_constraints jp_parse validate rfc3339 order).
  Lemma schema_one s l l' c : by_schema cred me ctx load type_ids s [] l = Ok l' -> In c l' -> rs s [c] = Ok [c].
  Proof.
    intros H Hc. assert (N : cache_ok ctx load []) by (intros x y; discriminate).
    pose proof (by_schema_spec cred me ctx load type_ids s l [] N) as S. rewrite H in S. destruct S as [Hl Hs]. destruct (selects_in _ _ _ Hs c Hc) as [Hin Hok].
    pose proof (filter_schema_loop_spec ctx load type_ids s [c] [] N) as T. unfold real_schema, filter_schema.
    destruct (filter_schema_loop ctx load type_ids s [] [c]) as [k|e|].
    - destruct T as [_ T]. inversion T as [|x a b Hx Hr|x a b Hx Hr]; subst; [inversion Hr; subst; reflexivity|contradiction].
    - destruct T as (c' & x & [<-|[]] & Hx & E). destruct (Hl c x Hin Hx) as (cx & Ecx). congruence.
    - destruct T as (c' & x & [<-|[]] & Hx & E). destruct (Hl c x Hin Hx) as (cx & Ecx). congruence.
  Qed.
  Lemma constraints_one w l : forall l' c, by_constraints cred me jp_parse validate rfc3339 order w l = Ok l' -> In c l' -> rc (option_map wc_base w) [c] = Ok [c].
  Proof.
    destruct w as [w|]; [|reflexivity]. cbn [by_constraints option_map]. unfold real_constraints, filter_constraints.
    induction l as [|b l IH]; intros l' c H Hc; cbn [by_constraints_loop] in H; [injection H as <-; destruct Hc|].
    destruct (cs_subject_is_issuer (wc_base w) && negb (subject_is_issuer b))%bool eqn:E1; [eauto|].
    destruct (c_src b) as [doc|] eqn:E2; [|eauto]. apply bind_ok in H as (ok & E3 & H). apply bind_ok in H as (r & E4 & H). injection H as <-.
    destruct ok; [|eauto]. destruct Hc as [<-|Hc]; [|eauto]. cbn [filter_constraints_loop]. rewrite E1, E2, E3. reflexivity.
  Qed.
  Lemma found_one pd d l fm l' c : found_creds cred me ctx load type_ids jp_parse validate rfc3339 order pd d l = Ok (fm, l') -> In c l' ->
    (forall s, wd_schema d = Some s -> rs s [c] = Ok [c]) /\ rc (option_map wc_base (wd_cons d)) [c] = Ok [c].
  Proof.
    unfold found_creds, that_match. set (p := match _ with Some w => _ | None => ("", l) end). clearbody p. intros H Hc.
    apply bind_ok in H as (l2 & H2 & H). apply bind_ok in H as (l3 & H3 & H). injection H as _ <-. split; [|eapply constraints_one; eauto].
    intros s Es. rewrite Es in H2. assert (In c l2); [|eapply schema_one; eauto].
    clear - H3 Hc. revert l3 H3 Hc. destruct (wd_cons d) as [w|]; cbn [by_constraints]; [|intros l3 [= ->]; auto].
    induction l2 as [|b l2 IH]; intros l3 H Hc; cbn [by_constraints_loop] in H; [injection H as <-; destruct Hc|].
    destruct (_ && _)%bool; [right; eauto|]. destruct (c_src b); [|right; eauto]. apply bind_ok in H as (ok & _ & H). apply bind_ok in H as (r & Hr & H). injection H as <-.
    destruct ok; [destruct Hc as [<-|Hc]; [now left|right; eauto]|right; eauto].
  Qed.
  Lemma found_in pd d l fm l' : plain_cons (wd_cons d) -> found_creds cred me ctx load type_ids jp_parse validate rfc3339 order pd d l = Ok (fm, l') -> incl l' l.
  Proof.
    intros Hp H. pose proof (that_match_spec cred me ctx load type_ids jp_parse validate rfc3339 order pd d l Hp) as S. unfold found_creds in H. rewrite H in S.
    pose proof (matching_in ctx load type_ids jp_parse validate rfc3339 order pd _ _ _ _ _ S) as Hi. exact Hi.
  Qed.
  (** nothing is limited *)
  Lemma eval_plain pd l d fm subs : (forall w c, wd_cons d = Some w -> In c l -> limit w c = Ok (LSame (c_id c))) -> plain_cons (wd_cons d) -> ed pd l d = Ok (fm, subs) ->
    exists kept, found_creds cred me ctx load type_ids jp_parse validate rfc3339 order pd d l = Ok (fm, kept) /\ subs = map (fun c => (c_id c, c)) kept /\ incl kept l.
  Proof.
    intros Hlim Hp H. unfold eval_desc in H. apply bind_ok in H as ([f kept] & Hf & H). apply bind_ok in H as (cs & Hcs & H). injection H as -> <-. cbn [fst snd] in *.
    pose proof (found_in pd d l fm kept Hp Hf) as Hi. exists kept. split; [assumption|]. split; [|assumption].
    clear Hf. revert cs Hcs. induction kept as [|c kept IH]; intros cs H; cbn [map_res] in H; [injection H as <-; reflexivity|].
    apply bind_ok in H as (x & Hx & H). apply bind_ok in H as (xs & Hxs & H). injection H as <-. cbn [List.concat map].
    assert (E : x = [(c_id c, c)]).
    { unfold limit_pure in Hx. destruct (wd_cons d) as [w|]; [|injection Hx as <-; reflexivity]. rewrite (Hlim w c eq_refl) in Hx by (apply Hi; now left). cbn in Hx. injection Hx as <-. reflexivity. }
    rewrite E. cbn [app]. f_equal. apply IH; [|assumption]. intros y Hy. apply Hi. now right.
  Qed.
  Lemma data_table pd sep fmt creds cs maps disable :
    plain_def pd -> NoDup (map wd_id (wp_descs pd)) -> Forall plain_rule (wp_reqs pd) -> wp_frame pd = None ->
    (forall d w c, In d (wp_descs pd) -> wd_cons d = Some w -> In c creds -> limit w c = Ok (LSame (c_id c))) ->
    (forall c c', In c creds -> In c' creds -> c_id c = c_id c' -> c = c') ->
    (forall d, In d (wp_descs pd) -> (disable = true /\ forall c x, In c creds -> In x (c_contexts c) -> exists cx, load x = Ok cx) \/ exists s, wd_schema d = Some s) ->
    presentation_data valid frame limit ctx load type_ids jp_parse validate rfc3339 order pd sep fmt creds = Ok (cs, maps) ->
    (wp_reqs pd = [] \/ forall d, In d (wp_descs pd) -> exists m, In m maps /\ m_id m = wd_id d) ->
    exists f table, merge f table sep = (cs, maps) /\ good_table rs rc disable (map match_desc_of (wp_descs pd)) table /\
      (forall c, In c cs -> In c creds).
  Proof.
    intros Hplain Hids Hplr Hnf Hlim Huid Hsch H Hcov. unfold presentation_data in H. apply bind_ok in H as (_ & _ & H). apply bind_ok in H as (r & Er & H).
    apply bind_ok in H as (l & El & H). rewrite Hnf in El. injection El as <-.
    set (ev := eval_id limit ctx load type_ids jp_parse validate rfc3339 order pd creds) in *.
    assert (Hn : NoDup (map id_id (map idesc_of (wp_descs pd)))) by (rewrite map_map; exact Hids).
    destruct (search_sem (string * cred) ev _ _ r fmt Hn (plain_rules (wp_reqs pd) Hplr) Er) as (out & Eout & Hout). rewrite Eout in H.
    destruct out as [[f t]|e|]; cbn [bind fst snd] in H; try discriminate. assert (Em : merge f (wrapped t) sep = (cs, maps)) by congruence. destruct Hout as (T & S1 & S2 & S3 & _).
    pose proof (apply_nodup _ _ _ _ _ _ _ Eout) as Nt.
    assert (Nw : NoDup (map fst (wrapped t))) by (unfold wrapped; rewrite map_map; exact Nt).
    assert (Wt : forall id lw, In (id, lw) (wrapped t) -> exists dd fm kept, In dd (wp_descs pd) /\ wd_id dd = id /\
      found_creds cred me ctx load type_ids jp_parse validate rfc3339 order pd dd creds = Ok (fm, kept) /\ incl kept creds /\ lw = map (fun c => {| cw_uid := c_id c; cw_vc := c |}) kept).
    { intros id lw Hin. unfold wrapped in Hin. apply in_map_iff in Hin as ([k v] & [= <- <-] & Hin). cbn [fst snd] in *.
      apply (mget_In_nodup _ _ _ Nt) in Hin. apply S3 in Hin as (_ & i & f' & I1 & I2 & I3). apply in_map_iff in I1 as (dd & <- & Hdd).
      unfold ev, eval_id in I3. rewrite desc_of_in in I3 by assumption.
      destruct (eval_plain pd creds dd f' v (fun w c Hw Hc => Hlim dd w c Hdd Hw Hc) (Hplain dd Hdd) I3) as (kept & K1 & -> & K3). exists dd, f', kept.
      repeat (split; [assumption|]). now rewrite map_map. }
    exists f, (wrapped t). split; [exact Em|]. destruct (merge_spec f (wrapped t) sep cs maps Nw Em) as (_ & G2 & G3 & G4 & _). split.
    - split; [exact Nw|]. split; [rewrite map_map; exact Hids|]. split; [|split].
      + intros d l cw d' l' cw' K1 K2 K3 K4 K5. destruct (Wt d l K1) as (? & ? & kept & _ & _ & _ & I1 & ->). destruct (Wt d' l' K3) as (? & ? & kept' & _ & _ & _ & I2 & ->).
        apply in_map_iff in K2 as (c & <- & Hc). apply in_map_iff in K4 as (c' & <- & Hc'). cbn in *. f_equal. apply Huid; auto.
      + intros d Hd. apply in_map_iff in Hd as (dd & <- & Hdd). destruct Hcov as [Hr|Hcov].
        * rewrite Hr in S1. cbn [map] in S1. destruct S1 as (_ & S1 & Met). cbn [definition_met] in Met. rewrite forallb_forall in Met. specialize (Met (idesc_of dd) (in_map _ _ _ Hdd)).
          apply str_in_In in Met. destruct (S1 _ Met) as (i & I1 & I2 & _ & f' & v & I3 & I4). cbn [idesc_of id_id] in *.
          exists (map (fun p => {| cw_uid := fst p; cw_vc := snd p |}) v). split; [|destruct v; [contradiction|discriminate]].
          unfold wrapped. apply in_map_iff. exists (wd_id dd, v). split; [reflexivity|]. apply mget_In. apply S3. split; [assumption|]. exists i, f'. auto.
        * destruct (Hcov dd Hdd) as (m & Hm & Hid). destruct (G3 m Hm) as (d0 & l0 & cw & i & _ & _ & _ & K1 & K2 & -> & _).
        assert (E : m_id (entry f sep d0 (cw_vc cw) i) = d0) by (unfold entry; now destruct sep). rewrite E in Hid. exists l0. cbn [match_desc_of d_id]. rewrite <- Hid.
        split; [assumption|]. intros ->. destruct K2.
      + intros id l cw K1 K2. destruct (Wt id l K1) as (dd & fm & kept & D1 & D2 & D3 & D4 & ->). apply in_map_iff in K2 as (c & <- & Hc). cbn [cw_vc].
        exists (match_desc_of dd). split; [now apply in_map|]. split; [assumption|]. destruct (found_one pd dd creds fm kept c D3 Hc) as [F1 F2]. cbn [match_desc_of d_schema d_constraints].
        split; [|exact F2]. destruct (wd_schema dd) as [s|] eqn:Es.
        * exists [c]. split; [now apply F1|left; discriminate].
        * destruct (Hsch dd D1) as [(-> & Hl)|(s & E)]; [|congruence]. assert (N : cache_ok ctx load []) by (intros x y; discriminate).
          pose proof (filter_schema_loop_spec ctx load type_ids [] [c] [] N) as X. unfold real_schema, filter_schema.
          destruct (filter_schema_loop ctx load type_ids [] [] [c]) as [k|e|]; [eauto| |]; destruct X as (c' & x & [<-|[]] & Hx & Ex); destruct (Hl c x (D4 c Hc) Hx); congruence.
    - intros c Hc. apply In_nth_error in Hc as (i & Hi). destruct (G4 i c Hi) as (d & l & cw & K1 & K2 & <-). destruct (Wt d l K1) as (? & ? & kept & _ & _ & _ & I1 & ->).
      apply in_map_iff in K2 as (c' & <- & Hc'). cbn. auto.
  Qed.
End Table.
