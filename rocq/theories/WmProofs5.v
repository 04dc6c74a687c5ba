(** The search behind CreateVP in terms of what MatchSubmissionRequirement answers. *)
From Verif Require Import GoBase StatusModel StatusProofs PexSpec ReqSpec ReqModel ReqSearch PexModel PexProofs PexMerge PexMatch VcModel VcView WmModel WmSpec WmProofs WmProofs2 WmProofs3 WmProofs4.

Section Nodup.
  Variable X : Type.
  Variable ev : idesc -> res (string * list X).
  Lemma collect_nodup m : forall sol fmt acc f t, NoDup (map fst acc) -> collect X m sol fmt acc = Ok (f, t) -> NoDup (map fst t).
  Proof.
    induction sol as [|d sol IH]; intros fmt acc f t Ha H; cbn [collect] in H; [injection H as <- <-; assumption|].
    destruct (mget m d) as [[f' cs]|]; [|discriminate]. eapply IH; [|exact H]. now apply mset_nodup.
  Qed.
  Lemma loop_nodup lk : forall fuel it st excl fmt f t, search_loop X ev fuel lk it st excl fmt = Some (Ok (f, t)) -> NoDup (map fst t).
  Proof.
    induction fuel as [|n IH]; intros it st excl fmt f t H; cbn [search_loop] in H; [discriminate|].
    destruct (iter_next it excl) as [[it' [|s sol]]|]; [discriminate| |discriminate].
    destruct (walk X ev lk st (s :: sol)) as [[st' [|l]]|e|]; [|now apply IH in H|discriminate|discriminate].
    assert (H' : collect X (se_matches X st') (s :: sol) fmt [] = Ok (f, t)) by congruence. eapply collect_nodup; [|exact H']. constructor.
  Qed.
  Lemma apply_nodup descs r fmt f t : apply_requirement X ev descs r fmt = Some (Ok (f, t)) -> NoDup (map fst t).
  Proof. unfold apply_requirement. destruct (new_iterator _ _); [apply loop_nodup|discriminate|discriminate]. Qed.
End Nodup.

Lemma desc_of_in pd d : NoDup (map wd_id (wp_descs pd)) -> In d (wp_descs pd) -> desc_of pd (idesc_of d) = Some d.
Proof.
  unfold desc_of. cbn [idesc_of id_id]. intros Hn Hd. destruct (find _ _) as [d'|] eqn:E.
  - apply find_some in E as [E1 E2]. apply String.eqb_eq in E2. f_equal. eapply NoDup_map_inj; eassumption.
  - apply (find_none _ _ E) in Hd. apply String.eqb_neq in Hd. congruence.
Qed.
Lemma limit_pure_named {A} (limit : wcons -> A -> res (limited A)) idof c a ps id b :
  (forall w id b, c = Some w -> limit w a <> Ok (LChange id b)) -> limit_pure A limit idof c a = Ok ps -> In (id, b) ps -> named limit idof c a id b.
Proof.
  intros Hq H Hin. destruct c as [w|]; cbn [limit_pure] in H.
  - apply bind_ok in H as (x & Hx & H). injection H as <-. destruct x as [|i|i y|i y]; [destruct Hin| | |exfalso; eapply Hq; [reflexivity|exact Hx]];
      destruct Hin as [[= <- <-]|[]]; [now apply na_same|now apply na_new].
  - injection H as <-. destruct Hin as [[= <- <-]|[]]. constructor.
Qed.

Lemma within_window c mn mx n : within c mn mx n = windowb c mn mx (Z.of_nat n).
Proof. unfold within, windowb. rewrite !Z.leb_antisym. reflexivity. Qed.
Lemma filter_map_length {A B} (g : A -> B) (f : B -> bool) l : List.length (filter f (map g l)) = List.length (filter (fun x => f (g x)) l).
Proof. induction l as [|a l IH]; cbn; [reflexivity|]. destruct (f (g a)); cbn; now rewrite IH. Qed.
Lemma filter_map {A B} (g : A -> B) (f : B -> bool) l : filter f (map g l) = map g (filter (fun x => f (g x)) l).
Proof. induction l as [|a l IH]; cbn; [reflexivity|]. destruct (f (g a)); cbn; now rewrite IH. Qed.
Lemma forallb_map {A B} (g : A -> B) (f : B -> bool) l : forallb f (map g l) = forallb (fun x => f (g x)) l.
Proof. induction l as [|a l IH]; cbn; [reflexivity|]. now rewrite IH. Qed.
Lemma forallb_ext' {A} (f g : A -> bool) l : Forall (fun x => f x = g x) l -> forallb f l = forallb g l.
Proof. induction 1 as [|a l H _ IH]; cbn; [reflexivity|]. now rewrite H, IH. Qed.
Lemma filter_ext' {A} (f g : A -> bool) l : Forall (fun x => f x = g x) l -> filter f l = filter g l.
Proof. induction 1 as [|a l H _ IH]; cbn; [reflexivity|]. now rewrite H, IH. Qed.
Lemma met_by_sreq descs T s : met_by descs T s = sreq_met (map idesc_of descs) (fun x => str_in x T) (sreq_of s).
Proof.
  induction s as [name purpose rule count mn mx from nested IH] using wsreq_ind'. cbn [met_by sreq_of sreq_met]. cbn zeta. unfold count_if.
  destruct (String.eqb from ""), (String.eqb rule "all").
  - rewrite forallb_map. apply forallb_ext'. exact IH.
  - rewrite filter_map_length, <- within_window. do 2 f_equal. apply filter_ext'. exact IH.
  - rewrite filter_map, forallb_map. reflexivity.
  - rewrite filter_map, filter_map_length, <- within_window. reflexivity.
Qed.
Lemma all_met_met pd T : all_met pd T <-> definition_met (map idesc_of (wp_descs pd)) (map sreq_of (wp_reqs pd)) (fun x => str_in x T) = true.
Proof.
  unfold all_met. destruct (wp_reqs pd) as [|s ss] eqn:E.
  - cbn [map definition_met]. rewrite forallb_map, forallb_forall. split.
    + intros [[_ H]|[H _]]; [|contradiction]. intros d Hd. apply str_in_In. now apply H.
    + intros H. left. split; [reflexivity|]. intros d Hd. apply str_in_In. now apply H.
  - change (definition_met (map idesc_of (wp_descs pd)) (map sreq_of (s :: ss)) (fun x => str_in x T))
      with (forallb (sreq_met (map idesc_of (wp_descs pd)) (fun x => str_in x T)) (map sreq_of (s :: ss))).
    rewrite forallb_map, forallb_forall. split.
    + intros [[H _]|[_ H]]; [discriminate|]. intros x Hx. rewrite <- met_by_sreq. now apply H.
    + intros H. right. split; [discriminate|]. intros x Hx. rewrite met_by_sreq. now apply H.
Qed.
Lemma plain_rule_sreq s : plain_rule s -> plain_all (sreq_of s) = true.
Proof.
  induction s as [name purpose rule count mn mx from nested IH] using wsreq_ind'. intros H. inversion H as [? ? ? ? ? ? ? ? Hr Hn]; subst; clear H.
  cbn [sreq_of plain_all]. apply andb_true_iff. split.
  - destruct (String.eqb rule "all") eqn:Er; [|reflexivity]. apply String.eqb_eq in Er. destruct (Hr Er) as [H1 H2]. cbn [negb orb].
    apply andb_true_iff. split; now apply Z.leb_le.
  - rewrite forallb_map. apply forallb_forall. intros x Hx. rewrite Forall_forall in IH, Hn. apply IH; auto.
Qed.
Lemma plain_rules l : Forall plain_rule l -> forallb plain_all (map sreq_of l) = true.
Proof. intros H. rewrite forallb_map. apply forallb_forall. intros x Hx. rewrite Forall_forall in H. apply plain_rule_sreq. auto. Qed.

Section Data.
  Variable valid : wdef -> res unit.
  Variable frame : gomap json -> cred -> res cred.
  Variable limit : wcons -> cred -> res (limited cred).
  Variable ctx : Type.
  Variable load : string -> res ctx.
  Variable type_ids : ctx -> string -> option (list string).
  Variable jp_parse : string -> option (json -> list json).
  Variable validate : jschema -> json -> bool.
  Variable rfc3339 : string -> option Z.
  Variable order : list (string * string).
  Variable none : cred.
  Variable pd : wdef.
  Variable creds : list cred.
  Variable h : list cred.
  Variable ts : list mreq.
  Notation me := (fun c : cred => c).
  Notation ed := (eval_desc cred me limit c_id ctx load type_ids jp_parse validate rfc3339 order pd).
  Hypothesis Hplain : plain_def pd.
  Hypothesis Hids : NoDup (map wd_id (wp_descs pd)).
  Hypothesis Hplr : Forall plain_rule (wp_reqs pd).
  Hypothesis Hquiet : quiet cred frame limit pd creds.
  Hypothesis Hsome : exists m, listed_in ts m.
  Hypothesis Hms : match_submission cred me none valid frame limit c_id ctx load type_ids jp_parse validate rfc3339 order pd true creds = Ok (h, ts).
  Notation MM := (M1 cred me none frame limit c_id ctx load type_ids jp_parse validate rfc3339 order pd creds h).
  Notation used d := (definition_uses (map sreq_of (wp_reqs pd)) (idesc_of d)).
  Let Hall : forallb plain_all (map sreq_of (wp_reqs pd)) = true := plain_rules (wp_reqs pd) Hplr.
  Lemma data_spec sep fmt :
    match presentation_data valid frame limit ctx load type_ids jp_parse validate rfc3339 order pd sep fmt creds with
    | Ok (cs, maps) => exists T, shows pd ts T /\ NoDup T /\
        (forall c, In c cs -> exists m, listed_in ts m /\ In (md_id m) T /\ In c (map (at_ptr cred none h) (md_vcs m))) /\
        (forall id, In id T <-> exists x, In x maps /\ m_id x = id) /\
        ((forall fr, framed frame (wp_frame pd) creds fr -> ids_identify limit c_id (wp_descs pd) fr) -> exists f, forall m, listed_in ts m -> In (md_id m) T ->
          forall c, In c (map (at_ptr cred none h) (md_vcs m)) -> exists i, nth_error cs i = Some c /\ In (entry f sep (md_id m) c i) maps)
    | Err e => e = "credentials do not satisfy requirements" /\ ~ exists T, shows pd ts T
    | Panic => False
    end.
  Proof.
    destruct (submission1 cred me none valid frame limit c_id ctx load type_ids jp_parse validate rfc3339 order pd Hplain creds Hquiet h ts Hms) as (_ & Hv & Ha).
    destruct (answers_used pd MM ts Ha) as (U1 & U2 & U3). unfold presentation_data. rewrite Hv. cbn [bind].
    destruct (make_requirement_defined (map idesc_of (wp_descs pd)) (map sreq_of (wp_reqs pd))) as [R1 R2].
    destruct (make_requirement _ _) as [r|e|] eqn:Er; [|rewrite U3 in R1; discriminate|contradiction]. clear R1 R2. cbn [bind].
    assert (Hfr : exists fr, framed_creds cred frame (wp_frame pd) creds = Ok fr).
    { destruct Hsome as (m & Hm). destruct (U1 m Hm) as (d & _ & _ & (_ & _ & _ & _ & _ & _ & fr & _ & _ & _ & _ & _ & _ & _ & E & _)). eauto. }
    destruct Hfr as (fr & Efr). rewrite Efr. cbn [bind].
    assert (Hframed : framed frame (wp_frame pd) creds fr).
    { unfold framed_creds in Efr. destruct (wp_frame pd) as [f|]; [constructor; now apply map_res_forall2 in Efr|injection Efr as <-; constructor]. }
    (* a listed descriptor and its evaluation *)
    assert (Hev : forall d m, described MM d m -> exists fm subs, ed fr d = Ok (fm, subs) /\ map snd subs = map (at_ptr cred none h) (md_vcs m) /\ md_id m = wd_id d).
    { intros d m (Hid & _ & _ & _ & _ & _ & fr' & fm & _ & _ & _ & _ & _ & _ & E & subs & E1 & E2). rewrite Efr in E. injection E as <-. eauto 6. }
    assert (Hl : forall d m, In d (wp_descs pd) -> used d = true -> listed_in ts m -> md_id m = wd_id d -> described MM d m).
    { intros d m Hd Hu Hm Hid. destruct (U1 m Hm) as (d' & D1 & D2 & D3). assert (d' = d); [|now subst].
      eapply (NoDup_map_inj wd_id); try eassumption. destruct D3 as (D3 & _). congruence. }
    assert (HT : forall T, submission_of (eval_id limit ctx load type_ids jp_parse validate rfc3339 order pd fr) (map idesc_of (wp_descs pd)) (map sreq_of (wp_reqs pd)) T <-> shows pd ts T).
    { intros T. unfold submission_of, shows. rewrite <- all_met_met. split; intros (T1 & T2 & T3); (split; [assumption|split; [|assumption]]); intros id Hin.
      - destruct (T2 id Hin) as (i & I1 & I2 & I3 & f' & cs & I4 & I5). apply in_map_iff in I1 as (d & <- & Hd).
        destruct (U2 d Hd I3) as (m & Hm & Hr). destruct (Hev d m Hr) as (fm & subs & E1 & E2 & E3).
        exists m. split; [assumption|]. split; [now rewrite E3|]. unfold eval_id in I4. rewrite desc_of_in in I4 by assumption. rewrite E1 in I4. injection I4 as <- <-.
        intros E0. rewrite E0 in E2. destruct subs; [contradiction|discriminate].
      - destruct (T2 id Hin) as (m & Hm & Hid & Hne). destruct (U1 m Hm) as (d & Hd & Hu & Hr). destruct (Hev d m Hr) as (fm & subs & E1 & E2 & E3).
        exists (idesc_of d). split; [now apply in_map|]. split; [cbn [idesc_of id_id]; congruence|]. split; [assumption|].
        exists fm, subs. unfold eval_id. rewrite desc_of_in by assumption. split; [assumption|]. intros ->. destruct (md_vcs m); [contradiction|discriminate]. }
    assert (Hn : NoDup (map id_id (map idesc_of (wp_descs pd)))) by (rewrite map_map; exact Hids).
    destruct (search_sem (string * cred) (eval_id limit ctx load type_ids jp_parse validate rfc3339 order pd fr) _ _ r fmt Hn Hall Er) as (out & Eout & Hout).
    rewrite Eout. destruct out as [[f t]|e|]; cbn [bind].
    - destruct Hout as (T & S1 & S2 & S3 & _). cbn [fst snd].
      pose proof (apply_nodup _ _ _ _ _ _ _ Eout) as Nt. destruct (merge f (wrapped t) sep) as [cs maps] eqn:Em.
      assert (Nw : NoDup (map fst (wrapped t))) by (unfold wrapped; rewrite map_map; exact Nt).
      assert (Wt : forall d l cw, In (d, l) (wrapped t) -> In cw l -> In d T /\ exists dd fm subs, In dd (wp_descs pd) /\ used dd = true /\ wd_id dd = d /\ ed fr dd = Ok (fm, subs) /\ In (cw_uid cw, cw_vc cw) subs).
      { intros d l cw Hin Hcw. unfold wrapped in Hin. apply in_map_iff in Hin as ([k v] & [= <- <-] & Hin). cbn [fst snd] in *.
        apply in_map_iff in Hcw as ([u c] & <- & Hc). apply (mget_In_nodup _ _ _ Nt) in Hin. apply S3 in Hin as (HinT & i & f' & I1 & I2 & I3). split; [assumption|].
        apply in_map_iff in I1 as (dd & <- & Hdd). unfold eval_id in I3. rewrite desc_of_in in I3 by assumption. exists dd, f', v. split; [assumption|].
        destruct S1 as (_ & S1 & _). destruct (S1 k HinT) as (i2 & J1 & J2 & J3 & _). apply in_map_iff in J1 as (d2 & <- & Hd2). cbn [idesc_of id_id] in I2, J2.
        assert (d2 = dd) by (eapply (NoDup_map_inj wd_id); try eassumption; congruence). subst d2. auto. }
      assert (Hcl : forall d l cw, In (d, l) (wrapped t) -> In cw l -> exists m, listed_in ts m /\ md_id m = d /\ In d T /\ In (cw_vc cw) (map (at_ptr cred none h) (md_vcs m))).
      { intros d l cw H1 H2. destruct (Wt d l cw H1 H2) as (HinT & dd & fm & subs & W1 & W2 & W3 & W4 & W5). destruct (U2 dd W1 W2) as (m & Hm & Hr).
        destruct (Hev dd m Hr) as (fm' & subs' & E1 & E2 & E3). rewrite E1 in W4. injection W4 as <- <-. exists m. split; [assumption|]. split; [congruence|]. split; [assumption|].
        rewrite <- E2. apply (in_map snd) in W5. exact W5. }
      assert (Hlc : forall m, listed_in ts m -> In (md_id m) T -> forall c, In c (map (at_ptr cred none h) (md_vcs m)) -> exists l cw, In (md_id m, l) (wrapped t) /\ In cw l /\ cw_vc cw = c).
      { intros m Hm HinT c Hc. destruct (U1 m Hm) as (d & D1 & D2 & D3). destruct (Hev d m D3) as (fm & subs & E1 & E2 & E3).
        assert (Hg : mget t (md_id m) = Some subs).
        { apply S3. split; [assumption|]. exists (idesc_of d), fm. split; [now apply in_map|]. split; [now rewrite E3|]. unfold eval_id. now rewrite desc_of_in. }
        rewrite <- E2 in Hc. apply in_map_iff in Hc as ([u c'] & <- & Hc). exists (map (fun p => {| cw_uid := fst p; cw_vc := snd p |}) subs), {| cw_uid := u; cw_vc := c' |}.
        split; [|split; [|reflexivity]].
        - unfold wrapped. apply in_map_iff. exists (md_id m, subs). split; [reflexivity|]. now apply mget_In.
        - apply in_map_iff. exists (u, c'). now split. }
      destruct (merge_spec f (wrapped t) sep cs maps Nw Em) as (_ & G2 & G3 & G4 & _).
      exists T. split; [now apply HT|]. split; [assumption|]. split; [|split; [|]].
      + intros c Hc. apply In_nth_error in Hc as (i & Hi). destruct (G4 i c Hi) as (d & l & cw & K1 & K2 & <-). destruct (Hcl d l cw K1 K2) as (m & L1 & <- & L3 & L4). exists m. auto.
      + intros id. split.
        * intros HinT. pose proof (proj1 (HT T) S1) as (_ & Hs & _). destruct (Hs id HinT) as (m & Hm & <- & Hne). destruct (md_vcs m) as [|p l] eqn:Ev; [contradiction|].
          destruct (Hlc m Hm HinT (at_ptr cred none h p)) as (l' & cw & K1 & K2 & _); [rewrite Ev; now left|].
          destruct (G2 _ _ _ K1 K2) as (i & _ & _ & _ & _ & _ & _ & _ & Hi). eexists. split; [exact Hi|]. unfold entry. now destruct sep.
        * intros (x & Hx & <-). destruct (G3 x Hx) as (d & l & cw & i & d' & l' & cw' & K1 & K2 & -> & _). destruct (Hcl d l cw K1 K2) as (_ & _ & _ & L3 & _).
          unfold entry. now destruct sep.
      + intros Hu. specialize (Hu fr Hframed). exists f.
        assert (Hui : uid_identifies (wrapped t)).
        { intros d l cw d' l' cw' K1 K2 K3 K4 K5. destruct (Wt d l cw K1 K2) as (_ & dd & fm & subs & W1 & W2 & W3 & W4 & W5). destruct (Wt d' l' cw' K3 K4) as (_ & dd' & fm' & subs' & V1 & V2 & V3 & V4 & V5).
          assert (Nm : forall dd fm subs id b, In dd (wp_descs pd) -> ed fr dd = Ok (fm, subs) -> In (id, b) subs -> exists a, In a fr /\ named limit c_id (wd_cons dd) a id b).
          { clear - Hquiet Hframed Hplain. intros dd fm subs id b Hd He Hin. unfold eval_desc in He. apply bind_ok in He as ([fm' kept] & Hf & He). apply bind_ok in He as (louts & Hl & He). injection He as <- <-. cbn [fst snd] in *.
            unfold found_creds in Hf. pose proof (that_match_spec cred me ctx load type_ids jp_parse validate rfc3339 order pd dd fr (Hplain dd Hd)) as S. rewrite Hf in S.
            pose proof (matching_in ctx load type_ids jp_parse validate rfc3339 order pd _ _ _ _ _ S) as Hi.
            apply in_concat in Hin as (ps & Hps & Hin). apply map_res_forall2 in Hl. destruct (f2_in _ _ _ Hl) as [_ F2]. destruct (F2 ps Hps) as (a & Ha & Hp).
            exists a. split; [now apply Hi|]. eapply limit_pure_named; [|exact Hp|exact Hin]. intros w id' b' Hw. eapply Hquiet; [exact Hd|exact Hw|exact Hframed|now apply Hi]. }
          destruct (Nm dd fm subs _ _ W1 W4 W5) as (a & A1 & A2). destruct (Nm dd' fm' subs' _ _ V1 V4 V5) as (a' & B1 & B2). rewrite <- K5 in B2. eapply Hu; [exact W1|exact V1|exact A1|exact B1|exact A2|exact B2]. }
        intros m Hm HinT c Hc. destruct (Hlc m Hm HinT c Hc) as (l & cw & K1 & K2 & <-).
        destruct (merge_entries f sep (wrapped t) cs maps Nw Hui Em) as [_ M2]. exact (M2 _ _ _ K1 K2).
    - destruct Hout as [[-> Hno]|(i & I1 & I2 & I3)].
      + split; [reflexivity|]. intros (T & HTs). apply Hno. exists T. now apply HT.
      + exfalso. apply in_map_iff in I1 as (d & <- & Hd). destruct (U2 d Hd I2) as (m & _ & Hr). destruct (Hev d m Hr) as (fm & subs & E1 & _).
        unfold eval_id in I3. rewrite desc_of_in in I3 by assumption. congruence.
    - destruct Hout as (i & I1 & I2 & I3). apply in_map_iff in I1 as (d & <- & Hd). destruct (U2 d Hd I2) as (m & _ & Hr). destruct (Hev d m Hr) as (fm & subs & E1 & _).
      unfold eval_id in I3. rewrite desc_of_in in I3 by assumption. congruence.
  Qed.
End Data.
