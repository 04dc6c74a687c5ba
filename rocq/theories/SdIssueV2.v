(** The v2 builder produces encodings. *)
From Verif Require Import GoBase Base64 JwtSpec JwtModel JwtProofs SdSpec SdModel SdProofs SdRun SdOrder SdParse SdParseProofs SdSubset
  SdIssueSpec SdIssueModel SdIssueEnc SdIssueTop.

Section Issue.
Variables (E : sdenv) (I : ienv) (o : iopts) (ok : string -> Prop).
Notation H := (get_hash E (io_hash o)).
Hypotheses (HE : wf_env E) (Hrb : reads_back (sd_json E) (ie_enc I) ok)
  (Hsalt : forall n s, ie_salt I n = Some s -> ok s)
  (Hshuf : forall n l, Permutation l (ie_shuffle I n l)).

Lemma texts_arr l : Forall (texts ok) l -> texts ok (JArr l).
Proof.
  intros F. rewrite Forall_forall in F. split.
  - intros s Hs. inversion Hs as [|l' v Hv Hsv|]; subst. now apply (proj1 (F v Hv)).
  - intros n Hn. inversion Hn as [|l' v Hv Hsv|]; subst. now apply (proj2 (F v Hv)).
Qed.
Lemma texts_str s : ok s -> texts ok (JStr s).
Proof.
  intros Hs. split; [|intros n Hn; inversion Hn]. intros x Hx. inversion Hx; subst; assumption.
Qed.
Lemma texts_obj m : (forall k v, In (k, v) m -> ok k /\ texts ok v) -> texts ok (JObj m).
Proof.
  intros F. split.
  - intros s Hs. inversion Hs as [| |m' k v Hv Hsv]; subst. now apply (proj1 (proj2 (F _ _ Hv))).
  - intros n Hn. inversion Hn as [m' v Hv| |m' k v Hv Hsv]; subst; [exact (proj1 (F _ _ Hv))|]. now apply (proj2 (proj2 (F _ _ Hv))).
Qed.
Lemma texts_obj_inv m k v : texts ok (JObj m) -> In (k, v) m -> ok k /\ texts ok v.
Proof.
  intros [H1 H2] Hi. split; [apply H2; econstructor; eassumption|]. split.
  - intros s Hs. apply H1. eapply so_obj; eassumption.
  - intros n Hn. apply H2. eapply no_obj; eassumption.
Qed.
Lemma texts_arr_inv l v : texts ok (JArr l) -> In v l -> texts ok v.
Proof.
  intros [H1 H2] Hi. split.
  - intros s Hs. apply H1. eapply so_arr; eassumption.
  - intros n Hn. apply H2. eapply no_arr; eassumption.
Qed.

Lemma disclosure_member v5 key value st s st' : create_disclosure I v5 key value st = Ok (s, st') ->
  v5 = false \/ key <> "" -> wf_json value -> texts ok value -> ok key ->
  exists v', dsp E s = Some (CMember key v') /\ jeq value v'.
Proof.
  unfold create_disclosure, new_salt. destruct (ie_salt I st) as [salt|] eqn:Es; cbn [bind fst snd]; [|discriminate].
  intros Hc Hk Hw Ht Hok.
  assert (Ha : (if v5 && String.eqb key "" then [JStr salt; value] else [JStr salt; JStr key; value]) = [JStr salt; JStr key; value]).
  { destruct v5; [|reflexivity]. destruct Hk as [?|Hk]; [discriminate|]. apply String.eqb_neq in Hk. now rewrite Hk. }
  rewrite Ha in Hc. destruct (ie_enc I _) as [b|] eqn:Eb; [|discriminate]. injection Hc as <- _.
  destruct (Hrb _ _ (proj2 (wf_arr [JStr salt; JStr key; value]) ltac:(repeat (constructor; [first [exact Logic.I|assumption]|]); constructor))
    (texts_arr [JStr salt; JStr key; value] ltac:(constructor; [apply texts_str; eauto|constructor; [now apply texts_str|constructor; [assumption|constructor]]])) Eb) as (j' & Hd & Hj).
  inversion Hj as [? Hx|? l' F|]; subst; [destruct Hx|].
  inversion F as [|? a ? l1 J1 F1]; subst. inversion F1 as [|? b' ? l2 J2 F2]; subst. inversion F2 as [|? v' ? l3 J3 F3]; subst.
  inversion F3; subst. apply jeq_str in J1, J2. subst.
  exists v'. split; [|assumption]. unfold dsp, disclosure_content, decode_disclosure. now rewrite b64_decode_encode, Hd.
Qed.
Lemma disclosure_elem value st s st' : create_disclosure I true "" value st = Ok (s, st') ->
  wf_json value -> texts ok value -> exists v', dsp E s = Some (CElem v') /\ jeq value v'.
Proof.
  unfold create_disclosure, new_salt. destruct (ie_salt I st) as [salt|] eqn:Es; cbn [bind fst snd]; [|discriminate].
  intros Hc Hw Ht. cbn [andb String.eqb] in Hc. destruct (ie_enc I _) as [b|] eqn:Eb; [|discriminate]. injection Hc as <- _.
  destruct (Hrb _ _ (proj2 (wf_arr [JStr salt; value]) ltac:(repeat (constructor; [first [exact Logic.I|assumption]|]); constructor))
    (texts_arr [JStr salt; value] ltac:(constructor; [apply texts_str; eauto|constructor; [assumption|constructor]])) Eb) as (j' & Hd & Hj).
  inversion Hj as [? Hx|? l' F|]; subst; [destruct Hx|].
  inversion F as [|? a ? l1 J1 F1]; subst. inversion F1 as [|? v' ? l2 J2 F2]; subst. inversion F2; subst.
  apply jeq_str in J1. subst.
  exists v'. split; [|assumption]. unfold dsp, disclosure_content, decode_disclosure. rewrite b64_decode_encode, Hd. now destruct v'.
Qed.

Lemma str_slice_member l : sd_member [("_sd", str_slice l)] l.
Proof. destruct l; [right; left; split; reflexivity|right; right; reflexivity]. Qed.
Lemma mset_fresh {V} (m : gomap V) k v : ~ In k (map fst m) -> mset m k v = (m ++ [(k, v)])%list.
Proof. intros Hk. apply mset_new. now apply mhas_false. Qed.

(** what an issuer call must deliver for one object *)
Definition v2_ok (path : string) (v : json) (r : built) : Prop :=
  exists mems dec, Enc E (io_hash o) (TObj mems) (JObj (snd (fst r))) dec /\ erase (TObj mems) = v /\
    v2_marked (io_structured o) (io_nonsd o) path (TObj mems) /\ Permutation (fst (fst r)) (all_discs (TObj mems)).

Definition mem_marked (path : string) (mems : list (string * option string * tree)) : Prop :=
  (forall n l t, In (n, l, t) mems -> io_structured o && is_object (erase t) = true ->
     l = None /\ v2_marked (io_structured o) (io_nonsd o) (sub_path path n) t) /\
  (forall n l t, In (n, l, t) mems -> io_structured o && is_object (erase t) = false ->
     t = TVal (erase t) /\ (l = None <-> In (sub_path path n) (io_nonsd o))).

Lemma v2_loop_ok rec path : forall claims ds lv dm st ds' lv' dm' st',
  (forall k v, In (k, v) claims -> forall p st r, is_object v = true -> rec p v st = Ok r -> v2_ok p v r) ->
  v2_loop I o rec path claims ds lv dm st = Ok (ds', lv', dm', st') ->
  NoDup (map fst claims) -> (forall k, In k (map fst claims) -> ~ In k (map fst dm)) ->
  (forall k v, In (k, v) claims -> ordinary v /\ ok k /\ texts ok v) ->
  exists mems c hd dec nds nlv, ds' = (ds ++ nds)%list /\ lv' = (lv ++ nlv)%list /\ dm' = (dm ++ c)%list /\ map H nlv = hd /\
    EncMems E (io_hash o) mems c hd dec /\ map (fun x => (fst (fst x), erase (snd x))) mems = claims /\
    mem_marked path mems /\ Permutation (nds ++ nlv)%list (all_discs (TObj mems)).
Proof.
  induction claims as [|[key v] rest IH]; intros ds lv dm st ds' lv' dm' st' Hrec Hl N Hd Ho.
  - injection Hl as <- <- <- <-. exists [], [], [], [], [], []. rewrite !app_nil_r. repeat split; try constructor; intros; contradiction.
  - inversion N as [|? ? Hk N']; subst. cbn [v2_loop] in Hl.
    destruct (Ho key v (or_introl eq_refl)) as (Hov & Hok & Htv).
    assert (Hrec' : forall k v, In (k, v) rest -> forall p st r, is_object v = true -> rec p v st = Ok r -> v2_ok p v r)
      by (intros; eapply Hrec; [right|..]; eassumption).
    assert (Ho' : forall k v, In (k, v) rest -> ordinary v /\ ok k /\ texts ok v) by (intros; apply Ho; now right).
    assert (Hd' : forall w k, In k (map fst rest) -> ~ In k (map fst (dm ++ [(key, w)])%list)).
    { intros w k Hi. rewrite map_app, in_app_iff. simpl. intros [Hx|[<-|[]]]; [|contradiction]. eapply Hd; [right|]; eassumption. }
    change (match v with JObj _ => true | _ => false end) with (is_object v) in Hl.
    destruct (is_object v && io_structured o) eqn:Eb.
    + apply andb_prop in Eb as [Eo Est]. apply bind_ok in Hl as ([[nds ndm] st1] & Hr & Hl).
      destruct (Hrec key v (or_introl eq_refl) _ _ _ Eo Hr) as (mems1 & dec1 & HE1 & He1 & Hm1 & Hp1). cbn [fst snd] in *.
      rewrite mset_fresh in Hl by (apply Hd; now left).
      destruct (IH _ _ _ _ _ _ _ _ Hrec' Hl N' (Hd' _) Ho') as (mems & c & hd & dec & nds2 & nlv & -> & -> & -> & Hh & HM & Her & Hmk & Hp).
      exists ((key, None, TObj mems1) :: mems), ((key, JObj ndm) :: c), hd, (dec1 ++ dec)%list, (nds ++ nds2)%list, nlv.
      rewrite <- !app_assoc. split; [reflexivity|]. split; [reflexivity|]. split; [reflexivity|]. split; [assumption|].
      split; [constructor; assumption|]. split; [cbn [map fst snd]; rewrite He1, Her; reflexivity|]. split.
      * destruct Hmk as [M1 M2]. split; intros n l t [[= <- <- <-]|Hi]; eauto.
        intros Hx. cbn [erase] in Hx. simpl in Hx. rewrite Est in Hx. discriminate.
      * rewrite all_discs_obj in Hp |- *. cbn [flat_map fst snd opt_list app]. rewrite <- ?app_assoc. apply Permutation_app; [exact Hp1|exact Hp].
    + destruct (str_in (cur_path path key) (io_nonsd o)) eqn:En.
      * rewrite mset_fresh in Hl by (apply Hd; now left).
        destruct (IH _ _ _ _ _ _ _ _ Hrec' Hl N' (Hd' _) Ho') as (mems & c & hd & dec & nds2 & nlv & -> & -> & -> & Hh & HM & Her & Hmk & Hp).
        exists ((key, None, TVal v) :: mems), ((key, v) :: c), hd, ([] ++ dec)%list, nds2, nlv.
        rewrite <- !app_assoc. split; [reflexivity|]. split; [reflexivity|]. split; [reflexivity|]. split; [assumption|].
        split; [constructor; [now constructor|assumption]|]. split; [cbn [map fst snd erase]; rewrite Her; reflexivity|]. split.
        -- destruct Hmk as [M1 M2]. split; intros n l t [[= <- <- <-]|Hi]; eauto; cbn [erase]; intros Hx.
           ++ rewrite andb_comm in Hx. congruence.
           ++ split; [reflexivity|]. apply str_in_In in En. split; [intros _; exact En|reflexivity].
        -- rewrite all_discs_obj in Hp |- *. exact Hp.
      * apply bind_ok in Hl as ([s st1] & Hc & Hl). cbn [fst snd] in Hl.
        assert (Hd2 : forall k, In k (map fst rest) -> ~ In k (map fst dm)) by (intros k Hi; apply Hd; now right).
        destruct (IH _ _ _ _ _ _ _ _ Hrec' Hl N' Hd2 Ho') as (mems & c & hd & dec & nds2 & nlv & -> & -> & -> & Hh & HM & Her & Hmk & Hp).
        destruct (disclosure_member false key v st s st1 Hc (or_introl eq_refl) (ordinary_wf _ Hov) Htv Hok) as (v' & Hdv & Hj).
        exists ((key, Some s, TVal v) :: mems), c, (H s :: hd), dec, nds2, (s :: nlv).
        rewrite <- !app_assoc. split; [reflexivity|]. split; [reflexivity|]. split; [reflexivity|]. split; [simpl; now rewrite Hh|].
        split; [eapply EM_hidden; [now constructor|exact Hdv|exact Hj|assumption]|].
        split; [cbn [map fst snd erase]; rewrite Her; reflexivity|]. split.
        -- destruct Hmk as [M1 M2]. split; intros n l t [[= <- <- <-]|Hi]; eauto; cbn [erase]; intros Hx.
           ++ rewrite andb_comm in Hx. congruence.
           ++ split; [reflexivity|]. apply str_in_nIn in En. split; [discriminate|intros Hin; now elim En].
        -- rewrite all_discs_obj in Hp |- *. cbn [flat_map fst snd opt_list app]. rewrite <- Permutation_middle. now constructor.
Qed.

Theorem v2_create_ok j : forall path st r, ordinary j -> texts ok j -> is_object j = true ->
  v2_create E I o path j st = Ok r -> v2_ok path j r.
Proof.
  induction j as [| | | | |m IH] using json_ind'; try discriminate. intros path st r Hord Ht _ Hc.
  cbn [v2_create] in Hc. apply bind_ok in Hc as ([dec st0] & _ & Hc). apply bind_ok in Hc as ([[[ds lv] dm] st1] & Hl & Hc).
  cbn [fst snd] in *. injection Hc as <-.
  inversion Hord as [? Hx| |m' N Ha]; subst; [destruct Hx|].
  rewrite Forall_forall in IH.
  destruct (v2_loop_ok (v2_create E I o) path m [] [] [] st0 ds lv dm st1) as (mems & c & hd & dc & nds & nlv & -> & -> & -> & Hh & HM & Her & Hmk & Hp).
  - intros k v Hi p st2 r Hv Hr. apply (IH _ Hi p st2 r); [exact (proj2 (Ha _ _ Hi))|exact (proj2 (texts_obj_inv _ _ _ Ht Hi))|exact Hv|exact Hr].
  - exact Hl.
  - exact N.
  - intros k _ [].
  - intros k v Hi. split; [exact (proj2 (Ha _ _ Hi))|]. now apply (texts_obj_inv m).
  - cbn [app] in *. assert (Hnm : names mems = map fst m) by (rewrite <- Her, map_map; reflexivity).
    assert (Hres : forall n, In n (names mems) -> ~ reserved n).
    { intros n Hn. rewrite Hnm in Hn. apply in_map_iff in Hn as ([k v] & <- & Hi). exact (proj1 (Ha _ _ Hi)). }
    exists mems, (dc ++ map H dec)%list. cbn [fst snd]. split; [|split; [|split]].
    + rewrite mset_fresh.
      * eapply Enc_obj; [exact HM|now rewrite Hnm|exact Hres|apply str_slice_member|].
        rewrite <- Hh, <- map_app. apply Hshuf.
      * rewrite (EncMems_cnames _ _ _ _ _ _ HM). intros Hi. apply cnames_in in Hi. apply (Hres _ Hi). now left.
    + cbn [erase]. now rewrite Her.
    + destruct Hmk. constructor; assumption.
    + exact Hp.
Qed.
End Issue.

(** in a v2 tree every disclosure is reachable whatever is selected *)
Lemma v2_reachable structured clear sel t : forall path, v2_marked structured clear path t -> reachable sel t = all_discs t.
Proof.
  induction t as [j|els|mems IH] using tree_ind'; intros path Hm; try reflexivity.
  inversion Hm as [? ? M1 M2]; subst. rewrite all_discs_obj. cbn [reachable].
  rewrite Forall_forall in IH. rewrite !flat_map_concat_map. f_equal. apply map_ext_in. intros [[n l] t] Hi.
  cbn [fst snd]. destruct (structured && is_object (erase t)) eqn:Eb.
  - destruct (M1 _ _ _ Hi Eb) as [-> Ht]. cbn [opt_list shown app]. apply (IH _ Hi _ Ht).
  - destruct (M2 _ _ _ Hi Eb) as [-> _]. destruct (shown sel l); reflexivity.
Qed.
