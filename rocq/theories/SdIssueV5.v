(** The v5 builder (without decoys) produces encodings. *)
From Verif Require Import GoBase Base64 JwtSpec JwtModel JwtProofs SdSpec SdModel SdProofs SdRun SdOrder SdParse SdParseProofs SdSubset
  SdIssueSpec SdIssueModel SdIssueEnc SdIssueTop SdIssueV2.

(** No object member, at any depth, is named by the empty string. *)
Definition named (j : json) : Prop := ~ name_of "" j.

Section Issue.
Variables (E : sdenv) (I : ienv) (o : iopts) (ok : string -> Prop).
Notation H := (get_hash E (io_hash o)).
Notation st := (io_structured o).
Notation nonsd := (io_nonsd o).
Notation alw := (io_always o).
Notation recu := (io_rec o).
Hypotheses (HE : wf_env E) (Hrb : reads_back (sd_json E) (ie_enc I) ok)
  (Hsalt : forall n s, ie_salt I n = Some s -> ok s)
  (Hshuf : forall n l, Permutation l (ie_shuffle I n l))
  (Hok1 : ok "_sd") (Hok2 : ok "...") (Hok3 : forall x, ok (b64_encode x))
  (Hnodec : io_decoys o = false).

Lemma ok_hash s : ok (H s).
Proof. unfold get_hash. apply Hok3. Qed.

Lemma v5_elems_ok path : forall l i n vs ds n',
  v5_elems E I o path i l n = Ok (vs, ds, n') ->
  (forall v, In v l -> ordinary v /\ texts ok v) ->
  exists els, Forall2 (EncElem E (io_hash o)) els vs /\ map snd els = l /\ Forall (texts ok) vs /\
    flat_map (fun e => opt_list (fst e)) els = ds /\
    (forall k l' v, nth_error els k = Some (l', v) -> (l' = None <-> In (elem_path path (i + k)) nonsd)).
Proof.
  induction l as [|v l IH]; intros i n vs ds n' Hc Ho; cbn [v5_elems] in Hc.
  - injection Hc as <- <- <-. exists []. repeat split; try constructor; destruct k; discriminate.
  - destruct (Ho v (or_introl eq_refl)) as [Hov Htv].
    assert (Ho' : forall v, In v l -> ordinary v /\ texts ok v) by (intros; apply Ho; now right).
    fold (elem_path path i) in Hc. change (path ++ "[" ++ fmt_nat i ++ "]") with (elem_path path i) in Hc.
    destruct (str_in (elem_path path i) nonsd) eqn:En.
    + apply bind_ok in Hc as ([[vs0 ds0] n0] & Hr & Hc). injection Hc as <- <- <-.
      destruct (IH _ _ _ _ _ Hr Ho') as (els & F & Hm & Ht & Hd & Hk).
      exists ((None, v) :: els). split; [constructor; [split; [assumption|reflexivity]|assumption]|].
      split; [simpl; now rewrite Hm|]. split; [now constructor|]. split; [assumption|].
      intros [|k] l' w Hn; cbn [nth_error] in Hn.
      * injection Hn as <- <-. rewrite Nat.add_0_r. apply str_in_In in En. split; auto.
      * rewrite <- Nat.add_succ_comm. eauto.
    + apply bind_ok in Hc as ([s n1] & Hs & Hc). apply bind_ok in Hc as ([[vs0 ds0] n0] & Hr & Hc). cbn [fst snd] in *.
      injection Hc as <- <- <-. destruct (IH _ _ _ _ _ Hr Ho') as (els & F & Hm & Ht & Hd & Hk).
      exists ((Some s, v) :: els). split; [constructor; [split; [assumption|]|assumption]|].
      { split; [reflexivity|]. destruct (disclosure_elem E I ok Hrb Hsalt v n s n1 Hs (ordinary_wf _ Hov) Htv) as (v' & ? & ?). eauto. }
      split; [simpl; now rewrite Hm|]. split.
      { constructor; [|assumption]. apply texts_obj. intros k w [[= <- <-]|[]]. split; [assumption|]. apply texts_str, ok_hash. }
      split; [simpl; now rewrite Hd|].
      intros [|k] l' w Hn; cbn [nth_error] in Hn.
      * injection Hn as <- <-. rewrite Nat.add_0_r. apply str_in_nIn in En. split; [discriminate|]. intros Hx. contradiction.
      * rewrite <- Nat.add_succ_comm. eauto.
Qed.

Definition v5_ok (whole : bool) (path : string) (v : json) (r : built) : Prop :=
  exists mems, Enc E (io_hash o) (TObj mems) (JObj (snd (fst r))) [] /\ erase (TObj mems) = v /\
    v5_marked st nonsd alw recu whole path (TObj mems) /\ Permutation (fst (fst r)) (all_discs (TObj mems)) /\
    texts ok (JObj (snd (fst r))).

(** what is known of one member that ended up in clear text / in a disclosure *)
Lemma str_in_dec s l : {In s l /\ str_in s l = true} + {~ In s l /\ str_in s l = false}.
Proof. destruct (str_in s l) eqn:E'; [left|right]; (split; [|reflexivity]); [now apply str_in_In|now apply str_in_nIn]. Qed.

Definition loop_post (whole : bool) (path : string) (claims : list (string * json)) (nfin nall : list string) (c : gomap json) : Prop :=
  exists mems hd, map H nfin = hd /\ EncMems E (io_hash o) mems c hd [] /\
    map (fun x => (fst (fst x), erase (snd x))) mems = claims /\
    (forall n l t, In (n, l, t) mems -> v5_member st nonsd alw recu whole (sub_path path n) l t) /\
    Permutation (nfin ++ nall)%list (all_discs (TObj mems)) /\
    (forall k v, In (k, v) c -> ok k /\ texts ok v).

Lemma post_clear whole path key v t w rest nds nfin nall c :
  loop_post whole path rest nfin nall c -> Enc E (io_hash o) t w [] -> erase t = v ->
  v5_member st nonsd alw recu whole (sub_path path key) None t -> Permutation nds (all_discs t) -> ok key -> texts ok w ->
  loop_post whole path ((key, v) :: rest) nfin (nds ++ nall)%list ((key, w) :: c).
Proof.
  intros (mems & hd & Hh & HM & He & Hmk & Hp & Ht) Henc Hv Hm Hn Hok Htw.
  exists ((key, None, t) :: mems), hd. split; [assumption|]. split; [exact (EM_clear E (io_hash o) key t w [] mems c hd [] Henc HM)|].
  split; [cbn [map fst snd]; now rewrite Hv, He|]. split; [|split].
  - intros n l t' [[= <- <- <-]|Hi]; eauto.
  - rewrite all_discs_obj in Hp |- *. cbn [flat_map fst snd opt_list app]. rewrite <- Hn, <- Hp. apply Permutation_app_swap_app.
  - intros k v' [[= <- <-]|Hi]; eauto.
Qed.
Lemma post_hidden whole path key v t w w' s rest nds nfin nall c :
  loop_post whole path rest nfin nall c -> Enc E (io_hash o) t w [] -> erase t = v ->
  dsp E s = Some (CMember key w') -> jeq w w' ->
  v5_member st nonsd alw recu whole (sub_path path key) (Some s) t -> Permutation nds (all_discs t) ->
  loop_post whole path ((key, v) :: rest) (s :: nfin) (nds ++ nall)%list c.
Proof.
  intros (mems & hd & Hh & HM & He & Hmk & Hp & Ht) Henc Hv Hd Hj Hm Hn.
  exists ((key, Some s, t) :: mems), (H s :: hd). split; [simpl; now rewrite Hh|]. split; [eapply EM_hidden; eauto|].
  split; [cbn [map fst snd]; now rewrite Hv, He|]. split; [|split].
  - intros n l t' [[= <- <- <-]|Hi]; eauto.
  - rewrite all_discs_obj in Hp |- *. cbn [flat_map fst snd opt_list app]. constructor. rewrite <- Hn, <- Hp. apply Permutation_app_swap_app.
  - exact Ht.
Qed.

Lemma v5_loop_ok rec path whole : forall claims fin all dm n fin' all' dm' n',
  (forall k v, In (k, v) claims -> forall p w n r, is_object v = true -> rec p v w n = Ok r -> v5_ok w p v r) ->
  v5_loop E I o rec path whole claims fin all dm n = Ok (fin', all', dm', n') ->
  NoDup (map fst claims) -> (forall k, In k (map fst claims) -> ~ In k (map fst dm)) ->
  (forall k v, In (k, v) claims -> ordinary v /\ ok k /\ texts ok v /\ k <> "") ->
  exists nfin nall c, fin' = (fin ++ nfin)%list /\ all' = (all ++ nall)%list /\ dm' = (dm ++ c)%list /\
    loop_post whole path claims nfin nall c.
Proof.
  induction claims as [|[key v] rest IH]; intros fin all dm n fin' all' dm' n' Hrec Hl N Hd Ho.
  - injection Hl as <- <- <- <-. exists [], [], []. rewrite !app_nil_r. repeat split. exists [], [].
    repeat split; try constructor; intros; contradiction.
  - inversion N as [|? ? Hk N']; subst. cbn [v5_loop] in Hl.
    destruct (Ho key v (or_introl eq_refl)) as (Hov & Hok & Htv & Hne).
    assert (Hrec' : forall k v, In (k, v) rest -> forall p w n r, is_object v = true -> rec p v w n = Ok r -> v5_ok w p v r)
      by (intros; eapply Hrec; [right|..]; eassumption).
    assert (Hrec1 : forall p w n r, is_object v = true -> rec p v w n = Ok r -> v5_ok w p v r)
      by (apply (Hrec key); now left).
    assert (Ho' : forall k v, In (k, v) rest -> ordinary v /\ ok k /\ texts ok v /\ k <> "") by (intros; apply Ho; now right).
    assert (Hd' : forall w k, In k (map fst rest) -> ~ In k (map fst (dm ++ [(key, w)])%list)).
    { intros w k Hi. rewrite map_app, in_app_iff. simpl. intros [Hx|[<-|[]]]; [|contradiction]. eapply Hd; [right|]; eassumption. }
    assert (Hd0 : forall k, In k (map fst rest) -> ~ In k (map fst dm)) by (intros k Hi; apply Hd; now right).
    assert (Hms : forall w, mset dm key w = (dm ++ [(key, w)])%list) by (intros; apply mset_fresh, Hd; now left).
    change (cur_path path key) with (sub_path path key) in Hl.
    set (p := sub_path path key) in *.
    (* the two ways to go on *)
    assert (Hclear : forall t w nds ok0 al1 n1,
      v5_loop E I o rec path whole rest fin al1 (mset dm key w) n1 = Ok (fin', all', dm', n') -> al1 = (all ++ nds)%list ->
      ok0 = true -> Enc E (io_hash o) t w [] -> erase t = v ->
      v5_member st nonsd alw recu whole p None t -> Permutation nds (all_discs t) -> texts ok w ->
      exists nfin nall c, fin' = (fin ++ nfin)%list /\ all' = (all ++ nall)%list /\ dm' = (dm ++ c)%list /\
        loop_post whole path ((key, v) :: rest) nfin nall c).
    { intros t w nds _ al1 n1 Hl1 -> _ Henc He Hm Hn Htw. rewrite Hms in Hl1.
      destruct (IH _ _ _ _ _ _ _ _ Hrec' Hl1 N' (Hd' _) Ho') as (nfin & nall & c & -> & -> & -> & Hpost).
      exists nfin, (nds ++ nall)%list, ((key, w) :: c). rewrite <- !app_assoc. repeat split. eapply post_clear; eauto. }
    assert (Hhid : forall t w nds al1 s n0 n1 n2,
      v5_loop E I o rec path whole rest (fin ++ [s])%list al1 dm n1 = Ok (fin', all', dm', n') -> al1 = (all ++ nds)%list ->
      create_disclosure I true key w n0 = Ok (s, n2) -> Enc E (io_hash o) t w [] -> erase t = v ->
      v5_member st nonsd alw recu whole p (Some s) t -> Permutation nds (all_discs t) -> texts ok w ->
      exists nfin nall c, fin' = (fin ++ nfin)%list /\ all' = (all ++ nall)%list /\ dm' = (dm ++ c)%list /\
        loop_post whole path ((key, v) :: rest) nfin nall c).
    { intros t w nds al1 s n0 n1 n2 Hl1 -> Hc Henc He Hm Hn Htw.
      destruct (IH _ _ _ _ _ _ _ _ Hrec' Hl1 N' Hd0 Ho') as (nfin & nall & c & -> & -> & -> & Hpost).
      exists (s :: nfin), (nds ++ nall)%list, c. rewrite <- !app_assoc. repeat split.
      destruct (disclosure_member E I ok Hrb Hsalt true key w n0 s n2 Hc (or_intror Hne) (proj1 (Enc_wf E (io_hash o)) _ _ _ Henc) Htw Hok) as (w' & Hw & Hj).
      eapply post_hidden; eauto. }
    destruct (str_in_dec p nonsd) as [[Hin Ein]|[Hin Ein]]; rewrite Ein in Hl.
    + (* listed *)
      assert (Hl' : v5_loop E I o rec path whole rest fin all (mset dm key v) n = Ok (fin', all', dm', n')).
      { destruct v; try exact Hl. discriminate. }
      eapply (Hclear (TVal v) v [] true); [exact Hl'|now rewrite app_nil_r|reflexivity|now constructor|reflexivity|now constructor|reflexivity|assumption].
    + assert (Hscalar : (match v with JArr _ | JObj _ => False | _ => True end) ->
        (if whole then v5_loop E I o rec path whole rest fin all (mset dm key v) n
         else (let* d := create_disclosure I true key v n in
              v5_loop E I o rec path whole rest (fin ++ [fst d])%list all dm (snd d))) = Ok (fin', all', dm', n') ->
        exists nfin nall c, fin' = (fin ++ nfin)%list /\ all' = (all ++ nall)%list /\ dm' = (dm ++ c)%list /\
        loop_post whole path ((key, v) :: rest) nfin nall c).
      { intros Hs Hl'. destruct whole eqn:Ew.
        - eapply (Hclear (TVal v) v [] true); [exact Hl'|now rewrite app_nil_r|reflexivity|now constructor|reflexivity| |reflexivity|assumption].
          apply v5m_scalar; [assumption|assumption|tauto].
        - apply bind_ok in Hl' as ([s n1] & Hs1 & Hl'). cbn [fst snd] in Hl'.
          eapply (Hhid (TVal v) v []); [exact Hl'|now rewrite app_nil_r|exact Hs1|now constructor|reflexivity| |reflexivity|assumption].
          apply v5m_scalar; [assumption|assumption|]. split; discriminate. }
      cbn [orb] in Hl. destruct v as [| | | |l|m]; try (apply Hscalar; [exact Logic.I|exact Hl]).
      * discriminate.
      * (* array *)
        apply bind_ok in Hl as ([[vs eds] n1] & Hel & Hl).
        inversion Hov as [? Hx|l0 Hl0 Hla|]; subst; [destruct Hx|].
        destruct (v5_elems_ok _ _ _ _ _ _ _ Hel) as (els & F & Hm & Ht & Hds & Hnth).
        { intros x Hx. split; [auto|]. eapply texts_arr_inv; eauto. }
        assert (Hne2 : els <> []) by (intros ->; simpl in Hm; congruence).
        assert (Hvs : (match vs with [] => JNull | _ => JArr vs end) = JArr vs).
        { destruct vs; [|reflexivity]. inversion F; subst. now destruct Hne2. }
        rewrite Hvs in Hl.
        assert (Henc : Enc E (io_hash o) (TArr els) (JArr vs) []) by (now constructor).
        assert (Hper : Permutation eds (all_discs (TArr els))) by (rewrite <- Hds; reflexivity).
        assert (Htx : texts ok (JArr vs)) by (apply texts_arr; assumption).
        destruct (str_in p alw || st) eqn:Eas.
        -- eapply (Hclear (TArr els) (JArr vs) eds true); [exact Hl|reflexivity|reflexivity|assumption|simpl; now rewrite Hm| |assumption|assumption].
           apply v5m_array; [assumption| |exact Hnth]. apply orb_prop in Eas as [Ea|Ea]; [apply str_in_In in Ea|]; tauto.
        -- apply orb_false_elim in Eas as [Ea Est]. apply str_in_nIn in Ea.
           apply bind_ok in Hl as ([s n2] & Hs1 & Hl). cbn [fst snd] in Hl.
           eapply (Hhid (TArr els) (JArr vs) eds); [exact Hl|reflexivity|exact Hs1|assumption|simpl; now rewrite Hm| |assumption|assumption].
           apply v5m_array; [assumption| |exact Hnth]. split; [discriminate|]. intros [?|?]; [contradiction|congruence].
      * (* object *)
        destruct (str_in_dec p recu) as [[Hr Er]|[Hr Er]]; rewrite Er in Hl.
        -- apply bind_ok in Hl as ([[nds ndm] n1] & Hrc & Hl).
           destruct (Hrec1 _ _ _ _ eq_refl Hrc) as (mems1 & HE1 & He1 & Hm1 & Hp1 & Ht1). cbn [fst snd] in *.
           apply bind_ok in Hl as ([s n2] & Hs1 & Hl). cbn [fst snd] in Hl.
           destruct (str_in_dec p alw) as [[Ha Ea]|[Ha Ea]]; rewrite Ea in Hl.
           ++ eapply (Hclear (TObj mems1) (JObj ndm) nds true); [exact Hl|reflexivity|reflexivity|assumption|assumption| |assumption|assumption].
              apply v5m_object with (whole' := false); [assumption|tauto| |assumption]. split; [discriminate|tauto].
           ++ eapply (Hhid (TObj mems1) (JObj ndm) nds); [exact Hl|reflexivity|exact Hs1|assumption|assumption| |assumption|assumption].
              apply v5m_object with (whole' := false); [assumption| | |assumption].
              ** split; [discriminate|]. tauto.
              ** split; [discriminate|tauto].
        -- destruct (str_in p alw || st) eqn:Eas.
           ++ apply bind_ok in Hl as ([[nds ndm] n1] & Hrc & Hl).
              destruct (Hrec1 _ _ _ _ eq_refl Hrc) as (mems1 & HE1 & He1 & Hm1 & Hp1 & Ht1). cbn [fst snd] in *.
              eapply (Hclear (TObj mems1) (JObj ndm) nds true); [exact Hl|reflexivity|reflexivity|assumption|assumption| |assumption|assumption].
              apply v5m_object with (whole' := false); [assumption| | |assumption]; apply orb_prop in Eas as [Ea|Ea]; try (apply str_in_In in Ea).
              ** tauto.
              ** tauto.
              ** split; [discriminate|tauto].
              ** split; [discriminate|]. intros (_ & _ & Hf). congruence.
           ++ apply orb_false_elim in Eas as [Ea Est]. apply str_in_nIn in Ea.
              apply bind_ok in Hl as ([[nds ndm] n1] & Hrc & Hl).
              destruct (Hrec1 _ _ _ _ eq_refl Hrc) as (mems1 & HE1 & He1 & Hm1 & Hp1 & Ht1). cbn [fst snd] in *.
              apply bind_ok in Hl as ([s n2] & Hs1 & Hl). cbn [fst snd] in Hl.
              eapply (Hhid (TObj mems1) (JObj ndm) nds); [exact Hl|reflexivity|exact Hs1|assumption|assumption| |assumption|assumption].
              apply v5m_object with (whole' := true); [assumption| | |assumption].
              ** split; [discriminate|]. intros [?|[? _]]; [contradiction|congruence].
              ** tauto.
Qed.

Theorem v5_create_ok j : forall path whole n r, ordinary j -> texts ok j -> named j -> is_object j = true ->
  v5_create E I o path j whole n = Ok r -> v5_ok whole path j r.
Proof.
  induction j as [| | | | |m IH] using json_ind'; try discriminate. intros path whole n r Hord Ht Hnm _ Hc.
  cbn [v5_create] in Hc. unfold create_decoys in Hc. rewrite Hnodec in Hc. cbn [bind] in Hc.
  apply bind_ok in Hc as ([[[fin all] dm] n1] & Hl & Hc). cbn [fst snd] in *. injection Hc as <-.
  inversion Hord as [? Hx| |m' N Ha]; subst; [destruct Hx|].
  rewrite Forall_forall in IH.
  destruct (v5_loop_ok (v5_create E I o) path whole m [] [] [] n fin all dm n1) as (nfin & nall & c & -> & -> & -> & mems & hd & Hh & HM & Her & Hmk & Hp & Htx).
  - intros k v Hi p w n2 r Hv Hr. apply (IH _ Hi p w n2 r);
      [exact (proj2 (Ha _ _ Hi))|exact (proj2 (texts_obj_inv _ _ _ _ Ht Hi))| |exact Hv|exact Hr].
    intros Hx. apply Hnm. eapply no_obj; eassumption.
  - exact Hl.
  - exact N.
  - intros k _ [].
  - intros k v Hi. destruct (texts_obj_inv _ _ _ _ Ht Hi) as [Hk Hv]. split; [exact (proj2 (Ha _ _ Hi))|]. split; [exact Hk|]. split; [exact Hv|].
    intros Hx. apply Hnm. rewrite <- Hx. eapply no_here; eassumption.
  - cbn [app] in *. assert (Hnn : names mems = map fst m) by (rewrite <- Her, map_map; reflexivity).
    assert (Hres : forall x, In x (names mems) -> ~ reserved x).
    { intros x Hx. rewrite Hnn in Hx. apply in_map_iff in Hx as ([k v] & <- & Hi). exact (proj1 (Ha _ _ Hi)). }
    assert (Hnsd : ~ In "_sd" (map fst c)).
    { rewrite (EncMems_cnames _ _ _ _ _ _ HM). intros Hi. apply cnames_in in Hi. apply (Hres _ Hi). now left. }
    pose proof (Hshuf n1 (map H nfin)) as Hsh. set (g := ie_shuffle I n1 (map H nfin)) in *.
    assert (Hg : forall d, In d g -> ok d).
    { intros d Hi. apply Permutation_sym in Hsh. apply (Permutation_in _ Hsh) in Hi. apply in_map_iff in Hi as (s & <- & _). apply ok_hash. }
    set (sdp := match g with [] => [] | _ => [("_sd", JArr (map JStr g))] end).
    assert (Hdm : (match g return gomap json with [] => c | _ => mset c "_sd" (str_slice g) end) = (c ++ sdp)%list).
    { unfold sdp. destruct g; [now rewrite app_nil_r|]. now apply mset_fresh. }
    exists mems. unfold create_digests. cbn [fst snd]. fold g. rewrite Hdm. split; [|split; [|split; [|split]]].
    + refine (Enc_obj E (io_hash o) mems c hd [] [] sdp g HM _ Hres _ _); [now rewrite Hnn| |].
      * unfold sdp. destruct g; [left; split; reflexivity|right; right; reflexivity].
      * rewrite app_nil_r, <- Hh. exact Hsh.
    + cbn [erase]. now rewrite Her.
    + constructor. exact Hmk.
    + exact Hp.
    + apply texts_obj. intros k v Hi. apply in_app_iff in Hi as [Hi|Hi]; [auto|].
      unfold sdp in Hi. destruct g as [|d g'] eqn:Eg; [destruct Hi|]. destruct Hi as [[= <- <-]|[]]. split; [assumption|].
      apply texts_arr. apply Forall_forall. intros x Hx. change (JStr d :: map JStr g') with (map JStr (d :: g')) in Hx.
      apply in_map_iff in Hx as (y & <- & Hy). apply texts_str. auto.
Qed.
End Issue.
