(** Proofs about Match (C13), CreateVP -> Match (C14) and routing of descriptor maps. *)
From Coq Require Import ZifyN ZifyNat.
From Verif Require Import GoBase PexSpec StatusModel StatusProofs PexModel PexProofs StrLemmas PexMerge.

Section Match.
  Variable select : root -> mapping -> res cred.
  Variable f_schema : list schema -> list cred -> res (list cred).
  Variable f_constraints : option constraints -> list cred -> res (list cred).
  Variable disable_schema : bool.
  Variable descs : list descriptor.
  Variable nvps : nat.
  Variable merged : option (list (option mapping)).
  Notation mm := (match_mapping select f_schema f_constraints disable_schema descs nvps merged).
  Notation mms := (match_mappings select f_schema f_constraints disable_schema descs nvps merged).
  Notation mc := (matched_creds select f_schema f_constraints disable_schema descs nvps merged).

  (** Where mapping [m] of presentation [i] takes its credential from. *)
  Definition root_of (i : nat) (m : mapping) : root := if expects_vp_list m then RootList i else RootVP i.
  (** Value [v] is a match of mapping [m] in presentation number [i]. *)
  Definition matches (i : nat) (pid : string) (m : mapping) (v : match_value) : Prop :=
    exists d c, In d descs /\ d_id d = m_id m /\ select (root_of i m) m = Ok c /\
      (disable_schema = false -> exists l, f_schema (d_schema d) [c] = Ok l /\ l <> []) /\
      f_constraints (d_constraints d) [c] = Ok [mv_cred v] /\
      mv_desc v = m_id m /\ mv_pres v = pid.

  Lemma input_descriptor_some id d : input_descriptor descs id = Some d -> In d descs /\ d_id d = id.
  Proof. intros H. apply find_some in H as [H1 H2]. apply String.eqb_eq in H2. auto. Qed.

  Lemma match_mapping_go i pid om v : mm i pid om = Go v -> exists m, om = Some m /\ matches i pid m v.
  Proof.
    unfold match_mapping. destruct om as [m|]; [|discriminate]. intros H. exists m. split; [reflexivity|].
    destruct (input_descriptor descs (m_id m)) as [d|] eqn:Ed; [|discriminate].
    apply input_descriptor_some in Ed as [Hd Hid].
    set (sel := if expects_vp_list m then Some (select (RootList i) m)
                else if (Nat.eqb nvps 1 || match merged with None => true | Some _ => false end)%bool
                     then Some (select (RootVP i) m) else None) in *.
    assert (Hsel : sel = Some (select (root_of i m) m) \/ sel = None).
    { unfold sel, root_of. destruct (expects_vp_list m); [now left|]. destruct (_ || _)%bool; [now left|now right]. }
    destruct Hsel as [-> | ->]; [|discriminate]. destruct (select (root_of i m) m) as [c|e|] eqn:Es; try discriminate.
    destruct (f_schema (d_schema d) [c]) as [l|e|] eqn:Ef; try discriminate.
    destruct (is_nil l && negb disable_schema)%bool eqn:En; [discriminate|].
    destruct (f_constraints (d_constraints d) [c]) as [[|x [|y l']]|e|] eqn:Ec; try discriminate.
    injection H as <-. exists d, c. cbn. repeat (split; [assumption|]). split.
    - intros Hds. exists l. split; [assumption|]. intros ->. rewrite Hds in En. discriminate.
    - auto.
  Qed.
  Lemma match_mapping_stop i pid om l : mm i pid om = Stop (Ok l) -> l = [] /\ descs <> [].
  Proof.
    unfold match_mapping. destruct om as [m|]; [|discriminate].
    destruct (input_descriptor descs (m_id m)) as [d|] eqn:Ed; [|discriminate].
    apply input_descriptor_some in Ed as [Hd _]. intros H.
    assert (descs <> []) by (intros E; rewrite E in Hd; destruct Hd). split; [|assumption].
    destruct (if expects_vp_list m then _ else _) as [[c|e|]|]; try discriminate.
    destruct (f_schema _ _) as [l0|e|]; try discriminate; [|congruence].
    destruct (_ && _)%bool; [discriminate|]. destruct (f_constraints _ _) as [[|? [|? ?]]|e|]; discriminate.
  Qed.

  Lemma match_mappings_inr i pid : forall l acc out, mms i pid l acc = inr out ->
    exists vs, out = (acc ++ vs)%list /\ Forall2 (fun om v => exists m, om = Some m /\ matches i pid m v) l vs.
  Proof.
    induction l as [|om l IH]; intros acc out H; cbn in H.
    - injection H as <-. exists []. rewrite app_nil_r. split; [reflexivity|constructor].
    - destruct (mm i pid om) as [r|v] eqn:E; [discriminate|]. apply IH in H as (vs & -> & F).
      exists (v :: vs). rewrite <- app_assoc. split; [reflexivity|]. constructor; [now apply match_mapping_go|assumption].
  Qed.
  Lemma match_mappings_inl i pid : forall l acc s, mms i pid l acc = inl s -> exists r, s = Stop r /\
    forall x, r = Ok x -> x = [] /\ descs <> [].
  Proof.
    induction l as [|om l IH]; intros acc s H; cbn in H; [discriminate|].
    destruct (mm i pid om) as [r|v] eqn:E.
    - injection H as <-. exists r. split; [reflexivity|]. intros x ->. now apply match_mapping_stop in E.
    - eauto.
  Qed.

  (** The mappings that are applied to presentation number [i]. *)
  Definition maps_of_vp (i : nat) (v : vp) : res (list (option mapping)) :=
    match merged with Some l => Ok (mappings_of l i) | None => vp_map v end.

  Lemma matched_creds_ok : forall vps i acc r, mc i vps acc = Ok r ->
    (exists vss, r = (acc ++ List.concat vss)%list /\
       Forall2 (fun iv vs => exists l, vp_context_ok (snd iv) = true /\ maps_of_vp (fst iv) (snd iv) = Ok l /\
          Forall2 (fun om v => exists m, om = Some m /\ matches (fst iv) (vp_id (snd iv)) m v) l vs)
         (combine (seq i (List.length vps)) vps) vss) \/
    (r = [] /\ descs <> []).
  Proof.
    induction vps as [|v vps IH]; intros i acc r H; cbn [matched_creds] in H.
    - injection H as <-. left. exists []. rewrite app_nil_r. split; [reflexivity|constructor].
    - destruct (vp_context_ok v) eqn:Ec; [|discriminate]. cbn [negb] in H.
      fold (maps_of_vp i v) in H. destruct (maps_of_vp i v) as [l|e|] eqn:El; cbn [bind] in H; try discriminate.
      destruct (mms i (vp_id v) l acc) as [s|out] eqn:Em.
      + apply match_mappings_inl in Em as (r' & -> & Hr). subst r'. right. now apply Hr.
      + apply match_mappings_inr in Em as (vs & -> & F). apply IH in H as [(vss & -> & G)|H]; [left|now right].
        exists (vs :: vss). cbn [List.concat]. rewrite app_assoc. split; [reflexivity|].
        cbn [List.length seq combine]. constructor; [|assumption]. exists l. cbn [fst snd]. auto.
  Qed.

  Lemma eval_requirements_iff r : eval_requirements descs r = true <->
    forall d, In d descs -> exists v, In v r /\ mv_desc v = d_id d.
  Proof.
    unfold eval_requirements. rewrite forallb_forall. split; intros H d Hd; specialize (H d Hd).
    - apply existsb_exists in H as (v & Hv & E). apply String.eqb_eq in E. eauto.
    - apply existsb_exists. destruct H as (v & Hv & E). exists v. split; [assumption|]. rewrite E. apply String.eqb_refl.
  Qed.

  Lemma pex_match_ok vps r :
    pex_match select f_schema f_constraints disable_schema descs nvps merged vps = Ok r ->
    (forall d, In d descs -> exists v, In v r /\ mv_desc v = d_id d) /\
    exists vss, r = List.concat vss /\
       Forall2 (fun iv vs => exists l, vp_context_ok (snd iv) = true /\ maps_of_vp (fst iv) (snd iv) = Ok l /\
          Forall2 (fun om v => exists m, om = Some m /\ matches (fst iv) (vp_id (snd iv)) m v) l vs)
         (combine (seq 0 (List.length vps)) vps) vss.
  Proof.
    unfold pex_match. destruct (mc 0 vps []) as [r'|e|] eqn:E; cbn [bind]; try discriminate.
    destruct (eval_requirements descs r') eqn:Ev; [|discriminate]. intros [= <-].
    pose proof (proj1 (eval_requirements_iff r') Ev) as Hev. split; [exact Hev|].
    apply matched_creds_ok in E as [(vss & -> & F)|[-> Hne]].
    - exists vss. split; [reflexivity|assumption].
    - exfalso. destruct descs as [|d ds]; [congruence|]. destruct (Hev d (or_introl eq_refl)) as (v & [] & _).
  Qed.

  (** Converse: if every mapping matches and every descriptor is covered, Match succeeds. *)
  Lemma match_mapping_intro i pid m c d :
    input_descriptor descs (m_id m) = Some d ->
    (expects_vp_list m = true \/ nvps = 1%nat \/ merged = None) ->
    select (root_of i m) m = Ok c ->
    (exists l, f_schema (d_schema d) [c] = Ok l /\ (l <> [] \/ disable_schema = true)) ->
    f_constraints (d_constraints d) [c] = Ok [c] ->
    mm i pid (Some m) = Go {| mv_pres := pid; mv_cred := c; mv_desc := m_id m |}.
  Proof.
    intros Hd He Hs (l & Hf & Hl) Hc. unfold match_mapping. rewrite Hd.
    assert (E : (if expects_vp_list m then Some (select (RootList i) m)
            else if (Nat.eqb nvps 1 || match merged with None => true | Some _ => false end)%bool
                 then Some (select (RootVP i) m) else None) = Some (Ok c)).
    { rewrite <- Hs. unfold root_of. destruct (expects_vp_list m); [reflexivity|].
      destruct He as [He|[-> | ->]]; [discriminate|reflexivity|rewrite orb_true_r; reflexivity]. }
    rewrite E, Hf. assert (En : (is_nil l && negb disable_schema)%bool = false).
    { destruct Hl as [Hl| ->]; [destruct l; [congruence|reflexivity]|now rewrite andb_false_r]. }
    rewrite En, Hc. reflexivity.
  Qed.
  Lemma match_mappings_intro i pid (g : mapping -> match_value) : forall l acc,
    (forall m, In m l -> mm i pid (Some m) = Go (g m)) ->
    mms i pid (map Some l) acc = inr (acc ++ map g l)%list.
  Proof.
    induction l as [|m l IH]; intros acc H; cbn [map match_mappings]; [now rewrite app_nil_r|].
    rewrite (H m (or_introl eq_refl)), IH by (intros; apply H; now right). now rewrite <- app_assoc.
  Qed.
End Match.

(** ** Descriptor-map paths *)
Lemma substring_drop2 a b s : substring 2 (String.length (String a (String b s))) (String a (String b s)) = s.
Proof.
  cbn. assert (G : forall s n, (String.length s <= n)%nat -> substring 0 n s = s).
  { induction s0 as [|c s0 IH]; intros n Hn; destruct n; cbn in *; auto; [lia|]. f_equal. apply IH. lia. }
  apply G. lia.
Qed.
Lemma root_index_itoa i rest : Z.of_nat i < 2^63 -> root_index ("$[" ++ itoa i ++ String "]" rest) = Z.of_nat i.
Proof.
  intros Hi. unfold root_index. change ("$[" ++ itoa i ++ String "]" rest) with (String "$" (String "[" (itoa i ++ String "]" rest))).
  rewrite substring_drop2. cbn [has_prefix Ascii.eqb Bool.eqb negb andb].
  rewrite split_on_app by (apply itoa_free; reflexivity).
  destruct (String.eqb_spec (itoa i) "") as [E|_]; [now apply itoa_nonempty in E|].
  now rewrite atoi_itoa.
Qed.
Lemma entry_id fmt sep d c i : m_id (entry fmt sep d c i) = d.
Proof. unfold entry. now destruct sep. Qed.
Lemma entry_separate_index fmt d c i : Z.of_nat i < 2^63 -> presentation_index (entry fmt true d c i) = Z.of_nat i.
Proof.
  intros Hi. unfold entry. cbn [presentation_index].
  change ("$[" ++ itoa i ++ "]") with ("$[" ++ itoa i ++ String "]" "").
  rewrite root_index_itoa by assumption. destruct (Z.of_nat i =? -1) eqn:E; [apply Z.eqb_eq in E; lia|reflexivity].
Qed.
Lemma entry_separate_list fmt d c i : expects_vp_list (entry fmt true d c i) = true.
Proof. reflexivity. Qed.
Lemma entry_single_list fmt d c i : expects_vp_list (entry fmt false d c i) = false.
Proof. unfold entry. destruct (String.eqb fmt "jwt_vp"); reflexivity. Qed.
Lemma entry_single_index fmt d c i : presentation_index (entry fmt false d c i) = 0.
Proof. unfold entry. destruct (String.eqb fmt "jwt_vp"); reflexivity. Qed.

(** ** C14: what merge submits, Match accepts when every descriptor has a match. *)
Section Compose.
  Variable select : root -> mapping -> res cred.
  Variable f_schema : list schema -> list cred -> res (list cred).
  Variable f_constraints : option constraints -> list cred -> res (list cred).
  Variable disable_schema : bool.
  Variable descs : list descriptor.

  (** A match table for [descs]: every descriptor has a match and every match passes the filters. *)
  Definition good_table (table : gomap (list credw)) : Prop :=
    NoDup (map fst table) /\ NoDup (map d_id descs) /\ uid_identifies table /\
    (forall d, In d descs -> exists l, In (d_id d, l) table /\ l <> []) /\
    (forall id l cw, In (id, l) table -> In cw l -> exists d, In d descs /\ d_id d = id /\
       (exists k, f_schema (d_schema d) [cw_vc cw] = Ok k /\ (k <> [] \/ disable_schema = true)) /\
       f_constraints (d_constraints d) [cw_vc cw] = Ok [cw_vc cw]).

  Lemma input_descriptor_nodup d : NoDup (map d_id descs) -> In d descs -> input_descriptor descs (d_id d) = Some d.
  Proof.
    unfold input_descriptor. induction descs as [|x xs IH]; intros Hn Hin; [destruct Hin|]. cbn. inversion Hn; subst.
    destruct (String.eqb_spec (d_id x) (d_id d)) as [E|E].
    - destruct Hin as [->|Hin]; [reflexivity|]. exfalso. apply H1. rewrite E. now apply in_map.
    - destruct Hin as [->|Hin]; [congruence|auto].
  Qed.

  (** What each entry of the map is, under unique ids. *)
  Lemma merge_entries fmt sep table result maps : NoDup (map fst table) -> uid_identifies table ->
    merge fmt table sep = (result, maps) ->
    (forall m, In m maps -> exists d l cw i, In (d, l) table /\ In cw l /\
        m = entry fmt sep d (cw_vc cw) i /\ nth_error result i = Some (cw_vc cw)) /\
    (forall d l cw, In (d, l) table -> In cw l -> exists i, nth_error result i = Some (cw_vc cw) /\
        In (entry fmt sep d (cw_vc cw) i) maps).
  Proof.
    intros Hnd Hu Hm. destruct (merge_spec fmt table sep result maps Hnd Hm) as (_ & H2 & H3 & _). split.
    - intros m Hin. destruct (H3 m Hin) as (d & l & cw & i & d' & l' & cw' & A & B & C & D & E & F & G).
      exists d, l, cw, i. repeat (split; [assumption|]). rewrite G. f_equal. exact (Hu d' l' cw' d l cw D E A B F).
    - intros d l cw A B. destruct (H2 d l cw A B) as (i & d' & l' & cw' & C & D & E & F & G). exists i.
      split; [|assumption]. rewrite F. f_equal. exact (Hu d' l' cw' d l cw C D A B E).
  Qed.

  Definition value_of (result : list cred) (pid : string) (m : mapping) (i : nat) : match_value :=
    {| mv_pres := pid; mv_cred := nth i result {| c_id := ""; c_issuer := None; c_subject_ids := []; c_proof_types := [];
         c_jwt := false; c_alg := None; c_contexts := []; c_types := []; c_src := None |}; mv_desc := m_id m |}.

  Lemma Forall2_In_l {A B} (R : A -> B -> Prop) l l' x : Forall2 R l l' -> In x l -> exists y, In y l' /\ R x y.
  Proof. induction 1 as [|a b l l' H F IH]; intros Hin; destruct Hin; [subst; exists b; split; [now left|assumption]|]. destruct IH as (y & Hy & Hr); [assumption|]. exists y. split; [now right|assumption]. Qed.

  Lemma match_mappings_exists nvps merged i pid (Q : mapping -> match_value -> Prop) : forall l acc,
    (forall m, In m l -> exists v, match_mapping select f_schema f_constraints disable_schema descs nvps merged i pid (Some m) = Go v /\ Q m v) ->
    exists vs, match_mappings select f_schema f_constraints disable_schema descs nvps merged i pid (map Some l) acc = inr (acc ++ vs)%list /\ Forall2 Q l vs.
  Proof.
    induction l as [|m l IH]; intros acc H; cbn [map match_mappings]; [exists []; rewrite app_nil_r; split; [reflexivity|constructor]|].
    destruct (H m (or_introl eq_refl)) as (v & E & Hq). rewrite E.
    destruct (IH (acc ++ [v])%list) as (vs & E2 & F); [intros; apply H; now right|].
    exists (v :: vs). rewrite E2, <- app_assoc. split; [reflexivity|]. now constructor.
  Qed.

  Lemma Forall2_In_r {A B} (R : A -> B -> Prop) l l' y : Forall2 R l l' -> In y l' -> exists x, In x l /\ R x y.
  Proof. induction 1 as [|a b l l' H F IH]; intros Hin; destruct Hin; [subst; exists a; split; [now left|assumption]|]. destruct IH as (x & Hx & Hr); [assumption|]. exists x. split; [now right|assumption]. Qed.

  Section Values.
    Variables (fmt : string) (sep : bool) (table : gomap (list credw)) (result : list cred) (maps : list mapping).
    Hypothesis Hg : good_table table.
    Hypothesis Hm : merge fmt table sep = (result, maps).
    Variable rt : nat -> root.
    Hypothesis Hsel : forall d c i, nth_error result i = Some c -> select (rt i) (entry fmt sep d c i) = Ok c.
    (** Value [v] is what mapping [m] selects. *)
    Definition selected_by (m : mapping) (v : match_value) : Prop :=
      exists d c i, m = entry fmt sep d c i /\ nth_error result i = Some c /\ mv_desc v = d /\
        select (rt i) m = Ok (mv_cred v).
    Lemma step_ok nvps merged i pid m :
      In m maps -> (sep = true \/ nvps = 1%nat \/ merged = None) ->
      (forall d c j, m = entry fmt sep d c j -> nth_error result j = Some c -> root_of i m = rt j) ->
      exists v, match_mapping select f_schema f_constraints disable_schema descs nvps merged i pid (Some m) = Go v /\ selected_by m v.
    Proof.
      intros Hin Hlist Hroot. destruct Hg as (Hnt & Hnd & Hu & Hcov & Hpass).
      destruct (merge_entries fmt sep table result maps Hnt Hu Hm) as [M1 M2].
      destruct (M1 m Hin) as (d & l & cw & j & A & B & -> & C).
      destruct (Hpass d l cw A B) as (dd & D1 & D2 & D3 & D4).
      eexists. split.
      - apply match_mapping_intro with (d := dd) (c := cw_vc cw); auto.
        + rewrite entry_id, <- D2. now apply input_descriptor_nodup.
        + destruct Hlist as [->|H]; [left; reflexivity|right; exact H].
        + rewrite (Hroot _ _ _ eq_refl C). now apply Hsel.
      - exists d, (cw_vc cw), j. cbn. repeat split; auto using entry_id.
    Qed.
    Lemma values_iff vs ms : Forall2 selected_by ms vs -> (forall m, In m ms <-> In m maps) ->
      forall id c, (exists v, In v vs /\ mv_desc v = id /\ mv_cred v = c) <->
                   (exists l cw, In (id, l) table /\ In cw l /\ cw_vc cw = c).
    Proof.
      intros F Hms id c. destruct Hg as (Hnt & Hnd & Hu & Hcov & Hpass).
      destruct (merge_entries fmt sep table result maps Hnt Hu Hm) as [M1 M2]. split.
      - intros (v & Hv & <- & <-). destruct (Forall2_In_r _ _ _ _ F Hv) as (m & Hin & (d & c & i & -> & Hn & -> & Hs)).
        apply Hms in Hin. destruct (M1 _ Hin) as (d' & l & cw & j & A & B & Ee & C).
        assert (d = d') by (rewrite <- (entry_id fmt sep d c i), Ee; apply entry_id). subst d'.
        exists l, cw. repeat split; auto. rewrite (Hsel _ _ _ Hn) in Hs. injection Hs as <-.
        pose proof (Hsel d c i Hn) as S1. pose proof (Hsel d _ j C) as S2. rewrite Ee in S1.
        assert (i = j) as ->; [|congruence].
        { clear -Ee. unfold entry in Ee.
          assert (Hi : forall a b, itoa a ++ "]" = itoa b ++ "]" -> a = b).
          { intros a b H. apply (f_equal (split_on "]")) in H.
            change "]" with (String "]" "") in H. rewrite !split_on_app in H by (apply itoa_free; reflexivity).
            injection H as H. now apply itoa_inj. }
          destruct sep.
          - injection Ee as H1 H2. auto.
          - destruct (String.eqb fmt "jwt_vp"); injection Ee as H1 H2; auto. }
      - intros (l & cw & A & B & <-). destruct (M2 id l cw A B) as (i & C & D).
        apply Hms in D. destruct (Forall2_In_l _ _ _ _ F D) as (v & Hv & (d & c' & j & Ee & Hn & E1 & E2)).
        assert (i = j) as ->.
        { clear -Ee. unfold entry in Ee.
          assert (Hi : forall a b, itoa a ++ "]" = itoa b ++ "]" -> a = b).
          { intros a b H. apply (f_equal (split_on "]")) in H.
            change "]" with (String "]" "") in H. rewrite !split_on_app in H by (apply itoa_free; reflexivity).
            injection H as H. now apply itoa_inj. }
          destruct sep.
          - injection Ee as H1 H2. auto.
          - destruct (String.eqb fmt "jwt_vp"); injection Ee as H1 H2; auto. }
        exists v. split; [assumption|]. rewrite (Hsel _ _ _ C) in E2. split; [|congruence].
        rewrite E1. rewrite <- (entry_id fmt sep d c' j), <- Ee. apply entry_id.
    Qed.
    Lemma covers_all vs : (forall id c, (exists v, In v vs /\ mv_desc v = id /\ mv_cred v = c) <->
                   (exists l cw, In (id, l) table /\ In cw l /\ cw_vc cw = c)) -> eval_requirements descs vs = true.
    Proof.
      intros H. apply eval_requirements_iff. intros d Hd. destruct Hg as (Hnt & Hnd & Hu & Hcov & Hpass).
      destruct (Hcov d Hd) as (l & A & B). destruct l as [|cw l]; [congruence|].
      destruct (proj2 (H (d_id d) (cw_vc cw))) as (v & Hv & E & _); [exists (cw :: l), cw; repeat split; auto; now left|].
      eauto.
    Qed.
  End Values.

  (** One presentation carrying its own descriptor map (CreateVP). *)
  Lemma create_then_match_single fmt table result maps maps' pid :
    good_table table -> merge fmt table false = (result, maps) -> Permutation maps maps' ->
    (forall d c i, nth_error result i = Some c -> select (RootVP 0) (entry fmt false d c i) = Ok c) ->
    exists r, pex_match select f_schema f_constraints disable_schema descs 1 None
                [{| vp_id := pid; vp_context_ok := true; vp_map := Ok (map Some maps') |}] = Ok r /\
      forall id c, (exists v, In v r /\ mv_desc v = id /\ mv_cred v = c) <->
                   (exists l cw, In (id, l) table /\ In cw l /\ cw_vc cw = c).
  Proof.
    intros Hg Hm Hp Hsel.
    destruct (match_mappings_exists 1 None 0 pid (selected_by fmt false result (fun _ => RootVP 0)) maps' []) as (vs & E & F).
    { intros m Hin. apply (step_ok fmt false table result maps Hg Hm (fun _ => RootVP 0)); auto.
      - apply (Permutation_in _ (Permutation_sym Hp)) in Hin. exact Hin.
      - intros d c j -> _. unfold root_of. now rewrite entry_single_list. }
    assert (Hv : forall id c, (exists v, In v vs /\ mv_desc v = id /\ mv_cred v = c) <->
                   (exists l cw, In (id, l) table /\ In cw l /\ cw_vc cw = c)).
    { apply (values_iff fmt false table result maps Hg Hm (fun _ => RootVP 0)) with (ms := maps'); auto.
      intros m. split; apply Permutation_in; [now apply Permutation_sym|assumption]. }
    exists vs. split; [|exact Hv]. unfold pex_match. cbn [matched_creds vp_context_ok negb vp_map bind vp_id].
    rewrite E. cbn [app matched_creds bind]. now rewrite (covers_all table Hg vs Hv).
  Qed.

  (** A list of presentations with one credential each and a merged submission (CreateVPArray). *)
  Lemma mappings_of_map l i : mappings_of (map Some l) i = map Some (filter (fun m => presentation_index m =? Z.of_nat i) l).
  Proof.
    unfold mappings_of. induction l as [|m l IH]; [reflexivity|]. cbn [map filter].
    destruct (presentation_index m =? Z.of_nat i); cbn [map]; now rewrite IH.
  Qed.
  Lemma create_then_match_array fmt table result maps maps' vps :
    good_table table -> merge fmt table true = (result, maps) -> Permutation maps maps' ->
    List.length vps = List.length result -> Forall (fun v => vp_context_ok v = true) vps ->
    Z.of_nat (List.length result) < 2^63 ->
    (forall d c i, nth_error result i = Some c -> select (RootList i) (entry fmt true d c i) = Ok c) ->
    exists r, pex_match select f_schema f_constraints disable_schema descs (List.length vps) (Some (map Some maps')) vps = Ok r /\
      (forall id c, (exists v, In v r /\ mv_desc v = id /\ mv_cred v = c) <->
                   (exists l cw, In (id, l) table /\ In cw l /\ cw_vc cw = c)) /\
      (forall v, In v r -> exists i p, nth_error vps i = Some p /\ mv_pres v = vp_id p /\ nth_error result i = Some (mv_cred v)).
  Proof.
    intros Hg Hm Hp Hlen Hctx Hbig Hsel.
    pose proof Hg as (Hnt & Hnd & Hu & Hcov & Hpass).
    destruct (merge_entries fmt true table result maps Hnt Hu Hm) as [M1 M2].
    assert (Hmaps : forall m, In m maps' -> exists d c i, m = entry fmt true d c i /\ nth_error result i = Some c /\
              presentation_index m = Z.of_nat i /\ (i < List.length result)%nat).
    { intros m Hin. apply (Permutation_in _ (Permutation_sym Hp)) in Hin. destruct (M1 m Hin) as (d & l & cw & i & A & B & -> & C).
      assert (i < List.length result)%nat by (apply nth_error_Some; congruence).
      exists d, (cw_vc cw), i. repeat split; auto. apply entry_separate_index. lia. }
    assert (G : forall n vs0 i acc, List.length vs0 = n -> (exists pre, vps = (pre ++ vs0)%list /\ List.length pre = i) ->
      exists vss, matched_creds select f_schema f_constraints disable_schema descs (List.length vps) (Some (map Some maps')) i vs0 acc
                  = Ok (acc ++ List.concat vss)%list /\
        Forall2 (selected_by fmt true result RootList)
          (List.concat (map (fun j => filter (fun m => presentation_index m =? Z.of_nat j) maps') (seq i n))) (List.concat vss) /\
        (forall v, In v (List.concat vss) -> exists i p, nth_error vps i = Some p /\ mv_pres v = vp_id p /\ nth_error result i = Some (mv_cred v))).
    { induction n as [|n IH]; intros vs0 i acc Hn (pre & Epre & Hpre).
      - destruct vs0; [|discriminate]. exists []. cbn. rewrite app_nil_r. repeat split; [constructor|intros v []].
      - destruct vs0 as [|p vs0]; [discriminate|]. cbn [matched_creds].
        assert (Hpin : nth_error vps i = Some p) by (rewrite Epre, nth_error_app2, Hpre, Nat.sub_diag by lia; reflexivity).
        assert (Hc : vp_context_ok p = true) by (rewrite Forall_forall in Hctx; apply Hctx; eapply nth_error_In; exact Hpin).
        rewrite Hc. cbn [negb bind]. rewrite mappings_of_map.
        set (l := filter (fun m => presentation_index m =? Z.of_nat i) maps').
        destruct (match_mappings_exists (List.length vps) (Some (map Some maps')) i (vp_id p)
                   (fun m v => selected_by fmt true result RootList m v /\ mv_pres v = vp_id p) l acc) as (vs & E & F).
        { intros m Hin. apply filter_In in Hin as [Hin Hi]. apply Z.eqb_eq in Hi.
          destruct (Hmaps m Hin) as (d & c & j & -> & Hj & Hidx & Hlt). assert (i = j) by lia. subst j.
          destruct (step_ok fmt true table result maps Hg Hm RootList Hsel (List.length vps) (Some (map Some maps')) i (vp_id p) (entry fmt true d c i)) as (v & Ev & Hv).
          - apply (Permutation_in _ (Permutation_sym Hp)). exact Hin.
          - now left.
          - intros d' c' j' Ee Hj'. unfold root_of. rewrite entry_separate_list. f_equal.
            assert (j' < List.length result)%nat by (apply nth_error_Some; congruence).
            assert (Z.of_nat j' = Z.of_nat i); [|lia]. rewrite <- (entry_separate_index fmt d' c' j') by lia. rewrite <- Ee. assumption.
          - exists v. split; [assumption|]. split; [assumption|].
            apply match_mapping_go in Ev as (m' & [= <-] & (d0 & c0 & X)). apply X. }
        rewrite E. destruct (IH vs0 (S i) (acc ++ vs)%list) as (vss & E2 & F2 & P2).
        { now injection Hn. }
        { exists (pre ++ [p])%list. rewrite <- app_assoc. split; [assumption|]. rewrite app_length. cbn. lia. }
        exists (vs :: vss). cbn [List.concat seq map]. rewrite E2, app_assoc. split; [reflexivity|]. split.
        + apply Forall2_app; [|assumption]. fold l. clear -F. induction F; constructor; tauto.
        + intros v Hv. apply in_app_or in Hv as [Hv|Hv]; [|auto].
          destruct (Forall2_In_r _ _ _ _ F Hv) as (m & Hin & ((d & c & j & -> & Hj & _ & Hs) & Hpv)).
          apply filter_In in Hin as [Hin Hi]. apply Z.eqb_eq in Hi.
          assert (j < List.length result)%nat by (apply nth_error_Some; congruence).
          rewrite entry_separate_index in Hi by lia. assert (i = j) by lia. subst j.
          exists i, p. repeat split; auto. rewrite (Hsel _ _ _ Hj) in Hs. congruence. }
    destruct (G (List.length vps) vps 0%nat []) as (vss & E & F & P); [reflexivity|exists []; auto|].
    assert (Hv : forall id c, (exists v, In v (List.concat vss) /\ mv_desc v = id /\ mv_cred v = c) <->
                   (exists l cw, In (id, l) table /\ In cw l /\ cw_vc cw = c)).
    { eapply (values_iff fmt true table result maps Hg Hm RootList); [exact Hsel|exact F|].
      intros m. rewrite in_concat. split.
      - intros (x & Hx & Hin). apply in_map_iff in Hx as (j & <- & _). apply filter_In in Hin as [Hin _].
        now apply (Permutation_in _ (Permutation_sym Hp)).
      - intros Hin. apply (Permutation_in _ Hp) in Hin. destruct (Hmaps m Hin) as (d & c & i & Em & Hi & Hidx & Hlt).
        exists (filter (fun m => presentation_index m =? Z.of_nat i) maps'). split.
        + apply in_map_iff. exists i. split; [reflexivity|]. apply in_seq. lia.
        + apply filter_In. split; [assumption|]. apply Z.eqb_eq. assumption. }
    exists (List.concat vss). unfold pex_match. rewrite E. cbn [app bind]. rewrite (covers_all table Hg _ Hv). auto.
  Qed.
End Compose.
