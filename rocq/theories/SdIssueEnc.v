(** Encoded trees: what an issuer's payload and disclosures look like, and what resolving them gives. *)
From Verif Require Import GoBase Base64 JwtSpec JwtModel JwtProofs SdSpec SdModel SdProofs SdRun SdOrder SdParseProofs SdSubset SdIssueSpec.

(** ** Ordinary values resolve to themselves *)
Lemma ordinary_wf j : ordinary j -> wf_json j.
Proof.
  induction j as [| | | |l IH|m IH] using json_ind'; intros H; try exact I.
  - apply wf_arr. inversion H as [? Hx|l' Hn Ha|]; subst; [destruct Hx|]. rewrite Forall_forall in *. auto.
  - apply wf_obj. inversion H as [? Hx| |m' Hn Ha]; subst; [destruct Hx|]. split; [assumption|].
    rewrite Forall_forall in *. intros [k v] Hi. apply (IH _ Hi). exact (proj2 (Ha _ _ Hi)).
Qed.
Lemma ordinary_nn j : ordinary j -> j <> JNull.
Proof. intros H ->. inversion H as [? Hx| |]; subst; destruct Hx. Qed.
Lemma not_reserved_plain clean k : ~ reserved k -> plain_key clean k = true.
Proof.
  unfold reserved, plain_key. intros H. destruct (String.eqb_spec k "_sd"); [tauto|].
  destruct (String.eqb_spec k "_sd_alg"); [tauto|]. now rewrite andb_false_r.
Qed.
Lemma ordinary_sd_list m : (forall k v, In (k, v) m -> ~ reserved k) -> sd_list m = Some [].
Proof.
  intros H. unfold sd_list. destruct (mget m "_sd") eqn:E; [|reflexivity].
  apply mget_In in E. exfalso. apply (H _ _ E). now left.
Qed.
Lemma ordinary_not_elem j : ordinary j -> digest_elem j = None.
Proof.
  intros H. destruct j as [| | | | |m]; try reflexivity. simpl. inversion H as [? Hx| |m' Hn Ha]; subst; [destruct Hx|].
  destruct (mget m "...") eqn:E; [|reflexivity]. apply mget_In in E. exfalso. apply (Ha _ _ E). right. now right.
Qed.
Lemma Members_ordinary clean D m : (forall k v, In (k, v) m -> ~ reserved k /\ v <> JNull /\ Res clean D v v []) ->
  Members clean D m m [].
Proof.
  induction m as [|[k v] m IH]; intros H; [constructor|].
  destruct (H k v (or_introl eq_refl)) as (H1 & H2 & H3).
  assert (Hm : Members clean D m m []) by (apply IH; intros; apply H; now right).
  pose proof (Mb_keep clean D k v v m m [] [] (not_reserved_plain clean k H1) H3 Hm) as M.
  simpl in M. destruct v; try congruence; exact M.
Qed.
Lemma Res_ordinary clean D j : ordinary j -> Res clean D j j [].
Proof.
  induction j as [| | | |l IH|m IH] using json_ind'; intros H; try now constructor.
  - inversion H as [? Hx|l' Hn Ha|]; subst; [destruct Hx|].
    replace (JArr l) with (arr_or_null l) at 2 by (destruct l; [congruence|reflexivity]). constructor.
    clear Hn IH H. induction l as [|v l IH]; [constructor|].
    constructor; [apply ordinary_not_elem, Ha; now left|apply IH; intros; apply Ha; now right].
  - inversion H as [? Hx| |m' Hn Ha]; subst; [destruct Hx|].
    replace (JObj m) with (JObj (with_hidden clean [] [] ++ m)%list) at 2 by (destruct clean; reflexivity).
    apply (Res_obj clean D m [] [] [] [] m []).
    + apply ordinary_sd_list. intros k v Hi. exact (proj1 (Ha _ _ Hi)).
    + constructor.
    + apply Members_ordinary. intros k v Hi. destruct (Ha _ _ Hi). rewrite Forall_forall in IH.
      repeat split; auto using ordinary_nn. exact (IH _ Hi H1).
    + constructor.
    + intros k _ _ [].
Qed.

(** ** Permuting the digests of an object *)
Lemma Named_perm clean D l l' : Permutation l l' -> forall out hid ds, Named clean D l out hid ds ->
  exists out' hid' ds', Named clean D l' out' hid' ds' /\ Permutation out out' /\ Permutation hid hid' /\ Permutation ds ds'.
Proof.
  induction 1 as [|x l l' Hp IH|x y l|l l' l'' _ IH1 _ IH2]; intros out hid ds H.
  - eauto 10.
  - inversion H as [|? ? ? ? ? Hd H1|? ? ? ? ? ? ? ? ? Hd Hr H1]; subst.
    + apply IH in H1 as (o' & h' & d' & H1 & P1 & P2 & P3). exists o', (x :: h'), (x :: d').
      split; [now constructor|]. auto.
    + apply IH in H1 as (o' & h' & d' & H1 & P1 & P2 & P3). eexists _, _, _.
      split; [eapply Nm_disclosed; eauto|]. repeat split; auto. constructor. now apply Permutation_app_head.
  - inversion H as [|? ? ? ? ? Hd H1|? n1 x1 x1' e1 ? o1 h1 g1 Hd Hr H1]; subst;
      inversion H1 as [|? ? ? ? ? Hd2 H2|? n2 x2 x2' e2 ? o2 h2 g2 Hd2 Hr2 H2]; subst.
    + eexists _, _, _. split; [apply Nm_hidden; [eassumption|apply Nm_hidden; eassumption]|].
      repeat split; auto; constructor.
    + eexists _, _, _. split; [eapply Nm_disclosed; [eassumption|eassumption|apply Nm_hidden; eassumption]|].
      repeat split; auto. simpl. rewrite perm_swap. constructor. apply Permutation_middle.
    + eexists _, _, _. split; [apply Nm_hidden; [eassumption|eapply Nm_disclosed; eassumption]|].
      repeat split; auto. simpl. rewrite <- Permutation_middle. apply perm_swap.
    + eexists _, _, _. split; [eapply Nm_disclosed; [eassumption|eassumption|eapply Nm_disclosed; eassumption]|].
      repeat split; auto; [apply perm_swap|]. simpl.
      rewrite <- !Permutation_middle. rewrite perm_swap. constructor. constructor. rewrite !app_assoc.
      apply Permutation_app_tail, Permutation_app_comm.
  - apply IH1 in H as (o1 & h1 & d1 & H & P1 & P2 & P3). apply IH2 in H as (o2 & h2 & d2 & H & P4 & P5 & P6).
    exists o2, h2, d2. split; [assumption|]. repeat split; etransitivity; eassumption.
Qed.
Lemma Named_hidden clean D l : (forall d, In d l -> D d = None) -> Named clean D l [] l l.
Proof. induction l as [|d l IH]; intros H; [constructor|]. constructor; [apply H; now left|apply IH; intros; apply H; now right]. Qed.
Lemma Named_app clean D a o1 h1 d1 : Named clean D a o1 h1 d1 -> forall b o2 h2 d2, Named clean D b o2 h2 d2 ->
  Named clean D (a ++ b) (o1 ++ o2) (h1 ++ h2) (d1 ++ d2)%list.
Proof.
  induction 1; intros b o2 h2 d2 Hb; simpl; [assumption|constructor; auto|].
  rewrite <- app_assoc. eapply Nm_disclosed; eauto.
Qed.
Lemma Members_app clean D a o1 d1 : Members clean D a o1 d1 -> forall b o2 d2, Members clean D b o2 d2 ->
  Members clean D (a ++ b) (o1 ++ o2) (d1 ++ d2)%list.
Proof.
  induction 1; intros b o2 d2 Hb; simpl; [assumption|constructor; auto|].
  rewrite <- app_assoc. pose proof (Mb_keep clean D k v v' _ _ ds1 _ H H0 (IHMembers _ _ _ Hb)) as M.
  destruct v'; simpl; exact M.
Qed.

(** ** Encodings *)
Section Enc.
Variables (E : sdenv) (h : hashalg).
Notation H := (get_hash E h).

Definition EncElem (e : option string * json) (v : json) : Prop :=
  ordinary (snd e) /\
  match fst e with
  | None => v = snd e
  | Some s => v = JObj [("...", JStr (H s))] /\ exists j', dsp E s = Some (CElem j') /\ jeq (snd e) j'
  end.
(** [sd_member x sds]: the [_sd] member (absent, null or the list of digests) *)
Definition sd_member (p : list (string * json)) (sds : list string) : Prop :=
  (p = [] /\ sds = []) \/ (p = [("_sd", JNull)] /\ sds = []) \/ p = [("_sd", JArr (map JStr sds))].
Definition names (mems : list (string * option string * tree)) : list string := map (fun x => fst (fst x)) mems.

(** [Enc t j dec]: [j] encodes [t]; [dec]: decoy digests *)
Inductive Enc : tree -> json -> list string -> Prop :=
| Enc_val j : ordinary j -> Enc (TVal j) j []
| Enc_arr els l : els <> [] -> Forall2 EncElem els l -> Enc (TArr els) (JArr l) []
| Enc_obj mems clear hid dec decoys sdp sds :
    EncMems mems clear hid dec -> NoDup (names mems) -> (forall n, In n (names mems) -> ~ reserved n) ->
    sd_member sdp sds -> Permutation (hid ++ decoys) sds ->
    Enc (TObj mems) (JObj (clear ++ sdp)%list) (dec ++ decoys)%list
with EncMems : list (string * option string * tree) -> list (string * json) -> list string -> list string -> Prop :=
| EM_nil : EncMems [] [] [] []
| EM_clear n t v d1 r c hd d : Enc t v d1 -> EncMems r c hd d -> EncMems ((n, None, t) :: r) ((n, v) :: c) hd (d1 ++ d)%list
| EM_hidden n s t v v' r c hd d : Enc t v [] -> dsp E s = Some (CMember n v') -> jeq v v' -> EncMems r c hd d ->
    EncMems ((n, Some s, t) :: r) c (H s :: hd) d.
End Enc.
Scheme Enc_mind := Induction for Enc Sort Prop
  with EncMems_mind := Induction for EncMems Sort Prop.
Combined Scheme Enc_mutind from Enc_mind, EncMems_mind.

Lemma EncMems_app E h a c1 h1 d1 : EncMems E h a c1 h1 d1 -> forall b c2 h2 d2, EncMems E h b c2 h2 d2 ->
  EncMems E h (a ++ b) (c1 ++ c2) (h1 ++ h2) (d1 ++ d2)%list.
Proof.
  induction 1; intros b c2 h2 d2 Hb; simpl; [assumption| |].
  - rewrite <- app_assoc. constructor; auto.
  - eapply EM_hidden; eauto.
Qed.

Definition hnames (sel : string -> bool) (mems : list (string * option string * tree)) : list string :=
  flat_map (fun x => match snd (fst x) with Some s => if sel s then [fst (fst x)] else [] | None => [] end) mems.
Definition cnames (mems : list (string * option string * tree)) : list string :=
  flat_map (fun x => match snd (fst x) with None => [fst (fst x)] | Some _ => [] end) mems.
Lemma hnames_in sel mems n : In n (hnames sel mems) -> In n (names mems).
Proof.
  unfold hnames, names. rewrite in_flat_map, in_map_iff. intros ([[k l] t] & Hi & Hx). exists (k, l, t). simpl in *.
  destruct l as [s|]; [|destruct Hx]. destruct (sel s); [destruct Hx as [<-|[]]; auto|destruct Hx].
Qed.
Lemma cnames_in mems n : In n (cnames mems) -> In n (names mems).
Proof.
  unfold cnames, names. rewrite in_flat_map, in_map_iff. intros ([[k l] t] & Hi & Hx). exists (k, l, t). simpl in *.
  destruct l as [s|]; [destruct Hx|destruct Hx as [<-|[]]; auto].
Qed.
Lemma hnames_nodup sel mems : NoDup (names mems) -> NoDup (hnames sel mems).
Proof.
  induction mems as [|[[n l] t] mems IH]; intros N; [constructor|]. inversion N; subst. simpl.
  destruct l as [s|]; [destruct (sel s)|]; simpl; auto. constructor; auto. intros Hi. apply H1. now apply hnames_in in Hi.
Qed.
Lemma names_disjoint sel mems n : NoDup (names mems) -> In n (cnames mems) -> In n (hnames sel mems) -> False.
Proof.
  induction mems as [|[[k l] t] mems IH]; intros N; [tauto|]. inversion N; subst. simpl.
  destruct l as [s|]; simpl.
  - intros Hc. destruct (sel s); simpl; [|auto]. intros [<-|Hh]; [|auto]. apply H1. now apply cnames_in.
  - intros [<-|Hc] Hh; [|auto]. apply H1. now apply hnames_in in Hh.
Qed.
Lemma EncMems_cnames E h mems c hd d : EncMems E h mems c hd d -> map fst c = cnames mems.
Proof. induction 1; simpl; [reflexivity|now rewrite IHEncMems|assumption]. Qed.
Lemma sd_member_keys p sds k : sd_member p sds -> In k (map fst p) -> k = "_sd".
Proof. intros [[-> _]|[[-> _]| ->]]; simpl; intuition. Qed.
Lemma all_strings_map_JStr l : all_strings (map JStr l) = Some l.
Proof. induction l as [|x l IH]; [reflexivity|]. simpl. now rewrite IH. Qed.
Lemma sd_member_list m p sds : sd_member p sds -> ~ In "_sd" (map fst m) -> sd_list (m ++ p)%list = Some sds.
Proof.
  intros Hp Hm. assert (He : mget (m ++ p)%list "_sd" = mget p "_sd").
  { induction m as [|[k v] m IH]; [reflexivity|]. cbn [mget app map fst In] in *. destruct (String.eqb_spec "_sd" k); [subst; tauto|]. apply IH. tauto. }
  unfold sd_list. rewrite He. destruct Hp as [[-> ->]|[[-> ->]| ->]]; simpl; try reflexivity. apply all_strings_map_JStr.
Qed.
Lemma sd_member_Members clean D p sds : sd_member p sds -> Members clean D p [] [].
Proof. intros [[-> ->]|[[-> ->]| ->]]; [constructor| |]; (apply Mb_skip; [reflexivity|constructor]). Qed.
Lemma sd_member_wf p sds : sd_member p sds -> Forall (fun kv => wf_json (snd kv)) p.
Proof.
  intros [[-> ->]|[[-> ->]| ->]]; repeat constructor. simpl.
  induction sds as [|x l IH]; simpl; auto.
Qed.
Lemma sd_member_nodup p sds : sd_member p sds -> NoDup (map fst p).
Proof. intros [[-> ->]|[[-> ->]| ->]]; repeat constructor; simpl; tauto. Qed.

Lemma NoDup_app_intro {A} (a b : list A) : NoDup a -> NoDup b -> (forall x, In x a -> ~ In x b) -> NoDup (a ++ b)%list.
Proof.
  induction a as [|x a IH]; intros Ha Hb Hd; [assumption|]. inversion Ha; subst. simpl. constructor.
  - rewrite in_app_iff. intros [Hx|Hx]; [contradiction|]. apply (Hd x); [now left|assumption].
  - apply IH; auto. intros y Hy. apply Hd. now right.
Qed.
Lemma cnames_nodup mems : NoDup (names mems) -> NoDup (cnames mems).
Proof.
  induction mems as [|[[n l] t] mems IH]; intros N; [constructor|]. inversion N; subst. simpl.
  destruct l; simpl; auto. constructor; auto. intros Hi. apply H1. now apply cnames_in.
Qed.
Lemma Enc_wf E h :
  (forall t j dec, Enc E h t j dec -> wf_json j) /\
  (forall mems c hd d, EncMems E h mems c hd d -> Forall (fun kv => wf_json (snd kv)) c).
Proof.
  apply Enc_mutind.
  - intros j Ho. now apply ordinary_wf.
  - intros els l _ F. apply wf_arr. induction F as [|[lb v] w els l [Ho Hv] F IH]; [constructor|]. constructor; [|assumption].
    simpl in Hv. destruct lb as [s|].
    + destruct Hv as [-> _]. simpl. repeat split; repeat constructor. simpl. tauto.
    + subst w. now apply ordinary_wf.
  - intros mems c hd d decoys p sds HM IH N Hres Hp Hperm. apply wf_obj. split.
    + rewrite map_app. rewrite (EncMems_cnames _ _ _ _ _ _ HM). apply NoDup_app_intro.
      * now apply cnames_nodup.
      * now apply sd_member_nodup in Hp.
      * intros k Hk Hk2. apply (sd_member_keys _ _ _ Hp) in Hk2. subst. apply cnames_in in Hk. apply (Hres _ Hk). now left.
    + apply Forall_app. split; [assumption|]. now apply sd_member_wf in Hp.
  - constructor.
  - intros. constructor; assumption.
  - intros. assumption.
Qed.

Lemma jeq_trans a : forall x y, jeq a x -> jeq x y -> jeq a y.
Proof.
  induction a as [| | | |l IH|m IH] using json_ind'; intros x y H1 H2;
    try (inversion H1; subst; assumption).
  - inversion H1 as [? Hx|l0 l' F|]; subst; [destruct Hx|]. inversion H2 as [? Hx|l1 l'' F'|]; subst; [destruct Hx|].
    constructor. clear H1 H2. revert l'' F'. induction F as [|x y l l' Hxy F IHF]; intros l'' F'.
    + inversion F'; subst. constructor.
    + inversion F'; subst. inversion IH; subst. constructor; eauto.
  - inversion H1 as [? Hx| |m0 p m' Hp F]; subst; [destruct Hx|]. inversion H2 as [? Hx| |m1 p' m'' Hp' F']; subst; [destruct Hx|].
    destruct (Forall2_perm_r _ _ _ Hp' _ F) as (p2 & Hp2 & F2).
    apply jeq_obj with (p := p2); [etransitivity; eassumption|].
    assert (IH2 : Forall (fun kv => forall b c, jeq (snd kv) b -> jeq b c -> jeq (snd kv) c) p2).
    { rewrite Forall_forall in *. intros x Hx. apply IH. eapply Permutation_in; [|exact Hx].
      apply Permutation_sym. etransitivity; eassumption. }
    clear - F2 F' IH2. revert m'' F'. induction F2 as [|x y l l' [Hk Hxy] F IHF]; intros l'' F'.
    + inversion F'; subst. constructor.
    + inversion F' as [|? z ? ? [Hk2 Hyz]]; subst. inversion IH2; subst. constructor; [|auto].
      split; [congruence|]. eauto.
Qed.

(** ** Resolving an encoding reveals exactly the selected parts *)
Section Resolve.
Variables (E : sdenv) (h : hashalg) (sel : string -> bool) (D : string -> option dcontent) (clean : bool).
Hypothesis (HwD : wfD D).
Notation H := (get_hash E h).
(** the disclosures supplied for the digests of a tree are the selected ones *)
Definition agrees (l : list string) : Prop := forall s, In s l -> D (H s) = if sel s then dsp E s else None.
Definition nothing (l : list string) : Prop := forall d, In d l -> D d = None.

Lemma Deq_refl : Deq D D.
Proof.
  intros d. destruct (D d) as [[v|n v|]|]; simpl; auto. apply jeq_refl. split; [reflexivity|apply jeq_refl].
Qed.
Lemma all_discs_obj mems : all_discs (TObj mems) = flat_map (fun x => (opt_list (snd (fst x)) ++ all_discs (snd x))%list) mems.
Proof. unfold all_discs. simpl. apply flat_map_ext. intros [[n l] t]. simpl. destruct l; reflexivity. Qed.

Definition good (t : tree) (j : json) (dec : list string) : Prop :=
  agrees (all_discs t) -> nothing dec ->
  exists out ds, Res clean D j out ds /\ (clean = true -> jeq out (reveal sel t)) /\
    Permutation ds (map H (reachable sel t) ++ dec)%list.

Lemma Elems_good els l : Forall2 (EncElem E h) els l -> agrees (all_discs (TArr els)) ->
  exists out, Elems clean D l out (map H (reachable sel (TArr els))) /\
    (clean = true -> Forall2 jeq out (map snd (filter (fun e => shown sel (fst e)) els))).
Proof.
  unfold all_discs. simpl. induction 1 as [|[lb v] w els l [Ho Hv] F IH]; intros Ha; simpl in *.
  - exists []. split; [constructor|]. constructor.
  - destruct IH as (out & He & Hj). { intros s Hs. apply Ha. apply in_app_iff. now right. }
    destruct lb as [s|]; simpl in *.
    + destruct Hv as [-> (j' & Hd & Hjj)]. pose proof (Ha s (or_introl eq_refl)) as HD.
      destruct (sel s) eqn:Es; simpl.
      * rewrite Hd in HD. destruct (Res_jeq clean D D Deq_refl HwD) as (HR & _).
        destruct (HR v v [] (Res_ordinary clean D v Ho) j' (ordinary_wf _ Ho) Hjj) as (o' & d' & R & Hj' & Hp).
        apply Permutation_nil in Hp. subst d'. exists (o' :: out). split.
        -- apply (El_disclosed clean D (JObj [("...", JStr (H s))]) (H s) j' o' [] l out _ eq_refl HD R He).
        -- intros Hc. constructor; [|auto]. now apply jeq_sym.
      * eexists. split; [apply (El_hidden clean D (JObj [("...", JStr (H s))]) (H s) l out _ eq_refl HD He)|]. intros ->. auto.
    + subst w. exists (v :: out). split.
      * constructor; [now apply ordinary_not_elem|assumption].
      * intros Hc. constructor; [apply jeq_refl|auto].
Qed.

(** an object with [F] in front: the registered claims of the payload *)
Definition mems_good (mems : list (string * option string * tree)) (c : list (string * json)) (hd dec : list string) : Prop :=
  (forall n, In n (names mems) -> ~ reserved n) -> agrees (all_discs (TObj mems)) -> nothing dec ->
  exists named hidden mem ds1 ds2,
    Named clean D hd named hidden ds1 /\ Members clean D c mem ds2 /\
    map fst named = hnames sel mems /\
    (clean = true -> exists p, Permutation (named ++ mem)%list p /\ Forall2 mem_eq p (members_of (reveal sel (TObj mems)))) /\
    Permutation (ds1 ++ ds2)%list (map H (reachable sel (TObj mems)) ++ dec)%list.

Lemma obj_good mems c hd dec decoys sdp sds F F' :
  EncMems E h mems c hd dec -> mems_good mems c hd dec ->
  NoDup (names mems) -> (forall n, In n (names mems) -> ~ reserved n) -> sd_member sdp sds ->
  Permutation (hd ++ decoys)%list sds ->
  ~ In "_sd" (map fst F) -> (forall k, In k (map fst F) -> ~ In k (names mems)) -> Members clean D F F' [] ->
  agrees (all_discs (TObj mems)) -> nothing (dec ++ decoys)%list ->
  exists out ds, Res clean D (JObj (F ++ c ++ sdp)%list) out ds /\
    (clean = true -> jeq out (JObj (F' ++ members_of (reveal sel (TObj mems)))%list)) /\
    Permutation ds (map H (reachable sel (TObj mems)) ++ dec ++ decoys)%list.
Proof.
  intros HE HG N Hres Hsd Hperm HF1 HF2 HMF Ha Hno.
  destruct (HG Hres Ha) as (named & hidden & mem & ds1 & ds2 & HN & HM & Hn & Hj & Hds).
  { intros d Hd. apply Hno, in_app_iff. now left. }
  assert (HN2 : Named clean D (hd ++ decoys)%list named (hidden ++ decoys) (ds1 ++ decoys)%list).
  { rewrite <- (app_nil_r named). apply Named_app; [assumption|]. apply Named_hidden. intros d Hd. apply Hno, in_app_iff. now right. }
  destruct (Named_perm _ _ _ _ Hperm _ _ _ HN2) as (named' & hidden' & ds1' & HN3 & P1 & P2 & P3).
  pose proof (EncMems_cnames _ _ _ _ _ _ HE) as Hc.
  assert (Hk : forall k, In k (map fst named') <-> In k (hnames sel mems)).
  { intros k. rewrite <- Hn. split; intros Hi; (eapply Permutation_in; [|exact Hi]); apply Permutation_map; [now apply Permutation_sym|assumption]. }
  assert (Hsdc : ~ In "_sd" (map fst c)).
  { rewrite Hc. intros Hi. apply cnames_in in Hi. apply (Hres _ Hi). now left. }
  eexists _, _. split; [|split].
  - eapply Res_obj.
    + rewrite app_assoc. apply (sd_member_list (F ++ c)%list sdp sds Hsd). rewrite map_app, in_app_iff. tauto.
    + exact HN3.
    + eapply Members_app; [exact HMF|]. eapply Members_app; [exact HM|]. eapply sd_member_Members; eassumption.
    + eapply Permutation_NoDup; [apply Permutation_map; exact P1|]. rewrite Hn. now apply hnames_nodup.
    + intros k Hi Hp Hin. apply Hk in Hin. rewrite !map_app, !in_app_iff in Hi. destruct Hi as [Hi|[Hi|Hi]].
      * apply (HF2 _ Hi). now apply hnames_in in Hin.
      * rewrite Hc in Hi. eapply names_disjoint; eauto.
      * apply (sd_member_keys _ _ _ Hsd) in Hi. subst. discriminate.
  - intros Hcl. destruct (Hj Hcl) as (p & Hp1 & Hp2). rewrite app_nil_r.
    assert (Hw : with_hidden clean named' hidden' = named') by (unfold with_hidden; now rewrite Hcl). rewrite Hw.
    apply jeq_obj with (p := (F' ++ p)%list).
    + rewrite <- P1 in *. rewrite Permutation_app_swap_app. now apply Permutation_app_head.
    + apply Forall2_app; [|exact Hp2]. clear. induction F'; constructor; auto. split; [reflexivity|apply jeq_refl].
  - simpl. rewrite app_nil_r. rewrite <- P3.
    rewrite app_assoc, <- Hds. rewrite <- !app_assoc. apply Permutation_app_head, Permutation_app_comm.
Qed.

Theorem Enc_good :
  (forall t j dec, Enc E h t j dec -> good t j dec) /\
  (forall mems c hd dec, EncMems E h mems c hd dec -> mems_good mems c hd dec).
Proof.
  apply Enc_mutind.
  - intros j Ho Ha Hn. exists j, []. split; [now apply Res_ordinary|]. split; [intros _; apply jeq_refl|]. reflexivity.
  - intros els l Hne F Ha Hn. destruct (Elems_good els l F Ha) as (out & He & Hj).
    exists (arr_or_null out), (map H (reachable sel (TArr els))). split; [now constructor|]. split.
    + intros Hc. specialize (Hj Hc). simpl. destruct Hj; [apply jeq_refl|]. constructor. now constructor.
    + rewrite app_nil_r. reflexivity.
  - intros mems c hd dec decoys sdp sds HE IH N Hres Hsd Hperm Ha Hn.
    exact (obj_good mems c hd dec decoys sdp sds [] [] HE IH N Hres Hsd Hperm (fun x => x) (fun k x => match x with end)
             (Mb_nil clean D) Ha Hn).
  - intros _ _ _. exists [], [], [], [], []. repeat split; try constructor. intros _. exists []. split; constructor.
  - intros n t v d1 r c hd d Ht IHt Hr IHr Hnr Ha Hn.
    rewrite all_discs_obj in Ha. simpl in Ha.
    destruct IHt as (out & ds & HR & Hj & Hds). { intros s Hs. apply Ha, in_app_iff. now left. } { intros x Hx. apply Hn, in_app_iff. now left. }
    destruct IHr as (named & hidden & mem & e1 & e2 & HN & HM & Hnm & Hj2 & Hds2).
    { intros x Hx. apply Hnr. now right. }
    { rewrite all_discs_obj. intros s Hs. apply Ha, in_app_iff. now right. } { intros x Hx. apply Hn, in_app_iff. now right. }
    assert (Hpl : plain_key clean n = true) by (apply not_reserved_plain, Hnr; now left).
    exists named, hidden, (match out with JNull => mem | _ => (n, out) :: mem end), e1, (ds ++ e2)%list.
    split; [assumption|]. split; [apply Mb_keep; assumption|]. split; [assumption|]. split.
    + intros Hc. destruct (Hj2 Hc) as (p & Hp1 & Hp2). specialize (Hj Hc). simpl.
      unfold reveal_member at 1. destruct (jeq_null _ _ Hj) as [Hn1 Hn2].
      destruct (reveal sel t) eqn:Er.
      * rewrite Hn2 by reflexivity. exists p. split; assumption.
      * exists ((n, out) :: p). split; [destruct out; try (now specialize (Hn1 eq_refl)); rewrite <- Permutation_middle; now constructor|].
        constructor; [now split|assumption].
      * exists ((n, out) :: p). split; [destruct out; try (now specialize (Hn1 eq_refl)); rewrite <- Permutation_middle; now constructor|].
        constructor; [now split|assumption].
      * exists ((n, out) :: p). split; [destruct out; try (now specialize (Hn1 eq_refl)); rewrite <- Permutation_middle; now constructor|].
        constructor; [now split|assumption].
      * exists ((n, out) :: p). split; [destruct out; try (now specialize (Hn1 eq_refl)); rewrite <- Permutation_middle; now constructor|].
        constructor; [now split|assumption].
      * exists ((n, out) :: p). split; [destruct out; try (now specialize (Hn1 eq_refl)); rewrite <- Permutation_middle; now constructor|].
        constructor; [now split|assumption].
    + simpl. rewrite map_app, <- !app_assoc. rewrite Permutation_app_swap_app, Hds2.
      rewrite Hds, <- app_assoc. apply Permutation_app_head. apply Permutation_app_swap_app.
  - intros n s t v v' r c hd d Ht IHt Hd Hvv Hr IHr Hnr Ha Hn.
    rewrite all_discs_obj in Ha. simpl in Ha.
    destruct IHr as (named & hidden & mem & e1 & e2 & HN & HM & Hnm & Hj2 & Hds2).
    { intros x Hx. apply Hnr. now right. }
    { rewrite all_discs_obj. intros x Hs. apply Ha. right. apply in_app_iff. now right. } { exact Hn. }
    pose proof (Ha s (or_introl eq_refl)) as HD.
    destruct (sel s) eqn:Es.
    + rewrite Hd in HD.
      destruct IHt as (out & ds & HR & Hj & Hds). { intros x Hs. apply Ha. right. apply in_app_iff. now left. } { intros x []. }
      destruct (Res_jeq clean D D Deq_refl HwD) as (HRj & _).
      destruct (HRj _ _ _ HR v' (proj1 (Enc_wf E h) _ _ _ Ht) Hvv) as (o' & d' & R & Hj' & Hp).
      exists ((n, o') :: named), hidden, mem, (H s :: d' ++ e1)%list, e2.
      split; [eapply Nm_disclosed; eassumption|]. split; [assumption|].
      split; [simpl; rewrite Es; simpl; now rewrite Hnm|]. split.
      * intros Hc. destruct (Hj2 Hc) as (p & Hp1 & Hp2). exists ((n, o') :: p). split; [now constructor|].
        simpl. rewrite Es. constructor; [|assumption]. split; [reflexivity|]. simpl.
        apply jeq_sym. eapply jeq_trans; [|exact Hj']. apply jeq_sym, Hj, Hc.
      * simpl. rewrite Es. simpl. constructor. rewrite map_app, <- !app_assoc. rewrite Hds2.
        rewrite <- Hp, Hds, app_nil_r. reflexivity.
    + exists named, (H s :: hidden), mem, (H s :: e1), e2.
      split; [now constructor|]. split; [assumption|]. split; [simpl; now rewrite Es|]. split.
      * intros Hc. destruct (Hj2 Hc) as (p & Hp1 & Hp2). exists p. split; [assumption|]. simpl. rewrite Es. exact Hp2.
      * simpl. rewrite Es. simpl. constructor. exact Hds2.
Qed.
End Resolve.
