(** Verification of an issued payload with any selection of its disclosures. *)
From Verif Require Import GoBase Base64 JwtSpec JwtModel JwtProofs SdSpec SdModel SdProofs SdRun SdOrder SdParse SdParseProofs SdSubset SdIssueSpec SdIssueEnc.

Lemma NoDup_map_sub {A B} (f : A -> B) (all sel : list A) : NoDup (map f all) -> NoDup sel -> incl sel all -> NoDup (map f sel).
Proof.
  intros N Ns Hi. induction Ns as [|x sel Hx Ns IH]; [constructor|]. simpl. constructor.
  - intros Hin. apply in_map_iff in Hin as (y & He & Hy). apply Hx.
    replace x with y; [assumption|]. assert (In x all) by (apply Hi; now left). assert (In y all) by (apply Hi; now right).
    clear - N He H H0. induction all as [|a all IH]; [destruct H|]. simpl in N. inversion N as [|? ? Hn N']; subst.
    destruct H as [->|H], H0 as [->|H0]; auto; exfalso; apply Hn; [rewrite <- He|rewrite He]; now apply in_map.
  - apply IH. intros y Hy. apply Hi. now right.
Qed.
Lemma NoDup_app_remove_r {A} (l l' : list A) : NoDup (l ++ l')%list -> NoDup l.
Proof.
  induction l as [|x l IH]; simpl; intros N; [constructor|]. inversion N; subst. constructor; [|auto].
  rewrite in_app_iff in *. tauto.
Qed.
Lemma NoDup_map_inj {A B} (f : A -> B) all x y : NoDup (map f all) -> In x all -> In y all -> f x = f y -> x = y.
Proof.
  induction all as [|a all IH]; simpl; [tauto|]. intros N Hx Hy He. inversion N as [|? ? Hn N']; subst.
  destruct Hx as [->|Hx], Hy as [->|Hy]; auto; exfalso; apply Hn; [rewrite He|rewrite <- He]; now apply in_map.
Qed.
Lemma reachable_sub sel t : exists rest, Permutation (all_discs t) (reachable sel t ++ rest)%list.
Proof.
  induction t as [j|els|mems IH] using tree_ind'.
  - now exists [].
  - exists []. rewrite app_nil_r. reflexivity.
  - rewrite all_discs_obj. induction IH as [|[[n l] t] mems (r1 & H1) _ (r2 & H2)]; [now exists []|].
    cbn [flat_map fst snd reachable] in *. destruct l as [s|]; cbn [opt_list shown app].
    + destruct (sel s).
      * exists (r1 ++ r2)%list. constructor. rewrite H2, H1. rewrite <- !app_assoc. apply Permutation_app_head, Permutation_app_swap_app.
      * exists (all_discs t ++ r2)%list. constructor. rewrite H2. simpl. apply Permutation_app_swap_app.
    + exists (r1 ++ r2)%list. rewrite H2, H1. rewrite <- !app_assoc. apply Permutation_app_head, Permutation_app_swap_app.
Qed.
Lemma Enc_decodes E h :
  (forall t j dec, Enc E h t j dec -> forall s, In s (all_discs t) -> dsp E s <> None) /\
  (forall mems c hd d, EncMems E h mems c hd d -> forall s, In s (all_discs (TObj mems)) -> dsp E s <> None).
Proof.
  apply Enc_mutind.
  - intros j _ s [].
  - intros els l _ F s Hs. unfold all_discs in Hs. simpl in Hs. apply in_flat_map in Hs as ([[s'|] v] & Hi & Hs); [|destruct Hs].
    destruct Hs as [<-|[]]. induction F as [|e w els l He F IH]; [destruct Hi|]. destruct Hi as [->|Hi]; [|auto].
    destruct He as (_ & _ & j' & Hd & _). simpl in Hd. congruence.
  - auto.
  - intros s [].
  - intros n t v d1 r c hd d _ IH1 _ IH2 s Hs. rewrite all_discs_obj in *. simpl in Hs. apply in_app_iff in Hs as [Hs|Hs]; auto.
  - intros n s0 t v v' r c hd d _ IH1 Hd _ _ IH2 s Hs. rewrite all_discs_obj in *. simpl in Hs. destruct Hs as [<-|Hs]; [congruence|].
    apply in_app_iff in Hs as [Hs|Hs]; auto.
Qed.
Lemma Members_front clean D F : (forall k v, In (k, v) F -> ordinary v) ->
  Members clean D F (filter (fun kv => plain_key clean (fst kv)) F) [].
Proof.
  induction F as [|[k v] F IH]; intros Ho; [constructor|]. simpl.
  assert (HM : Members clean D F (filter (fun kv => plain_key clean (fst kv)) F) []) by (apply IH; intros; eapply Ho; right; eassumption).
  destruct (plain_key clean k) eqn:Ep.
  - assert (Hv : ordinary v) by (eapply Ho; now left).
    pose proof (Mb_keep clean D k v v F _ [] [] Ep (Res_ordinary clean D v Hv) HM) as M.
    pose proof (ordinary_nn _ Hv). simpl in M. destruct v; try congruence; exact M.
  - now apply Mb_skip.
Qed.

(** The registered claims of a payload, without the algorithm member. *)
Definition without_alg (F : gomap json) : gomap json := filter (fun kv => negb (String.eqb (fst kv) "_sd_alg")) F.

Section Top.
Variables (E : sdenv) (h : hashalg).
Hypothesis HE : wf_env E.
Notation H := (get_hash E h).
Variables (mems : list (string * option string * tree)) (c : list (string * json)) (hd dec decoys : list string)
  (sdp : list (string * json)) (sds : list string) (F : gomap json).
Hypotheses (HM : EncMems E h mems c hd dec) (N : NoDup (names mems)) (Hres : forall n, In n (names mems) -> ~ reserved n)
  (Hsd : sd_member sdp sds) (Hperm : Permutation (hd ++ decoys)%list sds)
  (NF : NoDup (map fst F)) (HF1 : ~ In "_sd" (map fst F)) (HF2 : forall k, In k (map fst F) -> ~ In k (names mems))
  (HFo : forall k v, In (k, v) F -> ordinary v)
  (ND : NoDup (map H (all_discs (TObj mems)) ++ dec ++ decoys)%list).
Notation T := (TObj mems).
Notation P := (F ++ c ++ sdp)%list.

Lemma top_wf : wf_json (JObj P).
Proof.
  destruct (Enc_wf E h) as (_ & Hw). specialize (Hw _ _ _ _ HM).
  apply wf_obj_intro.
  - rewrite !map_app, (EncMems_cnames _ _ _ _ _ _ HM). apply NoDup_app_intro; [assumption| |].
    + apply NoDup_app_intro; [now apply cnames_nodup|now apply sd_member_nodup in Hsd|].
      intros k Hk Hk2. apply (sd_member_keys _ _ _ Hsd) in Hk2. subst. apply cnames_in in Hk. apply (Hres _ Hk). now left.
    + intros k Hk. rewrite in_app_iff. intros [Hk2|Hk2]; [apply cnames_in in Hk2; now apply (HF2 _ Hk)|].
      apply (sd_member_keys _ _ _ Hsd) in Hk2. now subst.
  - rewrite !Forall_app. split; [|split; [assumption|now apply sd_member_wf in Hsd]].
    apply Forall_forall. intros [k v] Hi. apply ordinary_wf. eapply HFo; eassumption.
Qed.
Lemma mget_app {V} (a b : gomap V) k : mget (a ++ b)%list k = match mget a k with Some v => Some v | None => mget b k end.
Proof. induction a as [|[x v] a IH]; [reflexivity|]. cbn [app mget]. destruct (String.eqb k x); [reflexivity|exact IH]. Qed.

Section Sel.
Variable sel : list string.
Hypotheses (Ns : NoDup sel) (Hi : incl sel (all_discs T)).
Notation pick := (fun s => str_in s sel).
Notation D := (Dof E h sel).

Lemma ND_all : NoDup (map H (all_discs T)).
Proof. now apply NoDup_app_remove_r in ND. Qed.
Lemma top_agrees : agrees E h pick D (all_discs T).
Proof.
  intros s Hs. destruct (Enc_decodes E h) as (_ & Hd). specialize (Hd _ _ _ _ HM).
  destruct (str_in s sel) eqn:Es.
  - apply str_in_In in Es. unfold Dof. apply supplied_unique; [|intros x Hx; apply Hd; now apply Hi|assumption].
    eapply NoDup_map_sub; eauto using ND_all.
  - apply str_in_nIn in Es. apply supplied_none. intros Hx. apply in_map_iff in Hx as (y & He & Hy). apply Es.
    replace s with y; [assumption|]. eapply NoDup_map_inj; eauto using ND_all.
Qed.
Lemma top_nothing : nothing D (dec ++ decoys)%list.
Proof.
  intros d Hd. apply supplied_none. intros Hx. apply in_map_iff in Hx as (y & He & Hy). subst d.
  clear - ND Hd Hy Hi. apply Hi in Hy. apply (in_map H) in Hy. revert ND Hy Hd. generalize (map H (all_discs T)), (dec ++ decoys)%list.
  intros a b N Ha Hb. induction a as [|x a IH]; [destruct Ha|]. simpl in N. inversion N; subst.
  destruct Ha as [->|Ha]; [|auto]. apply H1, in_app_iff. now right.
Qed.
Lemma top_res clean : exists out ds, Res clean D (JObj P) out ds /\
    (clean = true -> jeq out (JObj (without_alg F ++ members_of (reveal pick T)))%list) /\
    Permutation ds (map H (reachable pick T) ++ dec ++ decoys)%list.
Proof.
  destruct (Enc_good E h pick D clean (wfD_Dof E h sel HE)) as (_ & HG). specialize (HG _ _ _ _ HM).
  destruct (obj_good E h pick D clean mems c hd dec decoys sdp sds F _ HM HG N Hres Hsd Hperm HF1 HF2 (Members_front clean D F HFo)
    top_agrees top_nothing) as (out & ds & R & Hj & Hp).
  exists out, ds. split; [assumption|]. split; [|assumption]. intros Hc. specialize (Hj Hc). subst clean.
  replace (without_alg F) with (filter (fun kv : string * json => plain_key true (fst kv)) F); [assumption|].
  clear - HF1. unfold without_alg. induction F as [|[k v] F' IH]; [reflexivity|]. simpl in *. rewrite IH by tauto.
  unfold plain_key. destruct (String.eqb_spec k "_sd"); [subst; tauto|]. reflexivity.
Qed.
Lemma top_hash : get_crypto_hash F = Ok h -> get_crypto_hash P = Ok h.
Proof.
  unfold get_crypto_hash, get_key_from_vc. rewrite !(mget_app F).
  destruct (mget F "_sd_alg") eqn:E1; [auto|].
  assert (E2 : mget (c ++ sdp)%list "_sd_alg" = None).
  { apply mget_None. rewrite map_app, in_app_iff, (EncMems_cnames _ _ _ _ _ _ HM). intros [Hx|Hx].
    - apply cnames_in in Hx. apply (Hres _ Hx). right. now left.
    - apply (sd_member_keys _ _ _ Hsd) in Hx. discriminate. }
  rewrite E2. destruct (mget F "vc") as [v|] eqn:E3; [auto|]. discriminate.
Qed.
(** acceptance of a payload [Q] that resolves like the encoding, possibly with the encoding inside *)
Section Accept.
Variables (Q : gomap json) (target : json).
Hypotheses (HQw : wf_json (JObj Q)) (HQh : get_crypto_hash Q = Ok h)
  (HQr : forall clean, exists out ds, Res clean D (JObj Q) out ds /\ (clean = true -> jeq out target) /\
    Permutation ds (map H (reachable pick T) ++ dec ++ decoys)%list).
Lemma accept_verify : verify_disclosures E sel Q = Ok tt <-> incl sel (reachable pick T).
Proof.
  rewrite (verify_disclosures_iff E sel Q HE HQw).
  destruct (HQr false) as (out & ds & R & _ & Hp).
  assert (Nd : NoDup ds).
  { destruct (reachable_sub pick T) as (rest & Hr). eapply Permutation_NoDup; [apply Permutation_sym; exact Hp|].
    rewrite (Permutation_map H Hr), map_app, <- app_assoc in ND.
    apply (NoDup_app_remove_r _ (map H rest)).
    eapply Permutation_NoDup; [|exact ND]. rewrite <- app_assoc. apply Permutation_app_head. apply Permutation_app_comm. }
  assert (Hin : forall s, In s sel -> (In (H s) ds <-> In s (reachable pick T))).
  { intros s Hs. split.
    - intros Hx. apply (Permutation_in _ Hp) in Hx. apply in_app_iff in Hx as [Hx|Hx].
      + apply in_map_iff in Hx as (y & He & Hy). replace s with y; [assumption|].
        destruct (reachable_sub pick T) as (rest & Hr).
        eapply NoDup_map_inj; [exact ND_all| |apply Hi, Hs|exact He].
        eapply Permutation_in; [apply Permutation_sym; exact Hr|]. apply in_app_iff. now left.
      + exfalso. pose proof (top_nothing _ Hx) as Hn. pose proof (top_agrees _ (Hi _ Hs)) as Ha.
        apply str_in_In in Hs as Hs'. cbv beta in Ha; rewrite Hs', Hn in Ha. destruct (Enc_decodes E h) as (_ & Hd).
        apply (Hd _ _ _ _ HM s (Hi _ Hs)). now symmetry.
    - intros Hx. eapply Permutation_in; [apply Permutation_sym; exact Hp|]. apply in_app_iff. left. now apply in_map. }
  split.
  - intros (h' & Hh' & _ & out' & dl & R' & _ & Hin') s Hs. rewrite HQh in Hh'. injection Hh' as <-.
    destruct (Res_det _ _ _ _ _ _ _ R R') as [_ ->]. apply Hin; auto.
  - intros Hincl. exists h. split; [exact HQh|]. split.
    + intros s Hs. destruct (Enc_decodes E h) as (_ & Hd). apply (Hd _ _ _ _ HM). auto.
    + exists out, ds. split; [assumption|]. split; [assumption|]. intros s Hs. apply Hin; auto.
Qed.
(** for the payload as parsed (members in any order) *)
Theorem accept_main P' : wf_json (JObj P') -> jeq (JObj Q) (JObj P') ->
  (verify_disclosures E sel P' = Ok tt <-> incl sel (reachable pick T)) /\
  (verify_disclosures E sel P' = Ok tt ->
   get_crypto_hash P' = Ok h /\
   forall order, visits_all order -> exists out, vp_disclosed E h sel order P' = Ok out /\ jeq (JObj out) target).
Proof.
  intros Hw' Hj.
  assert (Hs : same_decoding E E).
  { split; [reflexivity|]. intros b. destruct (sd_json E b); [apply jeq_refl|exact I]. }
  assert (Hv : verify_disclosures E sel P' = Ok tt <-> verify_disclosures E sel Q = Ok tt).
  { split; intros Hv; (eapply verify_disclosures_order; [..|exact Hv]); eauto using jeq_sym. }
  split; [rewrite Hv; exact accept_verify|]. intros HV.
  assert (Hc : get_crypto_hash P' = Ok h) by (rewrite <- HQh; now apply crypto_hash_jeq).
  split; [assumption|]. intros order Ho.
  destruct (disclosed_after_verify E h sel P' order HE Hw' Ho HV Hc) as (m & Hm & _ & _ & _ & out & ds & Hg & R).
  exists out. split; [unfold vp_disclosed; rewrite Hm; exact Hg|].
  destruct (HQr true) as (o2 & ds2 & R2 & Hj2 & _).
  destruct (Res_jeq true D D (Deq_refl D) (wfD_Dof E h sel HE)) as (HR & _).
  destruct (HR _ _ _ R2 _ HQw Hj) as (o3 & ds3 & R3 & Hj3 & _).
  destruct (Res_det _ _ _ _ _ _ _ R R3) as [-> _].
  eapply jeq_trans; [apply jeq_sym; exact Hj3|]. auto.
Qed.
End Accept.

Theorem top_main P' : get_crypto_hash F = Ok h -> wf_json (JObj P') -> jeq (JObj P) (JObj P') ->
  (verify_disclosures E sel P' = Ok tt <-> incl sel (reachable pick T)) /\
  (verify_disclosures E sel P' = Ok tt ->
   get_crypto_hash P' = Ok h /\
   forall order, visits_all order -> exists out, vp_disclosed E h sel order P' = Ok out /\
     jeq (JObj out) (JObj (without_alg F ++ members_of (reveal pick T)))%list).
Proof. intros Hh. apply accept_main; [exact top_wf|now apply top_hash|exact top_res]. Qed.
End Sel.
End Top.
