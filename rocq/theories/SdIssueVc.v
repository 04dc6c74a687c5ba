(** SD-JWT credentials (NewFromVC): the encoded credential subject inside a credential. *)
From Verif Require Import GoBase Base64 JwtSpec JwtModel JwtProofs SdSpec SdModel SdProofs SdRun SdOrder SdParse SdParseProofs SdSubset
  SdIssueSpec SdIssueModel SdIssueEnc SdIssueTop SdIssueV2 SdIssueMain SdIssueV5.

Lemma mget_split {V} (m : gomap V) k v : mget m k = Some v -> exists a b, m = (a ++ (k, v) :: b)%list /\ ~ In k (map fst a).
Proof.
  induction m as [|[x w] m IH]; cbn [mget]; [discriminate|]. destruct (String.eqb_spec k x).
  - intros [= ->]. subst. exists [], m. split; [reflexivity|intros []].
  - intros Hg. destruct (IH Hg) as (a & b & -> & Ha). exists ((x, w) :: a), b. split; [reflexivity|]. simpl. intros [?|?]; congruence.
Qed.
Lemma mset_split {V} (a b : gomap V) k v w : ~ In k (map fst a) -> mset (a ++ (k, v) :: b)%list k w = (a ++ (k, w) :: b)%list.
Proof.
  induction a as [|[x y] a IH]; cbn [app mset map fst]; intros Hk; [now rewrite String.eqb_refl|].
  destruct (String.eqb_spec k x); [subst; elim Hk; now left|]. rewrite IH; [reflexivity|]. intros ?; apply Hk; now right.
Qed.

(** A member of an otherwise ordinary object resolves inside the object. *)
Lemma lift_member clean D Q k j out ds :
  NoDup (map fst Q) -> mget Q k = Some j -> ~ reserved k ->
  (forall k' v, In (k', v) Q -> k' <> k -> k' <> "_sd" /\ ordinary v) ->
  Res clean D j out ds -> out <> JNull ->
  Res clean D (JObj Q) (JObj (filter (fun kv => plain_key clean (fst kv)) (mset Q k out))) ds.
Proof.
  intros N Hg Hk Ho R Hnn. destruct (mget_split _ _ _ Hg) as (a & b & -> & Ha).
  rewrite mset_split by assumption. rewrite map_app in N. cbn [map fst] in N.
  assert (Hb : ~ In k (map fst b)). { apply NoDup_remove_2 in N. intros Hx. apply N, in_app_iff. now right. }
  assert (Hsd : ~ In "_sd" (map fst (a ++ (k, j) :: b)%list)).
  { intros Hx. apply in_map_iff in Hx as ([k' v] & Hx & Hi). simpl in Hx. subst k'.
    destruct (string_dec "_sd" k) as [<-|Hne]; [apply Hk; now left|]. now destruct (Ho _ _ Hi Hne). }
  assert (HMa : Members clean D a (filter (fun kv => plain_key clean (fst kv)) a) []).
  { apply Members_front. intros k' v Hi. eapply Ho; [apply in_app_iff; now left; eauto|]. intros ->. apply Ha. exact (in_map fst _ _ Hi). }
  assert (HMb : Members clean D b (filter (fun kv => plain_key clean (fst kv)) b) []).
  { apply Members_front. intros k' v Hi. eapply Ho; [apply in_app_iff; right; right; eauto|]. intros ->. apply Hb. exact (in_map fst _ _ Hi). }
  assert (Hpl : plain_key clean k = true) by now apply not_reserved_plain.
  pose proof (Mb_keep clean D k j out b _ ds [] Hpl R HMb) as HM1.
  pose proof (Members_app clean D _ _ _ HMa _ _ _ HM1) as HM2.
  assert (HM3 : Members clean D (a ++ (k, j) :: b)%list (filter (fun kv => plain_key clean (fst kv)) (a ++ (k, out) :: b)%list) ds).
  { rewrite app_nil_r in HM2. cbn [app] in HM2. rewrite filter_app. cbn [filter fst]. rewrite Hpl. destruct out; try congruence; exact HM2. }
  replace (JObj (filter (fun kv => plain_key clean (fst kv)) (a ++ (k, out) :: b)%list))
    with (JObj (with_hidden clean [] [] ++ filter (fun kv => plain_key clean (fst kv)) (a ++ (k, out) :: b))%list) by (destruct clean; reflexivity).
  apply (Res_obj clean D _ [] [] [] [] _ ds).
  - unfold sd_list. destruct (mget _ "_sd") eqn:Eg; [|reflexivity]. apply mget_In in Eg. exfalso. apply Hsd. exact (in_map fst _ _ Eg).
  - constructor.
  - exact HM3.
  - constructor.
  - intros k' _ _ [].
Qed.

(** Replacing a member by an equal value. *)
Lemma jeq_mset Q k a b : jeq a b -> jeq (JObj (mset Q k a)) (JObj (mset Q k b)).
Proof.
  intros Hj. apply jeq_obj with (p := mset Q k a); [reflexivity|].
  assert (Hr : forall l : gomap json, Forall2 (fun a b => fst a = fst b /\ jeq (snd a) (snd b)) l l).
  { induction l; constructor; auto. split; [reflexivity|apply jeq_refl]. }
  induction Q as [|[x v] Q IH]; cbn [mset]; [repeat constructor; assumption|].
  destruct (String.eqb k x); constructor; auto; split; simpl; auto using jeq_refl.
Qed.
Lemma jeq_filter_plain p (A B : gomap json) : Forall2 (fun a b => fst a = fst b /\ jeq (snd a) (snd b)) A B ->
  Forall2 (fun a b => fst a = fst b /\ jeq (snd a) (snd b)) (filter (fun kv => p (fst kv)) A) (filter (fun kv => p (fst kv)) B).
Proof.
  induction 1 as [|[k v] [k' v'] A B [Hk Hv] F IH]; [constructor|]. simpl in Hk. subst k'. cbn [filter fst].
  destruct (p k); [constructor; [split; auto|auto]|auto].
Qed.
Lemma jeq_filter_mset p Q k a b : jeq a b ->
  jeq (JObj (filter (fun kv : string * json => p (fst kv)) (mset Q k a))) (JObj (filter (fun kv => p (fst kv)) (mset Q k b))).
Proof.
  intros Hj. eapply jeq_obj; [reflexivity|]. apply jeq_filter_plain.
  assert (Hr : forall l : gomap json, Forall2 (fun a b => fst a = fst b /\ jeq (snd a) (snd b)) l l).
  { induction l; constructor; auto. split; [reflexivity|apply jeq_refl]. }
  induction Q as [|[x v] Q IH]; cbn [mset]; [repeat constructor; assumption|].
  destruct (String.eqb k x); constructor; auto; split; simpl; auto using jeq_refl.
Qed.

Lemma filter_mset p (m : gomap json) k v : p k = true ->
  filter (fun kv => p (fst kv)) (mset m k v) = mset (filter (fun kv => p (fst kv)) m) k v.
Proof.
  intros Hp. induction m as [|[x w] m IH]; cbn [mset filter fst]; [now rewrite Hp|].
  destruct (String.eqb_spec k x).
  - subst x. cbn [filter fst]. rewrite Hp. cbn [mset]. now rewrite String.eqb_refl.
  - cbn [filter fst]. destruct (p x); cbn [mset]; [|assumption]. apply String.eqb_neq in n. now rewrite n, IH.
Qed.
Lemma filter_mset_drop p (m : gomap json) k v : p k = false ->
  filter (fun kv => p (fst kv)) (mset m k v) = filter (fun kv => p (fst kv)) m.
Proof.
  intros Hp. induction m as [|[x w] m IH]; cbn [mset filter fst]; [now rewrite Hp|].
  destruct (String.eqb_spec k x); [subst x; cbn [filter fst]; now rewrite Hp|].
  cbn [filter fst]. now rewrite IH.
Qed.
Lemma filter_all_plain clean (m : gomap json) : (forall k v, In (k, v) m -> ~ reserved k) ->
  filter (fun kv => plain_key clean (fst kv)) m = m.
Proof.
  induction m as [|[k v] m IH]; intros Hr; [reflexivity|]. cbn [filter fst].
  rewrite (not_reserved_plain clean k) by (eapply Hr; now left). rewrite IH; [reflexivity|]. intros; eapply Hr; right; eassumption.
Qed.
Lemma mset_mset {V} (m : gomap V) k v w : mset (mset m k v) k w = mset m k w.
Proof.
  induction m as [|[x y] m IH]; cbn [mset]; [now rewrite String.eqb_refl|].
  destruct (String.eqb_spec k x); cbn [mset]; [now rewrite String.eqb_refl|].
  apply String.eqb_neq in n. now rewrite n, IH.
Qed.
Lemma mdel_app {V} (a b : gomap V) k : mdel (a ++ b)%list k = (mdel a k ++ mdel b k)%list.
Proof. induction a as [|[x v] a IH]; [reflexivity|]. cbn [app mdel]. rewrite IH. destruct (String.eqb k x); reflexivity. Qed.
Lemma mdel_absent {V} (a : gomap V) k : ~ In k (map fst a) -> mdel a k = a.
Proof.
  induction a as [|[x v] a IH]; [reflexivity|]. cbn [mdel map fst]. intros Hk. destruct (String.eqb_spec k x); [subst; elim Hk; now left|].
  rewrite IH; [reflexivity|]. intros ?; apply Hk; now right.
Qed.
Lemma mdel_filter {V} (a : gomap V) k : mdel a k = filter (fun kv => negb (String.eqb (fst kv) k)) a.
Proof.
  induction a as [|[x v] a IH]; [reflexivity|]. cbn [mdel filter fst]. rewrite String.eqb_sym, IH. destruct (String.eqb x k); reflexivity.
Qed.
Lemma mset_In {V} (m : gomap V) k v k' v' : In (k', v') (mset m k v) -> (k' = k /\ v' = v) \/ (k' <> k /\ In (k', v') m) \/ (k' = k /\ In (k', v') m).
Proof.
  destruct (string_dec k' k) as [->|Hn].
  - induction m as [|[x w] m IH]; cbn [mset]; [intros [[= <-]|[]]; auto|]. destruct (String.eqb_spec k x).
    + intros [[= <-]|Hi]; [auto|]. right. right. split; [reflexivity|now right].
    + intros [[= -> ->]|Hi]; [congruence|]. destruct (IH Hi) as [?|[[? ?]|[_ ?]]]; [auto|congruence|]. right. right. split; [reflexivity|now right].
  - intros Hi. right. left. split; [assumption|]. revert Hi. induction m as [|[x w] m IH]; cbn [mset]; [intros [[= <- <-]|[]]; congruence|].
    destruct (String.eqb_spec k x); intros [[= -> ->]|Hi]; try congruence; try (now left); right; auto.
Qed.

(** *** The signed credential around an inner object *)
Section Around.
Variables (o : iopts) (vc : gomap json) (alg : string) (inner : gomap json).
Hypotheses (Hord : ordinary (JObj vc)) (Hholder : forall jwk, io_holder o = Some jwk -> ordinary jwk).
Notation vcc := (vc_claims vc).
Definition signed_claims : gomap json :=
  mset (bound (io_holder o) (mset vcc "_sd_alg" (JStr alg))) "credentialSubject" (JObj inner).
Notation signed := (with_claims vc signed_claims).

Lemma vcc_ordinary : ordinary (JObj vcc).
Proof.
  unfold vc_claims. destruct (mget vc "vc") as [[| | | | |c]|] eqn:Eg; try assumption.
  apply mget_In in Eg. inversion Hord as [? Hx| |m N Ha]; subst; [destruct Hx|]. exact (proj2 (Ha _ _ Eg)).
Qed.
Lemma cnf_ordinary jwk : io_holder o = Some jwk -> ordinary (JObj [("jwk", jwk)]).
Proof.
  intros Eh. apply ord_obj; [repeat constructor; simpl; tauto|]. intros k' v' [[= <- <-]|[]]. split; [|auto].
  unfold reserved. intuition discriminate.
Qed.
Lemma signed_nodup : NoDup (map fst signed_claims).
Proof.
  pose proof vcc_ordinary as Hv. inversion Hv as [? Hx| |m N Ha]; subst; [destruct Hx|].
  unfold signed_claims, bound. apply mset_nodup. destruct (io_holder o); repeat apply mset_nodup; assumption.
Qed.
Lemma signed_members k v : In (k, v) signed_claims -> k <> "credentialSubject" -> k <> "_sd" /\ ordinary v.
Proof.
  pose proof vcc_ordinary as Hv. inversion Hv as [? Hx| |m N Ha]; subst; [destruct Hx|]. intros Hi Hk.
  unfold signed_claims in Hi. apply mset_In in Hi as [[? _]|[[_ Hi]|[? _]]]; try congruence.
  assert (Hd : k = "_sd_alg" /\ v = JStr alg \/ k <> "_sd_alg" /\ In (k, v) (vc_claims vc) \/ (exists jwk, io_holder o = Some jwk /\ k = "cnf" /\ v = JObj [("jwk", jwk)])).
  { assert (Hm : In (k, v) (mset (vc_claims vc) "_sd_alg" (JStr alg)) ->
      k = "_sd_alg" /\ v = JStr alg \/ k <> "_sd_alg" /\ In (k, v) (vc_claims vc)).
    { intros Hm. apply mset_In in Hm as [?|[?|[? Hm]]]; auto. subst k. exfalso. apply (Ha _ _ Hm). right. now left. }
    unfold bound in Hi. destruct (io_holder o) as [jwk|] eqn:Eh; [|intuition].
    apply mset_In in Hi as [[-> ->]|[[_ Hi]|[_ Hi]]]; [eauto 6|destruct (Hm Hi); auto|destruct (Hm Hi); auto]. }
  destruct Hd as [[-> ->]|[[_ Hd]|(jwk & Eh & -> & ->)]].
  - split; [discriminate|now constructor].
  - destruct (Ha _ _ Hd) as [Hr Ho]. split; [|assumption]. intros ->. apply Hr. now left.
  - split; [discriminate|]. now apply cnf_ordinary.
Qed.
Lemma signed_subject : mget signed_claims "credentialSubject" = Some (JObj inner).
Proof. unfold signed_claims. now rewrite mget_mset, String.eqb_refl. Qed.
Lemma signed_alg : mget signed_claims "_sd_alg" = Some (JStr alg).
Proof.
  unfold signed_claims, bound. destruct (io_holder o); repeat (rewrite mget_mset; cbn [String.eqb Ascii.eqb Bool.eqb]); reflexivity.
Qed.
Definition target (out : json) : gomap json := with_claims vc (mset (bound (io_holder o) vcc) "credentialSubject" out).

Lemma not_res_cs : ~ reserved "credentialSubject".
Proof. unfold reserved. intuition discriminate. Qed.
Lemma not_res_vc : ~ reserved "vc".
Proof. unfold reserved. intuition discriminate. Qed.
Lemma claims_clean out : filter (fun kv => plain_key true (fst kv)) (mset signed_claims "credentialSubject" out) =
  mset (bound (io_holder o) vcc) "credentialSubject" out.
Proof.
  pose proof vcc_ordinary as Hv. inversion Hv as [? Hx| |m N Ha]; subst; [destruct Hx|].
  unfold signed_claims. rewrite mset_mset, (filter_mset (plain_key true)) by reflexivity. f_equal.
  unfold bound. destruct (io_holder o); [rewrite (filter_mset (plain_key true)) by reflexivity; f_equal|];
    rewrite (filter_mset_drop (plain_key true)) by reflexivity; apply filter_all_plain; intros k v Hi; exact (proj1 (Ha _ _ Hi)).
Qed.

Lemma vc_lift clean D out ds : Res clean D (JObj inner) (JObj out) ds ->
  exists out', Res clean D (JObj signed) (JObj out') ds /\ (clean = true -> out' = target (JObj out)).
Proof.
  intros R. pose proof Hord as Hv. inversion Hv as [? Hx| |m N Ha]; subst; [destruct Hx|].
  pose proof (lift_member clean D signed_claims "credentialSubject" _ _ ds signed_nodup signed_subject not_res_cs signed_members R ltac:(discriminate)) as R1.
  unfold with_claims. destruct (mget vc "vc") as [[| | | | |c]|] eqn:Eg.
  6:{ assert (N2 : NoDup (map fst (mset vc "vc" (JObj signed_claims)))) by now apply mset_nodup.
    assert (Hg2 : mget (mset vc "vc" (JObj signed_claims)) "vc" = Some (JObj signed_claims)) by (now rewrite mget_mset, String.eqb_refl).
    eexists. split; [eapply (lift_member clean D _ "vc" _ _ ds N2 Hg2 not_res_vc); [|exact R1|discriminate]|].
    - intros k v Hi Hk. apply mset_In in Hi as [[? _]|[[_ Hi]|[? _]]]; try congruence. destruct (Ha _ _ Hi) as [Hr Ho].
      split; [|assumption]. intros ->. apply Hr. now left.
    - intros ->. unfold target, with_claims. rewrite Eg, mset_mset, (filter_mset (plain_key true)) by reflexivity.
      rewrite claims_clean, filter_all_plain; [reflexivity|]. intros k v Hi. exact (proj1 (Ha _ _ Hi)). }
  all: eexists; (split; [exact R1|]); intros ->; unfold target, with_claims; rewrite Eg; apply claims_clean.
Qed.
Lemma vc_hash h : alg = hash_name h -> get_crypto_hash signed = Ok h.
Proof.
  intros Halg. unfold get_crypto_hash, get_key_from_vc, with_claims.
  pose proof Hord as Hv. inversion Hv as [? Hx| |m N Ha]; subst; [destruct Hx|].
  destruct (mget vc "vc") as [[| | | | |c]|] eqn:Eg.
  6:{ assert (Hn : mget (mset vc "vc" (JObj signed_claims)) "_sd_alg" = None).
      { rewrite mget_mset. cbn [String.eqb Ascii.eqb Bool.eqb]. apply mget_None. intros Hi. apply in_map_iff in Hi as ([k v] & Hk & Hi).
        simpl in Hk. subst k. apply (Ha _ _ Hi). right. now left. }
      rewrite Hn, mget_mset, String.eqb_refl, signed_alg, Halg. destruct h; reflexivity. }
  all: rewrite signed_alg, Halg; destruct h; reflexivity.
Qed.
Lemma vc_wf : wf_json (JObj inner) -> wf_json (JObj signed).
Proof.
  intros Hw.
  assert (H1 : wf_json (JObj signed_claims)).
  { apply wf_obj_intro; [exact signed_nodup|]. apply Forall_forall. intros [k v] Hi. simpl.
    destruct (string_dec k "credentialSubject") as [->|Hk].
    - apply (mget_In_nodup _ _ _ signed_nodup) in Hi. rewrite signed_subject in Hi. now injection Hi as <-.
    - apply ordinary_wf. now apply (signed_members k). }
  unfold with_claims. pose proof (ordinary_wf _ Hord) as Hv. apply wf_obj in Hv as [N F]. rewrite Forall_forall in F.
  destruct (mget vc "vc") as [[| | | | |c]|]; try assumption. apply wf_obj_intro; [now apply mset_nodup|].
  apply Forall_forall. intros [k v] Hi. simpl. apply mset_In in Hi as [[_ ->]|[[_ Hi]|[_ Hi]]]; [assumption| |]; exact (F _ Hi).
Qed.
End Around.

(** *** NewFromVC signs such a credential *)
Definition subject_fields (o : iopts) : gomap json := mdel (without_alg (create_payload "" o)) "cnf".
Lemma subject_fields_sub o k v : In (k, v) (subject_fields o) -> In (k, v) (create_payload "" o) /\ k <> "cnf" /\ k <> "_sd_alg".
Proof.
  unfold subject_fields, without_alg. rewrite mdel_filter, !filter_In. cbn [fst]. intros ((Hi & H1) & H2).
  apply negb_true_iff, String.eqb_neq in H1. apply negb_true_iff, String.eqb_neq in H2. auto.
Qed.
Lemma new_from_vc_inv E I v5 o vc signed discs : new_from_vc E I v5 o vc = Ok (signed, discs) ->
  mget vc "credentialSubject" = None \/ (forall c, mget vc "vc" <> Some (JObj c)) ->
  exists cs payload, mget (vc_claims vc) "credentialSubject" = Some (JObj cs) /\
    new_sdjwt E I v5 o "" cs = Ok (payload, discs) /\
    signed = with_claims vc (mset (let c1 := mset (vc_claims vc) "_sd_alg" (match mget payload "_sd_alg" with Some a => a | None => JNull end) in
       match mget (mdel payload "_sd_alg") "cnf" with Some c => mset c1 "cnf" c | None => c1 end)
       "credentialSubject" (JObj (mdel (mdel payload "_sd_alg") "cnf"))).
Proof.
  unfold new_from_vc. intros H Hone. destruct (get_key_from_vc "credentialSubject" vc) as [[| | | | |cs]|] eqn:Eg; try discriminate.
  apply bind_ok in H as ([payload ds] & Hn & H). cbn [fst snd] in H. apply bind_ok in H as ([vcc put] & Hx & H).
  injection H as <- <-. exists cs, payload. unfold get_key_from_vc in Eg. unfold vc_claims, with_claims.
  destruct (mget vc "vc") as [[| | | | |c]|] eqn:Ev.
  6:{ injection Hx as <- <-. destruct Hone as [Hone|Hone]; [|exfalso; now apply (Hone c)]. rewrite Hone in Eg. auto. }
  all: destruct v5; [|discriminate]; injection Hx as <- <-;
    destruct (mget vc "credentialSubject") as [x|] eqn:Ec; [injection Eg as ->; auto|discriminate].
Qed.

Section VcMain.
Variables (E : sdenv) (o : iopts) (vc cs : gomap json).
Notation H := (get_hash E (io_hash o)).
Hypotheses (HE : wf_env E) (Hord : ordinary (JObj vc)) (Hholder : forall jwk, io_holder o = Some jwk -> ordinary jwk).
Variables (mems : list (string * option string * tree)) (digests : gomap json) (decs : list string).
Hypotheses (HEnc : Enc E (io_hash o) (TObj mems) (JObj digests) decs)
  (Hcnf : ~ In "cnf" (names mems))
  (Hdis : forall k, In k (names mems) -> ~ In k (map fst (create_payload "" o))).
Notation payload := (merge_custom (create_payload "" o) digests).
Notation inner := (subject_fields o ++ digests)%list.
Lemma cnf_in_payload : mget (mdel payload "_sd_alg") "cnf" = match io_holder o with Some k => Some (JObj [("jwk", k)]) | None => None end.
Proof.
  rewrite (main_merge E o "" mems digests decs HEnc Hdis), mget_mdel. cbn [String.eqb Ascii.eqb Bool.eqb]. rewrite mget_app.
  assert (Hn : mget digests "cnf" = None).
  { apply mget_None. inversion HEnc as [| |? c hd dec decoys sdp sds HM Nn Hres Hsd Hp]; subst.
    rewrite map_app, in_app_iff, (EncMems_cnames _ _ _ _ _ _ HM). intros [Hx|Hx]; [now apply cnames_in in Hx|].
    apply (sd_member_keys _ _ _ Hsd) in Hx. discriminate. }
  rewrite Hn, create_payload_eq.
  assert (Hf : forall (a r : gomap json) k, (map fst a = [] \/ map fst a = [k]) -> "cnf" <> k -> mget (a ++ r)%list "cnf" = mget r "cnf").
  { intros a r k Ha Hk. rewrite mget_app. destruct (mget a "cnf") eqn:Ea; [|reflexivity]. apply mget_In in Ea.
    apply (in_map fst) in Ea. apply (opt_keys_in a k) in Ea; [contradiction|assumption]. }
  repeat (erewrite Hf; [|first [apply f_str_keys|apply f_date_keys]|discriminate]). destruct (io_holder o); reflexivity.
Qed.
Lemma inner_eq : mdel (mdel payload "_sd_alg") "cnf" = inner.
Proof.
  rewrite (main_merge E o "" mems digests decs HEnc Hdis), !mdel_app. unfold subject_fields, without_alg.
  rewrite (mdel_filter (create_payload "" o) "_sd_alg"). f_equal.
  inversion HEnc as [| |? c hd dec decoys sdp sds HM Nn Hres Hsd Hp]; subst.
  assert (Hk : forall k, In k (map fst (c ++ sdp)%list) -> In k (names mems) \/ k = "_sd").
  { intros k. rewrite map_app, in_app_iff, (EncMems_cnames _ _ _ _ _ _ HM). intros [Hx|Hx]; [left; now apply cnames_in|].
    right. now apply (sd_member_keys _ _ _ Hsd). }
  rewrite (mdel_absent _ "_sd_alg").
  - apply mdel_absent. intros Hx. destruct (Hk _ Hx) as [?|?]; [contradiction|discriminate].
  - intros Hx. destruct (Hk _ Hx) as [Hn|?]; [|discriminate]. apply (Hres _ Hn). right. now left.
Qed.
Lemma alg_in_payload : mget payload "_sd_alg" = Some (JStr (hash_name (io_hash o))).
Proof. rewrite (main_merge E o "" mems digests decs HEnc Hdis), mget_app, create_payload_alg. reflexivity. Qed.
Notation signed := (with_claims vc (signed_claims o vc (hash_name (io_hash o)) inner)).
Lemma signed_eq : with_claims vc (mset (let c1 := mset (vc_claims vc) "_sd_alg" (match mget payload "_sd_alg" with Some a => a | None => JNull end) in
       match mget (mdel payload "_sd_alg") "cnf" with Some c => mset c1 "cnf" c | None => c1 end)
       "credentialSubject" (JObj (mdel (mdel payload "_sd_alg") "cnf"))) = signed.
Proof. cbv zeta. rewrite cnf_in_payload, inner_eq, alg_in_payload. unfold signed_claims, bound. destruct (io_holder o); reflexivity. Qed.

Lemma fields_nodup : NoDup (map fst (subject_fields o)).
Proof.
  unfold subject_fields, without_alg. rewrite <- mdel_filter. apply mdel_nodup, mdel_nodup, create_payload_nodup.
Qed.
Lemma fields_no_sd : ~ In "_sd" (map fst (subject_fields o)).
Proof.
  intros Hi. apply in_map_iff in Hi as ([k v] & Hk & Hi). simpl in Hk. subst k. apply subject_fields_sub in Hi as (Hi & _).
  apply (create_payload_no_sd "" o). exact (in_map fst _ _ Hi).
Qed.
Lemma fields_dis k : In k (map fst (subject_fields o)) -> ~ In k (names mems).
Proof.
  intros Hi Hk. apply in_map_iff in Hi as ([k' v] & Hx & Hi). simpl in Hx. subst k'. apply subject_fields_sub in Hi as (Hi & _).
  apply (Hdis k Hk). exact (in_map fst _ _ Hi).
Qed.
Lemma fields_ordinary k v : In (k, v) (subject_fields o) -> ordinary v.
Proof. intros Hi. apply subject_fields_sub in Hi as (Hi & _). now apply (create_payload_ordinary "" o k). Qed.
Lemma fields_no_alg : without_alg (subject_fields o) = subject_fields o.
Proof.
  unfold without_alg at 1. rewrite <- mdel_filter. apply mdel_absent. intros Hi. apply in_map_iff in Hi as ([k v] & Hk & Hi).
  simpl in Hk. subst k. now apply subject_fields_sub in Hi as (_ & _ & Hi).
Qed.

Lemma vc_digests : Permutation (digests_in false (JObj signed)) (map H (reachable (fun _ => false) (TObj mems)) ++ decs)%list.
Proof.
  inversion HEnc as [| |? c hd dec decoys sdp sds HM Nn Hres Hsd Hp]; subst.
  set (D := fun _ : string => @None dcontent).
  assert (HwD : wfD D) by (intros d x Hx; discriminate Hx).
  destruct (Enc_good E (io_hash o) (fun _ => false) D false HwD) as (_ & HG). specialize (HG _ _ _ _ HM).
  destruct (obj_good E (io_hash o) (fun _ => false) D false mems c hd dec decoys sdp sds (subject_fields o) _ HM HG Nn Hres Hsd Hp
    fields_no_sd fields_dis (Members_front false D _ fields_ordinary)) as (out & ds & R & _ & Hds).
  - intros s _. reflexivity.
  - intros s _. reflexivity.
  - assert (Ho : exists out0, out = JObj out0) by (inversion R; subst; eauto; contradiction). destruct Ho as (out0 & ->).
    destruct (vc_lift o vc (hash_name (io_hash o)) _ Hord Hholder false D _ _ R) as (out' & R' & _).
    destruct (Res_perm false D) as (HR & _). pose proof (HR _ _ _ R') as Hp1.
    assert (Hz : flat_map (occD false D) ds = []) by (clear; induction ds as [|d ds IH]; [reflexivity|exact IH]).
    rewrite Hz, app_nil_r in Hp1. etransitivity; [apply Permutation_sym; exact Hp1|]. now rewrite Hds.
Qed.
Theorem vc_main sel P' : NoDup (map H (all_discs (TObj mems)) ++ decs)%list ->
  NoDup sel -> incl sel (all_discs (TObj mems)) -> wf_json (JObj P') -> jeq (JObj signed) (JObj P') ->
  (verify_disclosures E sel P' = Ok tt <-> incl sel (reachable (fun s => str_in s sel) (TObj mems))) /\
  (verify_disclosures E sel P' = Ok tt ->
   get_crypto_hash P' = Ok (io_hash o) /\
   forall order, visits_all order -> exists out, vp_disclosed E (io_hash o) sel order P' = Ok out /\
     jeq (JObj out) (JObj (target o vc (JObj (subject_fields o ++ members_of (reveal (fun s => str_in s sel) (TObj mems)))%list)))).
Proof.
  intros ND Ns Hi Hw Hj.
  inversion HEnc as [| |? c hd dec decoys sdp sds HM Nn Hres Hsd Hp]; subst.
  refine (accept_main E (io_hash o) HE mems c hd dec decoys HM ND sel Ns Hi _
    (JObj (target o vc (JObj (subject_fields o ++ members_of (reveal (fun s => str_in s sel) (TObj mems)))%list))) _ _ _ P' Hw Hj).
  - apply vc_wf; try assumption.
    eapply (top_wf E (io_hash o) mems c hd dec sdp sds); eauto using fields_nodup, fields_no_sd, fields_dis, fields_ordinary.
  - now apply vc_hash.
  - intros clean.
    destruct (top_res E (io_hash o) HE mems c hd dec decoys sdp sds (subject_fields o) HM Nn Hres Hsd Hp fields_no_sd fields_dis fields_ordinary ND sel Ns Hi clean)
      as (out & ds & R & Hjo & Hds).
    assert (Ho : exists out0, out = JObj out0) by (inversion R; subst; eauto; contradiction). destruct Ho as (out0 & ->).
    destruct (vc_lift o vc (hash_name (io_hash o)) _ Hord Hholder clean _ _ _ R) as (out' & R' & Hcl).
    exists (JObj out'), ds. split; [assumption|]. split; [|assumption]. intros Hc. rewrite (Hcl Hc). specialize (Hjo Hc).
    rewrite fields_no_alg in Hjo. unfold target, with_claims.
    destruct (mget vc "vc") as [[| | | | |x]|]; try (now apply jeq_mset). now apply jeq_mset, jeq_mset.
Qed.
End VcMain.
