(** Lemmas about SD-JWT credentials: selection of disclosures, texts. *)
From Coq Require Import Permutation.
From Verif Require Import GoBase Base64 StrLemmas JwtSpec DiSpec VcSpec JwtModel SdSpec SdModel SdProofs SdRun SdOrder SdSubset SdParse SdParseProofs
  SdIssueModel SdIssueEnc DiModel VcModel VcJwt VcParse VcProofs VcView VcText VcSign VcSignProofs VcSd.

(** ** The selection *)
Definition last_named (ds : list disc) (n : string) (x : option disc) : option disc :=
  fold_left (fun acc d => if String.eqb (dc_name d) n then Some d else acc) ds x.
Lemma last_named_app ds n x : last_named ds n x = match last_named ds n None with Some d => Some d | None => x end.
Proof.
  unfold last_named. revert x. induction ds as [|d ds IH]; intros x; [reflexivity|]. cbn [fold_left].
  destruct (String.eqb (dc_name d) n); [rewrite IH; symmetry; rewrite IH|apply IH].
  destruct (fold_left _ ds None); reflexivity.
Qed.
Lemma last_named_In ds n d : last_named ds n None = Some d -> In d ds /\ dc_name d = n.
Proof.
  assert (G : forall x, last_named ds n x = Some d -> x = Some d \/ (In d ds /\ dc_name d = n)).
  { unfold last_named. induction ds as [|y ds IH]; cbn [fold_left]; intros x H; [now left|].
    destruct (IH _ H) as [E|[Hi Hn]]; [|right; split; [now right|assumption]].
    destruct (String.eqb_spec (dc_name y) n); [|now left]. injection E as ->. right. split; [now left|assumption]. }
  intros H. destruct (G _ H) as [|]; [discriminate|assumption].
Qed.
Lemma last_named_some ds n d : In d ds -> dc_name d = n -> last_named ds n None <> None.
Proof.
  induction ds as [|y ds IH]; [intros []|]. intros [->|Hi] Hn.
  - unfold last_named. cbn [fold_left]. rewrite Hn, String.eqb_refl. fold (last_named ds n (Some d)). rewrite last_named_app.
    destruct (last_named ds n None); discriminate.
  - unfold last_named. cbn [fold_left]. match goal with |- fold_left _ _ ?x <> _ => fold (last_named ds n x) end.
    rewrite last_named_app. specialize (IH Hi Hn). destruct (last_named ds n None); congruence.
Qed.

Lemma mset_keys_same {V} (m : gomap V) k v : mhas m k = true -> map fst (mset m k v) = map fst m.
Proof.
  unfold mhas. induction m as [|[x w] m IH]; cbn [mget mset]; [discriminate|]. destruct (String.eqb_spec k x).
  - subst. reflexivity.
  - intros H. cbn [map fst]. f_equal. now apply IH.
Qed.
Lemma fill_keys ds : forall m, map fst (fill m ds) = map fst m.
Proof.
  unfold fill. induction ds as [|d ds IH]; intros m; [reflexivity|]. cbn [fold_left]. rewrite IH.
  destruct (mhas m (dc_name d)) eqn:E; [now apply mset_keys_same|reflexivity].
Qed.
Lemma fill_get ds : forall m n, mget (fill m ds) n = match mget m n with None => None | Some x => Some (last_named ds n x) end.
Proof.
  unfold fill, last_named. induction ds as [|d ds IH]; intros m n; cbn [fold_left]; [now destruct (mget m n)|].
  rewrite IH. unfold mhas. destruct (mget m (dc_name d)) eqn:E.
  - rewrite mget_mset. rewrite String.eqb_sym. destruct (String.eqb_spec (dc_name d) n) as [<-|]; [now rewrite E|].
    reflexivity.
  - destruct (String.eqb_spec (dc_name d) n) as [<-|]; [now rewrite E|reflexivity].
Qed.
Lemma names_map_get l n : mget (names_map l) n = if str_in n l then Some None else None.
Proof.
  unfold names_map. assert (G : forall m, mget (fold_left (fun m n => mset m n (None : option disc)) l m) n = if str_in n l then Some None else mget m n).
  { induction l as [|x l IH]; intros m; [reflexivity|]. cbn [fold_left str_in]. rewrite IH, mget_mset.
    destruct (str_in n l) eqn:E; [|destruct (String.eqb_spec n x); reflexivity]. now rewrite orb_true_r. }
  rewrite G. reflexivity.
Qed.
Lemma names_map_nodup l : NoDup (map fst (names_map l)).
Proof.
  unfold names_map. assert (G : forall m : gomap (option disc), NoDup (map fst m) -> NoDup (map fst (fold_left (fun m n => mset m n None) l m))).
  { induction l as [|x l IH]; intros m Hm; [assumption|]. cbn [fold_left]. apply IH. now apply mset_nodup. }
  apply G. constructor.
Qed.
Lemma mdels_get {V} l : forall (m : gomap V) n, mget (fold_left mdel l m) n = if str_in n l then None else mget m n.
Proof.
  induction l as [|x l IH]; intros m n; [reflexivity|]. cbn [fold_left str_in]. rewrite IH, mget_mdel.
  destruct (str_in n l); [now rewrite orb_true_r|]. rewrite orb_false_r. reflexivity.
Qed.
Lemma mdels_nodup {V} l : forall (m : gomap V), NoDup (map fst m) -> NoDup (map fst (fold_left mdel l m)).
Proof. induction l as [|x l IH]; intros m H; [assumption|]. cbn [fold_left]. apply IH. now apply mdel_nodup. Qed.
Lemma keys_get {V} (m : gomap V) n : In n (map fst m) <-> mget m n <> None.
Proof.
  split.
  - intros H G. now apply mget_None in G.
  - intros H. destruct (in_dec string_dec n (map fst m)) as [|Hn]; [assumption|]. now apply mget_None in Hn.
Qed.

Definition permutes (W : walk) : Prop := forall l, Permutation l (W l).
Definition wanted (o : mdopts) (d : disc) : bool := str_in (dc_name d) (md_if o ++ md_req o)%list.

Lemma map_res_all {A B} (f : A -> res B) l : (forall x, In x l -> exists y, f x = Ok y) -> exists r, map_res f l = Ok r /\ Forall2 (fun x y => f x = Ok y) l r.
Proof.
  induction l as [|x l IH]; intros H; [exists []; split; [reflexivity|constructor]|].
  destruct (H x) as (y & Hy); [now left|]. destruct IH as (r & Hr & Hf); [intros z Hz; apply H; now right|].
  exists (y :: r). cbn [map_res]. rewrite Hy, Hr. split; [reflexivity|]. now constructor.
Qed.
Lemma map_res_err {A B} (f : A -> res B) l x : (forall x, f x <> Panic) -> In x l -> (exists e, f x = Err e) -> exists e, map_res f l = Err e.
Proof.
  intros Hp. induction l as [|y l IH]; [intros []|]. intros Hi (e & He). cbn [map_res].
  destruct (f y) as [b|e'|] eqn:Ey; [|eexists; reflexivity|now apply Hp in Ey]. cbn [bind].
  destruct Hi as [->|Hi]; [congruence|]. destruct (IH Hi) as (e' & ->); [eauto|]. eexists. reflexivity.
Qed.
Lemma NoDup_flat_opt (ds : list disc) l : NoDup l ->
  NoDup (flat_map (fun n => match last_named ds n None with Some d => [d] | None => [] end) l).
Proof.
  induction l as [|n l IH]; intros H; [constructor|]. inversion H as [|? ? Hn Hl]; subst. cbn [flat_map].
  destruct (last_named ds n None) as [d|] eqn:E; [|now apply IH]. cbn [app]. constructor; [|now apply IH].
  intros Hi. apply in_flat_map in Hi as (n' & Hi & Hd). destruct (last_named ds n' None) as [d'|] eqn:E'; [|destruct Hd].
  destruct Hd as [->|[]]. apply last_named_In in E as [_ E]. apply last_named_In in E' as [_ E']. congruence.
Qed.

(** the selection, up to order *)
Lemma filter_disclosures_ok W ds ifav req : permutes W ->
  (forall n, In n req -> In n (map dc_name ds)) ->
  exists sel, filter_disclosures W ds ifav req = Ok sel /\ NoDup sel /\
    forall d, In d sel <-> In (dc_name d) (ifav ++ req)%list /\ last_named ds (dc_name d) None = Some d.
Proof.
  intros HW Hreq. unfold filter_disclosures.
  set (fa := fill (fold_left mdel req (names_map ifav)) ds). set (rq := fill (names_map req) ds).
  assert (Hfa : forall n, mget fa n = if str_in n req then None else if str_in n ifav then Some (last_named ds n None) else None).
  { intros n. unfold fa. rewrite fill_get, mdels_get, names_map_get. destruct (str_in n req), (str_in n ifav); reflexivity. }
  assert (Hrq : forall n, mget rq n = if str_in n req then Some (last_named ds n None) else None).
  { intros n. unfold rq. rewrite fill_get, names_map_get. destruct (str_in n req); reflexivity. }
  assert (Nfa : NoDup (map fst fa)) by (unfold fa; rewrite fill_keys; apply mdels_nodup, names_map_nodup).
  assert (Nrq : NoDup (map fst rq)) by (unfold rq; rewrite fill_keys; apply names_map_nodup).
  assert (Kfa : forall n, In n (map fst fa) <-> In n ifav /\ ~ In n req).
  { intros n. rewrite keys_get, Hfa. rewrite <- str_in_nIn, <- str_in_In. destruct (str_in n req), (str_in n ifav); intuition congruence. }
  assert (Krq : forall n, In n (map fst rq) <-> In n req).
  { intros n. rewrite keys_get, Hrq. rewrite <- str_in_In. destruct (str_in n req); intuition congruence. }
  assert (Hout : flat_map (fun n => match mget fa n with Some (Some d) => [d] | _ => [] end) (W (map fst fa))
               = flat_map (fun n => match last_named ds n None with Some d => [d] | None => [] end) (W (map fst fa))).
  { assert (G : forall l, (forall n, In n l -> In n (map fst fa)) -> flat_map (fun n => match mget fa n with Some (Some d) => [d] | _ => [] end) l
      = flat_map (fun n => match last_named ds n None with Some d => [d] | None => [] end) l).
    { induction l as [|n l IH]; intros Hl; [reflexivity|]. cbn [flat_map]. rewrite IH by (intros; apply Hl; now right). f_equal.
      assert (Hn : In n (map fst fa)) by (apply Hl; now left). apply Kfa in Hn as [H1 H2]. rewrite Hfa. apply str_in_nIn in H2. apply str_in_In in H1.
      now rewrite H1, H2. }
    apply G. intros n Hn. eapply Permutation_in; [apply Permutation_sym, HW|exact Hn]. }
  rewrite Hout.
  destruct (map_res_all (fun n => match mget rq n with Some (Some d) => Ok d | _ => Err "disclosure list missing required claim" end) (W (map fst rq))) as (r & Hr & Hf).
  { intros n Hn. assert (Hn' : In n req) by (apply Krq; eapply Permutation_in; [apply Permutation_sym, HW|exact Hn]).
    rewrite Hrq. apply str_in_In in Hn' as Hs. rewrite Hs. apply Hreq in Hn'. apply in_map_iff in Hn' as (d & Hd & Hi).
    pose proof (last_named_some _ _ _ Hi Hd). destruct (last_named ds n None); [eauto|congruence]. }
  rewrite Hr. cbn [bind]. eexists. split; [reflexivity|].
  assert (Er : r = flat_map (fun n => match last_named ds n None with Some d => [d] | None => [] end) (W (map fst rq))).
  { clear Hr. revert r Hf. generalize (W (map fst rq)) at 1 2. induction l as [|n l IH]; intros r Hf; inversion Hf as [|? d ? r' Hd Hf']; subst; [reflexivity|].
    cbn [flat_map]. rewrite Hrq in Hd. destruct (str_in n req); [|discriminate]. destruct (last_named ds n None); [|discriminate]. injection Hd as ->.
    cbn [app]. f_equal. now apply IH. }
  rewrite Er, <- flat_map_app. split.
  - apply NoDup_flat_opt. rewrite <- (HW (map fst fa)), <- (HW (map fst rq)). apply NoDup_app_intro; auto.
    intros n H1 H2. apply Kfa in H1. apply Krq in H2. tauto.
  - intros d. rewrite in_flat_map. split.
    + intros (n & Hn & Hd). destruct (last_named ds n None) as [d'|] eqn:E; [|destruct Hd]. destruct Hd as [->|[]].
      pose proof (last_named_In _ _ _ E) as [_ Hnm]. rewrite Hnm. split; [|assumption]. apply in_app_iff.
      apply in_app_iff in Hn as [Hn|Hn]; (eapply Permutation_in in Hn; [|apply Permutation_sym, HW]); [apply Kfa in Hn|apply Krq in Hn]; tauto.
    + intros [Hn Hd]. exists (dc_name d). rewrite Hd. split; [|now left]. apply in_app_iff.
      destruct (in_dec string_dec (dc_name d) req) as [Hq|Hq].
      * right. eapply Permutation_in; [apply HW|]. now apply Krq.
      * left. eapply Permutation_in; [apply HW|]. apply Kfa. apply in_app_iff in Hn as [|]; tauto.
Qed.
Lemma filter_disclosures_missing W ds ifav req n : permutes W -> In n req -> ~ In n (map dc_name ds) ->
  exists e, filter_disclosures W ds ifav req = Err e.
Proof.
  intros HW Hn Hd. unfold filter_disclosures.
  destruct (map_res_err (fun n => match mget (fill (names_map req) ds) n with Some (Some d) => Ok d | _ => Err "disclosure list missing required claim" end)
     (W (map fst (fill (names_map req) ds))) n) as (e & He).
  - intros x. destruct (mget _ x) as [[]|]; discriminate.
  - eapply Permutation_in; [apply HW|]. rewrite keys_get, fill_get, names_map_get. apply str_in_In in Hn as ->. discriminate.
  - rewrite fill_get, names_map_get. apply str_in_In in Hn as ->. destruct (last_named ds n None) as [d|] eqn:E; [|eauto].
    exfalso. apply Hd. apply last_named_In in E as [Hi <-]. now apply in_map.
  - rewrite He. eexists. reflexivity.
Qed.
(** when the requested names are unambiguous, the selection is the requested disclosures *)
Lemma last_named_unique o ds : NoDup (map dc_name (filter (wanted o) ds)) ->
  forall d, In d ds -> wanted o d = true -> last_named ds (dc_name d) None = Some d.
Proof.
  induction ds as [|y ds IH]; intros N d; [intros []|]. cbn [filter] in N. intros Hi Hw.
  unfold last_named. cbn [fold_left]. match goal with |- fold_left _ _ ?x = _ => fold (last_named ds (dc_name d) x) end. rewrite last_named_app.
  destruct (last_named ds (dc_name d) None) as [d'|] eqn:E.
  - apply last_named_In in E as [Hd' Hn]. destruct (wanted o y) eqn:Ey.
    + cbn [map] in N. inversion N as [|? ? Hy N']; subst. destruct Hi as [->|Hi].
      * exfalso. apply Hy. rewrite <- Hn. apply in_map. apply filter_In. split; [assumption|]. unfold wanted in *. now rewrite Hn.
      * rewrite <- (IH N' d Hi Hw). assert (Hw' : wanted o d' = true) by (unfold wanted in *; now rewrite Hn).
        rewrite <- (IH N' d' Hd' Hw'). now rewrite Hn.
    + destruct Hi as [->|Hi]; [congruence|]. rewrite <- (IH N d Hi Hw). assert (Hw' : wanted o d' = true) by (unfold wanted in *; now rewrite Hn).
      rewrite <- (IH N d' Hd' Hw'). now rewrite Hn.
  - destruct Hi as [->|Hi]; [now rewrite String.eqb_refl|]. exfalso. eapply last_named_some; eauto.
Qed.
Lemma NoDup_of_map {A B} (f : A -> B) l : NoDup (map f l) -> NoDup l.
Proof. induction l as [|x l IH]; intros H; [constructor|]. inversion H; subst. constructor; [|auto]. intros Hi. apply H2. now apply in_map. Qed.
Lemma filter_disclosures_exact W ds o : permutes W -> NoDup (map dc_name (filter (wanted o) ds)) ->
  (forall n, In n (md_req o) -> In n (map dc_name ds)) ->
  exists sel, filter_disclosures W ds (md_if o) (md_req o) = Ok sel /\ Permutation sel (filter (wanted o) ds).
Proof.
  intros HW N Hreq. destruct (filter_disclosures_ok W ds (md_if o) (md_req o) HW Hreq) as (sel & Hs & Ns & Hi).
  exists sel. split; [assumption|]. apply NoDup_Permutation; [assumption|now apply NoDup_of_map in N|].
  intros d. rewrite Hi, filter_In. unfold wanted. rewrite str_in_In. split.
  - intros [H1 H2]. apply last_named_In in H2. tauto.
  - intros [H1 H2]. split; [assumption|]. apply (last_named_unique o); auto. unfold wanted. now apply str_in_In.
Qed.

(** ** What a parsed SD-JWT credential carries *)
(** the payload the disclosures are verified against (credential.go:1575-1586) *)
Definition sd_payload (m : gomap json) : gomap json :=
  if mhas m "_sd_alg" then m else
  match mget m "credentialSubject" with
  | Some (JObj s) => match mget s "_sd_alg" with Some a => mset m "_sd_alg" a | None => m end
  | _ => m
  end.
Lemma validate_disclosures_ok E m d ds : validate_disclosures E m (d :: ds) = Ok tt ->
  verify_disclosures (ve_sd E) (d :: ds) (sd_payload m) = Ok tt
  /\ (mhas m "_sd_alg" = true \/ exists s, mget m "credentialSubject" = Some (JObj s)).
Proof.
  unfold validate_disclosures, sd_payload. destruct (mhas m "_sd_alg"); [cbn [bind]; auto|].
  destruct (mget m "credentialSubject") as [[| | | | |s]|]; try discriminate. cbn [bind]. eauto.
Qed.
Lemma validate_disclosures_intro E m ds : (mhas m "_sd_alg" = true \/ exists s, mget m "credentialSubject" = Some (JObj s)) ->
  verify_disclosures (ve_sd E) ds (sd_payload m) = Ok tt -> validate_disclosures E m ds = Ok tt.
Proof.
  intros Ha Hv. unfold validate_disclosures. destruct ds as [|d ds]; [reflexivity|]. unfold sd_payload in Hv.
  destruct (mhas m "_sd_alg") eqn:Em; [exact Hv|]. destruct Ha as [|(s & Hs)]; [discriminate|]. rewrite Hs in *. exact Hv.
Qed.
Lemma wf_sd_payload m : wf_json (JObj m) -> wf_json (JObj (sd_payload m)).
Proof.
  intros Hw. unfold sd_payload. destruct (mhas m "_sd_alg"); [assumption|].
  destruct (mget m "credentialSubject") as [[| | | | |s]|] eqn:Es; try assumption.
  destruct (mget s "_sd_alg") as [a|] eqn:Ea; [|assumption].
  apply wf_obj in Hw as [N F]. assert (Hs : wf_json (JObj s)).
  { apply mget_In in Es. rewrite Forall_forall in F. exact (F _ Es). }
  apply wf_obj in Hs as [_ Fs]. apply wf_obj. split; [now apply mset_nodup|].
  apply Forall_forall. intros [k v] Hi. cbn [snd].
  apply mget_In_nodup in Hi; [|now apply mset_nodup]. rewrite mget_mset in Hi. destruct (String.eqb k "_sd_alg").
  - injection Hi as <-. apply mget_In in Ea. rewrite Forall_forall in Fs. exact (Fs _ Ea).
  - apply mget_In in Hi. rewrite Forall_forall in F. exact (F _ Hi).
Qed.
(** the algorithm the credential reports is the one its disclosures were verified with *)
Lemma sdalg_payload T m c h h' : parse_contents T m true = Ok c -> vc_sdalg c = Some h -> mget m "vc" = None ->
  (mhas m "_sd_alg" = true \/ exists s, mget m "credentialSubject" = Some (JObj s)) ->
  get_crypto_hash (sd_payload m) = Ok h' -> h' = h.
Proof.
  intros Hc Hh Hvc Ha Hp. unfold parse_contents in Hc.
  repeat (let x := fresh "x" in let Hx := fresh "Hx" in apply bind_ok in Hc as (x & Hx & Hc)).
  injection Hc as <-. cbn [vc_sdalg] in Hh. subst x7. clear - Hx6 Hx7 Hvc Ha Hp.
  cbn [parse_sd_alg] in Hx7. apply bind_ok in Hx7 as (s & Hs & Hr). unfold rmap in Hr. apply bind_ok in Hr as (h2 & Hr & Hr').
  injection Hr' as ->. unfold parse_string_fld, fld in Hs. unfold sd_payload in Hp. unfold mhas in Ha, Hp.
  destruct (mget m "_sd_alg") as [a|] eqn:Ea.
  - unfold get_crypto_hash, get_key_from_vc in Hp. rewrite Ea in Hp. destruct a; try discriminate. injection Hs as <-.
    unfold parse_sd_alg_value in Hr. destruct (String.eqb_spec s0 "") as [->|]; [discriminate|]. congruence.
  - injection Hs as <-. destruct Ha as [|(sm & Hsm)]; [discriminate|]. rewrite Hsm in Hp.
    unfold fld in Hx6. rewrite Hsm in Hx6. cbn [parse_subject] in Hx6. destruct (subject_from sm) as [sj| |] eqn:Esf; try discriminate.
    cbn [rmap] in Hx6. injection Hx6 as <-. apply subject_from_in in Esf as (_ & Hcu).
    destruct (mget sm "_sd_alg") as [a|] eqn:Ea'.
    + unfold get_crypto_hash, get_key_from_vc in Hp. rewrite mget_mset, String.eqb_refl in Hp. destruct a; try discriminate.
      assert (Hc : mget (sj_custom sj) "_sd_alg" = Some (JStr s)).
      { now rewrite Hcu. }
      unfold parse_sd_alg_value in Hr. cbn [String.eqb] in Hr. destruct sj as [sid [|kv cu]]; [discriminate|].
      unfold get_crypto_hash, get_key_from_vc in Hr. cbn [sj_custom] in Hc. rewrite Hc in Hr. congruence.
    + unfold get_crypto_hash, get_key_from_vc in Hp. rewrite Ea, Hvc in Hp. discriminate.
Qed.

(** each kept disclosure is the one its digest stands for *)
Lemma claims_sources E h ds payload order m : wf_env E -> wf_json (JObj payload) -> visits_all order ->
  verify_disclosures E ds payload = Ok tt -> get_crypto_hash payload = Ok h -> get_disclosure_claims E h ds order = Ok m ->
  NoDup (map fst m) /\ (forall s, In s ds -> In (get_hash E h s) (map fst m)) /\
  forall k c, In (k, c) m -> In (dc_str c) ds /\ get_hash E h (dc_str c) = k /\ dsp E (dc_str c) = Dof E h ds k.
Proof.
  intros HE Hp Hord Hv Hh Hg.
  destruct (disclosed_after_verify E h ds payload order HE Hp Hord Hv Hh) as (m' & Hg' & N & K & V & _).
  assert (m' = m) by congruence. subst m'. split; [assumption|]. split; [intros s Hs; apply K; eauto|].
  intros k c Hi. destruct (V _ _ Hi) as (V1 & V2 & _). split; [assumption|]. split; [assumption|].
  apply verify_disclosures_iff in Hv as (h' & Hh' & Hall & out0 & dl & R & Nd & Hin); [|assumption|assumption].
  assert (h' = h) by congruence. subst h'.
  destruct (disclosure_map_total E h ds Hall) as (m0 & Hm).
  pose proof (get_disclosure_map_spec E h ds []) as S. rewrite Hm in S.
  destruct S as (S1 & S2 & S3 & S4 & S5 & _ & S7).
  assert (Hr : raws m0) by (apply S4; intros x c' Hk; discriminate).
  assert (Hcof : forall d, cof m0 d = Dof E h ds d).
  { intros d. rewrite S2. unfold cof. simpl. now destruct (Dof E h ds d). }
  assert (Hwf : wf_raws m0).
  { intros x c' Hk. specialize (Hcof x). unfold cof in Hcof. rewrite Hk in Hcof. simpl in Hcof. symmetry in Hcof.
    apply Dof_In in Hcof as (s & _ & _ & Hs). apply dsp_wf in Hs; [|assumption].
    rewrite content_value in Hs; eauto. }
  assert (R' : Res false (cof m0) (JObj payload) out0 dl) by (eapply Res_D_ext; [|exact R]; auto).
  assert (Hkeys : forall x, In x (map fst m0) -> In x dl).
  { intros x Hk. apply S7 in Hk as [[]|(s & Hs & ->)]. auto. }
  destruct (claims_after_verify m0 (JObj payload) out0 dl Hr Hwf R' Nd Hkeys (order m0) (Hord m0)) as (st' & Hset & Hk & Hval & _).
  unfold get_disclosure_claims in Hg. rewrite Hm in Hg. simpl in Hg. unfold fuel0, st0 in Hset. rewrite Hset in Hg. simpl in Hg. injection Hg as <-.
  pose proof (mget_In_nodup _ _ _ N Hi) as Gc. destruct (mget m0 k) as [c0|] eqn:Gk.
  2:{ exfalso. apply mget_None in Gk. apply Gk. rewrite <- Hk. exact (in_map fst _ _ Hi). }
  destruct (Hval _ _ Gk) as (c2 & Hc2 & Hres). rewrite Gc in Hc2. injection Hc2 as <-.
  destruct Hres as (E1 & _). destruct (get_disclosure_map_str E h ds m0 Hm k c0 Gk) as (_ & _ & Kc & _).
  rewrite E1, Kc, <- Hcof. unfold cof. now rewrite Gk.
Qed.
Lemma Dof_none E h ds d : (forall s, In s ds -> get_hash E h s <> d) -> Dof E h ds d = None.
Proof.
  intros H. destruct (Dof E h ds d) as [c|] eqn:Ed; [|reflexivity]. apply Dof_In in Ed as (s & Hs & Hd & _). now apply H in Hs.
Qed.
Lemma kept_verifies E h ds payload order m : wf_env E -> wf_json (JObj payload) -> visits_all order ->
  verify_disclosures E ds payload = Ok tt -> get_crypto_hash payload = Ok h -> get_disclosure_claims E h ds order = Ok m ->
  let L := map dc_str (map snd m) in
  NoDup (map (get_hash E h) L) /\ verify_disclosures E L payload = Ok tt /\ (forall s, In s L -> In s ds)
  /\ (forall d, Dof E h L d = Dof E h ds d).
Proof.
  intros HE Hp Hord Hv Hh Hg L.
  destruct (claims_sources E h ds payload order m HE Hp Hord Hv Hh Hg) as (N & K & V).
  assert (HL : map (get_hash E h) L = map fst m).
  { unfold L. rewrite !map_map. apply map_ext_in. intros [k c] Hi. cbn [snd]. now apply V in Hi. }
  assert (HN : NoDup (map (get_hash E h) L)) by now rewrite HL.
  assert (Hin : forall s, In s L -> exists k c, In (k, c) m /\ dc_str c = s).
  { intros s Hs. unfold L in Hs. rewrite map_map in Hs. apply in_map_iff in Hs as ([k c] & <- & Hi). cbn [snd]. eauto. }
  assert (Hsub : forall s, In s L -> In s ds).
  { intros s Hs. destruct (Hin s Hs) as (k & c & Hi & <-). now apply V in Hi. }
  apply verify_disclosures_iff in Hv as (h' & Hh' & Hall & out & dl & R & Nd & Hi); auto.
  assert (h' = h) by congruence. subst h'.
  assert (HD : forall d, Dof E h L d = Dof E h ds d).
  { intros d. destruct (in_dec string_dec d (map fst m)) as [Hd|Hd].
    - apply in_map_iff in Hd as ([k c] & <- & Hi'). cbn [fst]. destruct (V _ _ Hi') as (V1 & V2 & V3).
      assert (HcL : In (dc_str c) L) by (unfold L; rewrite map_map; apply in_map_iff; exists (k, c); auto).
      rewrite <- V3, <- V2. unfold Dof. apply (supplied_unique (dsp E) (get_hash E h) L (dc_str c)); auto.
    - rewrite !Dof_none; [reflexivity| |]; intros s Hs <-; [apply Hd, K; assumption|].
      apply Hd. rewrite <- HL. now apply in_map. }
  split; [assumption|]. split; [|split; assumption].
  apply verify_disclosures_iff; auto. exists h. split; [assumption|]. split; [auto|]. exists out, dl.
  split; [eapply Res_D_ext; [|exact R]; auto|]. split; [assumption|]. auto.
Qed.

(** ** Text and parsing *)
Lemma parse_presentation_parts s : free_of tilde (cp_jwt (parse_presentation s)) /\ Forall (free_of tilde) (cp_discs (parse_presentation s))
  /\ free_of tilde (cp_holder (parse_presentation s)).
Proof.
  unfold parse_presentation. pose proof (split_on_parts tilde s) as H. pose proof (split_on_nonempty tilde s).
  destruct (split_on tilde s) as [|p ps]; [congruence|]. inversion H; subst. cbn [cp_jwt cp_discs cp_holder hd tl]. split; [assumption|].
  assert (F0 : free_of tilde "") by (intros []).
  split.
  - destruct (2 <? _)%nat; [|constructor]. apply Forall_forall. intros x Hx. rewrite Forall_forall in H4. apply H4.
    clear - Hx. induction ps as [|y [|z ps] IH]; cbn [removelast] in Hx; [destruct Hx|destruct Hx|]. destruct Hx as [->|Hx]; [now left|right; auto].
  - destruct (1 <? _)%nat; [|assumption]. clear - H F0. induction (p :: ps) as [|y [|z l] IH]; [assumption|now inversion H|].
    apply IH. now inversion H.
Qed.
(** what the fields of a parsed SD-JWT credential are *)
Record sd_cred (E : venv) (v : credential) (je : jenvelope) (ds : list string) : Prop := {
  sc_hdr : decode_cred_jwt (ve_time E) (ve_jwt E) (ve_members E) (je_jwt je) = Ok (je_headers je, cr_json v);
  sc_jws : is_jws (ve_obj E) (je_jwt je) = true;
  sc_free : free_of tilde (je_jwt je);
  sc_dfree : Forall (free_of tilde) ds;
  sc_hfree : free_of tilde (je_binding je);
  sc_hb : je_binding je = "" \/ is_jws (ve_obj E) (je_binding je) = true;
  sc_valid : validate_disclosures E (cr_json v) ds = Ok tt;
  sc_cont : parse_contents (ve_time E) (cr_json v) true = Ok (cr_contents v);
  sc_proofs : parse_ld_proof (fld (cr_json v) "proof") = Ok (cr_proofs v);
  sc_discs : parse_disclosures E ds (vc_sdalg (cr_contents v)) = Ok (je_discs je);
  sc_cwt : cr_cwt v = None }.
Lemma parse_contents_sdalg_false T m c : parse_contents T m false = Ok c -> vc_sdalg c = None.
Proof. intros H. now apply parse_contents_fields in H as (_ & _ & _ & _ & _ & _ & _ & _ & H & _). Qed.
Lemma json_parser_sd_inv E o d v je h : json_parser E o d = Ok (Some v) -> cr_jwt v = Some je -> vc_sdalg (cr_contents v) = Some h ->
  exists ds, sd_cred E v je ds.
Proof.
  unfold json_parser. set (r := try_parse_jws E (unwrap_string E d)). intros H Hje Hal.
  apply bind_ok in H as (hm & Hm & H). destruct hm as [[hd m]|]; [|discriminate].
  apply bind_ok in H as (c & Hc & H). apply bind_ok in H as (ps & Hps & H). apply bind_ok in H as (u & _ & H).
  apply bind_ok in H as (ds & Hds & H). injection H as <-. cbn [cr_jwt cr_contents] in *.
  destruct (jv_jws r) eqn:Er; [|discriminate]. injection Hje as <-.
  apply bind_ok in Hm as (hm' & Hd & Hm). apply bind_ok in Hm as ([] & Hv & Hm). injection Hm as ->. cbn [fst snd] in *.
  assert (Hsd : jv_sd r = true).
  { destruct (jv_sd r); [reflexivity|]. apply parse_contents_sdalg_false in Hc. congruence. }
  rewrite Hsd in Hc. exists (jv_discs r).
  unfold r, try_parse_jws in Er, Hsd.
  set (s := unwrap_string E d) in *.
  assert (HR : is_jws (ve_obj E) (jv_jwt r) = true /\ free_of tilde (jv_jwt r) /\ Forall (free_of tilde) (jv_discs r) /\ free_of tilde (jv_binding r)
     /\ (jv_binding r = "" \/ is_jws (ve_obj E) (jv_binding r) = true)).
  { clear - Er Hsd. unfold r, try_parse_jws.
    destruct (1 <? List.length (split_on tilde s))%nat eqn:E1; [|destruct (is_jws (ve_obj E) s); discriminate].
    destruct (parse_presentation_parts s) as (F1 & F2 & F3). destruct (parse_issuance_parts s) as (G1 & G2).
    assert (HH : cp_holder (parse_presentation s) = last (split_on tilde s) "") by (unfold parse_presentation; cbn [cp_holder]; now rewrite E1).
    destruct (String.eqb (last (split_on tilde s) "") "" || is_jws (ve_obj E) (last (split_on tilde s) "")) eqn:E2.
    - destruct (is_jws (ve_obj E) (cp_jwt (parse_presentation s))) eqn:E3; [|discriminate]. cbn [jv_jwt jv_discs jv_binding].
      split; [assumption|]. split; [assumption|]. split; [assumption|]. split; [assumption|]. rewrite HH.
      apply orb_prop in E2 as [E2|E2]; [left; now apply String.eqb_eq|now right].
    - destruct (is_jws (ve_obj E) (ci_jwt (parse_issuance s))) eqn:E3; [|discriminate]. cbn [jv_jwt jv_discs jv_binding].
      split; [assumption|]. split; [assumption|]. split; [assumption|]. split; [intros []|now left]. }
  destruct HR as (R1 & R2 & R3 & R4 & R5).
  constructor; cbn [je_jwt je_headers cr_json je_binding cr_contents cr_proofs je_discs cr_cwt]; auto.
Qed.
Lemma parse_sd_inv E o d v je h : parse_credential E o d = Ok v -> cr_jwt v = Some je -> vc_sdalg (cr_contents v) = Some h ->
  (exists ds, sd_cred E v je ds) /\
  (co_no_proof o = false -> check_cred_proof E o v = Ok v) /\
  (co_no_related o = false -> ve_related E (vc_related (cr_contents v)) = Ok tt).
Proof.
  intros H Hje Hal. assert (Hrel : co_no_related o = false -> ve_related E (vc_related (cr_contents v)) = Ok tt).
  { unfold parse_credential in H. cbn [try_parsers] in H.
    apply bind_ok in H as (r1 & H1 & H). destruct r1 as [x|]; [injection H as ->; now apply parse_with_ok in H1 as (? & _ & _ & ?)|].
    apply bind_ok in H as (r2 & H2 & H). destruct r2 as [x|]; [injection H as ->; now apply parse_with_ok in H2 as (? & _ & _ & ?)|].
    apply bind_ok in H as (r3 & H3 & H). destruct r3 as [x|]; [|discriminate]. injection H as ->. now apply parse_with_ok in H3 as (? & _ & _ & ?). }
  apply parse_credential_ok in H as (d' & v0 & v1 & _ & Hp & Hc1 & Hc2).
  assert (Hsame : forall a b, checked E o a b -> cr_jwt b = Some je -> b = a).
  { intros a b Hc Hb. unfold checked in Hc. destruct (co_no_proof o); [assumption|].
    apply check_cred_same in Hc as (_ & _ & Hj & _ & [->|(Hn & _)]); [reflexivity|]. congruence. }
  assert (E1 : v = v1) by (destruct Hc2 as [|Hc2]; [assumption|now apply Hsame]). subst v1.
  assert (E0 : v = v0) by now apply Hsame. subst v0.
  split; [|split; [|assumption]].
  - destruct Hp as [Hp|Hp]; [eapply json_parser_sd_inv; eauto|]. apply cbor_parser_contents in Hp. apply parse_contents_sdalg_false in Hp. congruence.
  - intros Hn. unfold checked in Hc1. now rewrite Hn in Hc1.
Qed.

Lemma is_jws_first f s : is_jws f s = true -> exists c t, s = String c t /\ c <> quote_char.
Proof.
  destruct s as [|c s]; [discriminate|]. intros H. exists c, s. split; [reflexivity|]. intros ->. unfold is_jws in H.
  assert (Hsp : exists p ps, split_on "." (String quote_char s) = String quote_char p :: ps).
  { cbn [split_on]. change (Ascii.eqb quote_char ".") with false. cbn match. destruct (split_on "." s) as [|p ps] eqn:E; [now apply split_on_nonempty in E|]. eauto. }
  destruct Hsp as (p & ps & Hsp). rewrite Hsp in H. destruct ps as [|b [|d [|]]]; try discriminate. unfold is_valid_json at 1 in H. now rewrite b64_quote in H.
Qed.
Lemma add_parts_first c t l : exists t', add_parts (String c t) l = String c t'.
Proof. rewrite add_parts_concat. destruct l; cbn [String.concat]; eauto. cbn [append]. eauto. Qed.
Lemma un_quote_first c t : c <> quote_char -> un_quote (String c t) = String c t.
Proof. intros H. unfold un_quote. destruct (Ascii.eqb_spec c quote_char); [contradiction|]. now rewrite andb_false_r. Qed.
Lemma serialize_unquoted f c : is_jws f (cp_jwt c) = true -> un_quote (serialize_presentation c) = serialize_presentation c.
Proof.
  intros H. apply is_jws_first in H as (a & t & Ht & Ha). rewrite serialize_presentation_parts, Ht.
  destruct (cp_discs c) as [|d l]; [destruct (cp_holder c)|]; [now apply un_quote_first| |];
    (match goal with |- context [add_parts _ ?l] => destruct (add_parts_first a t l) as (t' & ->) end; now apply un_quote_first).
Qed.
Lemma serialize_split c : free_of tilde (cp_jwt c) -> Forall (free_of tilde) (cp_discs c) -> free_of tilde (cp_holder c) ->
  (cp_discs c <> [] \/ cp_holder c <> "") ->
  split_on tilde (serialize_presentation c) = (cp_jwt c :: cp_discs c ++ [cp_holder c])%list.
Proof.
  intros H1 H2 H3 H4. rewrite serialize_presentation_parts. destruct c as [j l h]. cbn [cp_jwt cp_discs cp_holder] in *.
  assert (G : split_on tilde (add_parts j (l ++ [h])%list) = j :: (l ++ [h])%list).
  { rewrite add_parts_concat, split_on_concat; [reflexivity|discriminate|]. constructor; [assumption|]. apply Forall_app. auto. }
  destruct l as [|d l]; [destruct h as [|c h]; [destruct H4; congruence|]|]; exact G.
Qed.
Lemma last_snoc {A} (l : list A) x d : last (l ++ [x])%list d = x.
Proof. apply last_last. Qed.
Lemma try_parse_sd E c : free_of tilde (cp_jwt c) -> Forall (free_of tilde) (cp_discs c) -> free_of tilde (cp_holder c) ->
  (cp_discs c <> [] \/ cp_holder c <> "") -> is_jws (ve_obj E) (cp_jwt c) = true ->
  (cp_holder c = "" \/ is_jws (ve_obj E) (cp_holder c) = true) ->
  try_parse_jws E (serialize_presentation c) =
    {| jv_jws := true; jv_sd := true; jv_jwt := cp_jwt c; jv_discs := cp_discs c; jv_binding := cp_holder c |}.
Proof.
  intros H1 H2 H3 H4 H5 H6. unfold try_parse_jws. rewrite (serialize_split c H1 H2 H3 H4), (parse_presentation_serialize c H1 H2 H3).
  assert (L : (1 <? List.length (cp_jwt c :: cp_discs c ++ [cp_holder c]))%nat = true) by (apply Nat.ltb_lt; cbn [List.length]; rewrite app_length; cbn; lia).
  rewrite L. change (cp_jwt c :: cp_discs c ++ [cp_holder c])%list with ((cp_jwt c :: cp_discs c) ++ [cp_holder c])%list. rewrite last_snoc.
  assert (P : (String.eqb (cp_holder c) "" || is_jws (ve_obj E) (cp_holder c)) = true) by (destruct H6 as [->| ->]; [reflexivity|now rewrite orb_true_r]).
  rewrite P. cbn match. now rewrite H5.
Qed.
Lemma unwrap_not_json E s : ve_members E s = None -> un_quote s = s -> unwrap_string E s = s.
Proof. intros H1 H2. unfold unwrap_string. now rewrite H1. Qed.

(** the credential read back from a presentation of the same token *)
Definition with_sd (v : credential) (je : jenvelope) (ds : list disc) (hb : string) : credential :=
  {| cr_json := cr_json v; cr_contents := cr_contents v; cr_proofs := cr_proofs v;
     cr_jwt := Some {| je_jwt := je_jwt je; je_headers := je_headers je; je_discs := ds; je_binding := hb |}; cr_cwt := None |}.
Lemma parse_again E o v je ds sel hb ds' : sd_cred E v je ds ->
  let s := serialize_presentation {| cp_jwt := je_jwt je; cp_discs := sel; cp_holder := hb |} in
  ve_members E s = None -> Forall (free_of tilde) sel -> free_of tilde hb -> (hb = "" \/ is_jws (ve_obj E) hb = true) ->
  (sel <> [] \/ hb <> "") -> cr_jwt v = Some je ->
  validate_disclosures E (cr_json v) sel = Ok tt -> parse_disclosures E sel (vc_sdalg (cr_contents v)) = Ok ds' ->
  (co_no_proof o = false -> check_cred_proof E o v = Ok v) ->
  (co_no_related o = false -> ve_related E (vc_related (cr_contents v)) = Ok tt) ->
  parse_credential E o s = Ok (with_sd v je ds' hb).
Proof.
  intros S s Hm Hsf Hbf Hb Hne Hje Hv Hd Hck Hrel. unfold parse_credential. cbn [try_parsers].
  unfold parse_with at 1. rewrite (enveloped_not_json _ _ _ Hm). cbn [bind].
  set (c := {| cp_jwt := je_jwt je; cp_discs := sel; cp_holder := hb |}) in *.
  assert (Hj : json_parser E o s = Ok (Some (with_sd v je ds' hb))).
  { unfold json_parser. rewrite (unwrap_not_json E s Hm); [|apply (serialize_unquoted (ve_obj E) c); cbn [c cp_jwt]; apply (sc_jws _ _ _ _ S)].
    assert (Ht : try_parse_jws E s = {| jv_jws := true; jv_sd := true; jv_jwt := je_jwt je; jv_discs := sel; jv_binding := hb |}).
    { apply (try_parse_sd E c); cbn [c cp_jwt cp_discs cp_holder]; auto; apply S. }
    rewrite Ht. cbn [jv_jws jv_sd jv_jwt jv_discs jv_binding]. rewrite (sc_hdr _ _ _ _ S). cbn [bind snd]. rewrite Hv. cbn [bind].
    rewrite (sc_cont _ _ _ _ S). cbn [bind]. rewrite (sc_proofs _ _ _ _ S). cbn [bind orb]. rewrite Hd. reflexivity. }
  unfold parse_with at 1. rewrite Hj. cbn [bind].
  assert (Hc : (if co_no_proof o then Ok (with_sd v je ds' hb) else check_cred_proof E o (with_sd v je ds' hb)) = Ok (with_sd v je ds' hb)).
  { destruct (co_no_proof o); [reflexivity|]. specialize (Hck eq_refl). unfold check_cred_proof in *. unfold with_sd at 1 2. cbn [cr_contents cr_jwt].
    rewrite Hje in Hck. destruct (vc_issuer (cr_contents v)); [|discriminate]. destruct (co_jwt_check o); [|discriminate].
    apply bind_ok in Hck as (u & Hu & _). cbn [je_jwt]. rewrite Hu. reflexivity. }
  rewrite Hc. cbn [bind]. assert (Hr : (if co_no_related o then Ok tt else ve_related E (vc_related (cr_contents (with_sd v je ds' hb)))) = Ok tt).
  { destruct (co_no_related o); [reflexivity|]. now apply Hrel. }
  now rewrite Hr.
Qed.

(** resolving values keeps the disclosures themselves *)
Definition keeps (a b : gomap disc) : Prop := map fst b = map fst a /\ forall k,
  match mget a k, mget b k with
  | Some c, Some c' => dc_str c' = dc_str c /\ dc_name c' = dc_name c
  | None, None => True
  | _, _ => False
  end.
Lemma keeps_refl a : keeps a a.
Proof. split; [reflexivity|]. intros k. destruct (mget a k); auto. Qed.
Lemma keeps_trans a b c : keeps a b -> keeps b c -> keeps a c.
Proof.
  intros [K1 H1] [K2 H2]. split; [congruence|]. intros k. specialize (H1 k). specialize (H2 k).
  destruct (mget a k), (mget b k), (mget c k); intuition congruence.
Qed.
Lemma set_value_keeps clean fuel d c st v st' : mget (rs_discs st) d = Some c -> set_value (disclose clean fuel) d c st = Ok (v, st') ->
  keeps (rs_discs st) (rs_discs st').
Proof.
  intros Hd. unfold set_value. destruct (dc_parsed c); [intros [= <- <-]; apply keeps_refl|]. intros H.
  apply bind_ok in H as ([v1 st1] & H1 & H). injection H as <- <-. cbn [fst snd rs_discs].
  apply disclose_sound in H1 as (ds & _ & _ & _ & K & A). pose proof (A d) as Ad. rewrite Hd in Ad. destruct (mget (rs_discs st1) d) as [c1|] eqn:E1; [|destruct Ad].
  split.
  - rewrite <- K. apply mset_keys_same. unfold mhas. now rewrite E1.
  - intros k. specialize (A k). rewrite mget_mset. destruct (String.eqb_spec k d) as [->|].
    + rewrite Hd. auto.
    + destruct (mget (rs_discs st) k), (mget (rs_discs st1) k); try tauto. destruct A as (A1 & _ & _ & A4 & _). auto.
Qed.
Lemma set_all_keeps fuel : forall order st st', set_all fuel order st = Ok st' -> keeps (rs_discs st) (rs_discs st').
Proof.
  induction order as [|d o IH]; cbn [set_all]; intros st st' H; [injection H as <-; apply keeps_refl|].
  destruct (mget (rs_discs st) d) as [c|] eqn:Ed; [|now apply IH].
  apply bind_ok in H as ([v st1] & H1 & H). eapply keeps_trans; [eapply set_value_keeps; eauto|]. now apply IH.
Qed.
Lemma disclosure_claims_strs E h ds order m : get_disclosure_claims E h ds order = Ok m ->
  forall k c, In (k, c) m -> In (dc_str c) ds /\ get_hash E h (dc_str c) = k.
Proof.
  unfold get_disclosure_claims. intros H. apply bind_ok in H as (m0 & H0 & H). apply bind_ok in H as (st & H1 & H). injection H as <-.
  pose proof (get_disclosure_map_str E h ds m0 H0) as M. apply set_all_keeps in H1 as [K A]. cbn [rs_discs] in *.
  assert (N : NoDup (map fst (rs_discs st))).
  { rewrite K. pose proof (get_disclosure_map_spec E h ds []) as S. rewrite H0 in S. destruct S as (_ & _ & S3 & _). apply S3. constructor. }
  intros k c Hi. apply mget_In_nodup in Hi; [|assumption]. specialize (A k). rewrite Hi in A.
  destruct (mget m0 k) as [c0|] eqn:E0; [|destruct A]. destruct A as [A _]. destruct (M _ _ E0) as (M1 & M2 & _). rewrite A. auto.
Qed.
Lemma sd_cred_discs_free E v je ds : sd_cred E v je ds -> forall d, In d (je_discs je) -> In (dc_str d) ds /\ free_of tilde (dc_str d).
Proof.
  intros S d Hd. pose proof (sc_discs _ _ _ _ S) as P. pose proof (sc_dfree _ _ _ _ S) as F. rewrite Forall_forall in F.
  assert (Hi : In (dc_str d) ds); [|auto]. destruct ds as [|x ds]; cbn [parse_disclosures] in P; [injection P as P; rewrite <- P in Hd; destruct Hd|].
  destruct (vc_sdalg (cr_contents v)) as [h|]; [|discriminate].
  destruct (get_disclosure_claims (ve_sd E) h (x :: ds) (ve_order E)) as [m| |] eqn:Em; cbn [rmap] in P; [|discriminate..].
  injection P as P. rewrite <- P in Hd. apply in_map_iff in Hd as ([k c] & <- & Hi). now apply (disclosure_claims_strs _ _ _ _ _ Em) in Hi.
Qed.
