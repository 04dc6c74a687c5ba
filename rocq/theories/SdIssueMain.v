(** From an encoded claims object to the signed payload and its verification. *)
From Verif Require Import GoBase Base64 JwtSpec JwtModel JwtProofs SdSpec SdModel SdProofs SdRun SdOrder SdParse SdParseProofs SdSubset
  SdIssueSpec SdIssueModel SdIssueEnc SdIssueTop SdIssueV2.

(** ** The registered claims *)
Lemma nodup_opt {V} (a r : gomap V) k : (map fst a = [] \/ map fst a = [k]) -> NoDup (map fst r) -> ~ In k (map fst r) ->
  NoDup (map fst (a ++ r)%list).
Proof. intros [E|E] N Hk; rewrite map_app, E; simpl; [assumption|now constructor]. Qed.
Lemma f_str_keys k s : map fst (f_str k s) = [] \/ map fst (f_str k s) = [k].
Proof. unfold f_str. destruct (String.eqb s ""); auto. Qed.
Lemma f_date_keys k s : map fst (f_date k s) = [] \/ map fst (f_date k s) = [k].
Proof. unfold f_date. destruct s; auto. Qed.
Lemma opt_keys_in {V} (a : gomap V) k x : (map fst a = [] \/ map fst a = [k]) -> In x (map fst a) -> x = k.
Proof. intros [E|E]; rewrite E; simpl; [tauto|]. intros [<-|[]]. reflexivity. Qed.
Lemma notin_opt {V} (a r : gomap V) k x : (map fst a = [] \/ map fst a = [k]) -> x <> k -> ~ In x (map fst r) ->
  ~ In x (map fst (a ++ r)%list).
Proof. intros Ha Hx Hr. rewrite map_app, in_app_iff. intros [H|H]; [|contradiction]. apply (opt_keys_in a k) in H; auto. Qed.
Definition f_cnf (h : option json) : gomap json := match h with Some k => [("cnf", JObj [("jwk", k)])] | None => [] end.
Lemma f_cnf_keys h : map fst (f_cnf h) = [] \/ map fst (f_cnf h) = ["cnf"].
Proof. destruct h; auto. Qed.
Lemma create_payload_eq iss o : create_payload iss o =
  (f_str "iss" iss ++ f_str "sub" (io_sub o) ++ f_str "aud" (io_aud o) ++ f_str "jti" (io_jti o) ++
   f_date "exp" (io_exp o) ++ f_date "nbf" (io_nbf o) ++ f_date "iat" (io_iat o) ++ f_str "id" (io_id o) ++
   f_cnf (io_holder o) ++ [("_sd_alg", JStr (hash_name (io_hash o)))])%list.
Proof. reflexivity. Qed.
Ltac field_keys := first [apply f_str_keys|apply f_date_keys|apply f_cnf_keys].
Ltac not_field := repeat (eapply notin_opt; [field_keys|discriminate|]); simpl; intuition discriminate.
Lemma create_payload_nodup iss o : NoDup (map fst (create_payload iss o)).
Proof.
  rewrite create_payload_eq.
  repeat (eapply nodup_opt; [field_keys| |not_field]). repeat constructor. simpl. tauto.
Qed.
Lemma create_payload_no_sd iss o : ~ In "_sd" (map fst (create_payload iss o)).
Proof. rewrite create_payload_eq. not_field. Qed.
Lemma create_payload_alg iss o : mget (create_payload iss o) "_sd_alg" = Some (JStr (hash_name (io_hash o))).
Proof.
  rewrite create_payload_eq.
  assert (Hn : forall (a r : gomap json) k, (map fst a = [] \/ map fst a = [k]) -> "_sd_alg" <> k -> mget (a ++ r)%list "_sd_alg" = mget r "_sd_alg").
  { intros a r k Ha Hk. rewrite mget_app. destruct (mget a "_sd_alg") eqn:Ea; [|reflexivity]. apply mget_In in Ea.
    apply (in_map fst) in Ea. apply (opt_keys_in a k) in Ea; [contradiction|assumption]. }
  repeat (erewrite Hn; [|field_keys|discriminate]). reflexivity.
Qed.
Lemma create_payload_hash iss o : get_crypto_hash (create_payload iss o) = Ok (io_hash o).
Proof. unfold get_crypto_hash, get_key_from_vc. rewrite create_payload_alg. destruct (io_hash o); reflexivity. Qed.
Lemma create_payload_ordinary iss o k v : (forall jwk, io_holder o = Some jwk -> ordinary jwk) ->
  In (k, v) (create_payload iss o) -> ordinary v.
Proof.
  intros Hh. rewrite create_payload_eq.
  assert (Hs : forall n s, In (k, v) (f_str n s) -> ordinary v).
  { intros n s. unfold f_str. destruct (String.eqb s ""); simpl; [tauto|]. intros [[= _ <-]|[]]. now constructor. }
  assert (Hd : forall n s, In (k, v) (f_date n s) -> ordinary v).
  { intros n s. unfold f_date. destruct s; simpl; [|tauto]. intros [[= _ <-]|[]]. now constructor. }
  rewrite !in_app_iff. intros H. repeat (destruct H as [H|H]; [now eauto|]).
  destruct H as [H|H].
  - unfold f_cnf in H. destruct (io_holder o) as [jwk|] eqn:Eh; [|destruct H]. destruct H as [[= _ <-]|[]].
    apply ord_obj; [repeat constructor; simpl; tauto|]. intros k' v' [[= <- <-]|[]]. split; [|auto].
    unfold reserved. intuition discriminate.
  - destruct H as [[= _ <-]|[]]. now constructor.
Qed.

(** ** Merging *)
Lemma merge_custom_disjoint cf : forall kf, NoDup (map fst cf) -> (forall k, In k (map fst cf) -> ~ In k (map fst kf)) ->
  merge_custom kf cf = (kf ++ cf)%list.
Proof.
  induction cf as [|[k v] cf IH]; intros kf N Hd; simpl; [now rewrite app_nil_r|].
  inversion N as [|? ? Hk N']; subst.
  assert (Hf : mhas kf k = false) by (apply mhas_false, Hd; now left). rewrite Hf, (mset_new _ _ _ Hf).
  rewrite IH; [now rewrite <- app_assoc|assumption|]. intros x Hx. rewrite map_app, in_app_iff. simpl.
  intros [H|[<-|[]]]; [|contradiction]. apply (Hd x); [now right|assumption].
Qed.

Section Main.
Variables (E : sdenv) (o : iopts) (iss : string).
Notation H := (get_hash E (io_hash o)).
Notation F := (create_payload iss o).
Hypotheses (HE : wf_env E) (Hholder : forall jwk, io_holder o = Some jwk -> ordinary jwk).
Variables (mems : list (string * option string * tree)) (digests : gomap json) (decs : list string).
Hypotheses (HEnc : Enc E (io_hash o) (TObj mems) (JObj digests) decs)
  (Hdis : forall k, In k (names mems) -> ~ In k (map fst F)).

Lemma main_merge : merge_custom F digests = (F ++ digests)%list.
Proof.
  pose proof (proj1 (Enc_wf E (io_hash o)) _ _ _ HEnc) as Hw. apply wf_obj in Hw as [N _].
  apply merge_custom_disjoint; [assumption|]. inversion HEnc as [| |? c hd dec decoys sdp sds HM Nn Hres Hsd Hp]; subst.
  intros k Hk. rewrite map_app, in_app_iff, (EncMems_cnames _ _ _ _ _ _ HM) in Hk. destruct Hk as [Hk|Hk].
  - apply Hdis. now apply cnames_in.
  - apply (sd_member_keys _ _ _ Hsd) in Hk. subst k. apply create_payload_no_sd.
Qed.
(** all digests in the payload itself *)
Lemma main_digests : Permutation (digests_in false (JObj (F ++ digests)%list))
   (map H (reachable (fun _ => false) (TObj mems)) ++ decs)%list.
Proof.
  inversion HEnc as [| |? c hd dec decoys sdp sds HM Nn Hres Hsd Hp]; subst.
  set (D := fun _ : string => @None dcontent).
  assert (HwD : wfD D) by (intros d x Hx; discriminate Hx).
  destruct (Enc_good E (io_hash o) (fun _ => false) D false HwD) as (_ & HG). specialize (HG _ _ _ _ HM).
  destruct (obj_good E (io_hash o) (fun _ => false) D false mems c hd dec decoys sdp sds F _ HM HG Nn Hres Hsd Hp
    (create_payload_no_sd iss o) (fun k Hk Hk2 => Hdis k Hk2 Hk)
    (Members_front false D F (fun k v => create_payload_ordinary iss o k v Hholder))) as (out & ds & R & _ & Hds).
  - intros s _. reflexivity.
  - intros s _. reflexivity.
  - destruct (Res_perm false D) as (HR & _). pose proof (HR _ _ _ R) as Hp1.
    assert (Hz : flat_map (occD false D) ds = []) by (clear; induction ds as [|d ds IH]; [reflexivity|exact IH]).
    rewrite Hz, app_nil_r in Hp1. etransitivity; [apply Permutation_sym; exact Hp1|]. now rewrite Hds.
Qed.
Theorem main_issued sel P' : NoDup (map H (all_discs (TObj mems)) ++ decs)%list ->
  NoDup sel -> incl sel (all_discs (TObj mems)) -> wf_json (JObj P') -> jeq (JObj (F ++ digests)%list) (JObj P') ->
  (verify_disclosures E sel P' = Ok tt <-> incl sel (reachable (fun s => str_in s sel) (TObj mems))) /\
  (verify_disclosures E sel P' = Ok tt ->
   get_crypto_hash P' = Ok (io_hash o) /\
   forall order, visits_all order -> exists out, vp_disclosed E (io_hash o) sel order P' = Ok out /\
     jeq (JObj out) (JObj (without_alg F ++ members_of (reveal (fun s => str_in s sel) (TObj mems)))%list)).
Proof.
  intros ND Ns Hi Hw Hj.
  inversion HEnc as [| |? c hd dec decoys sdp sds HM Nn Hres Hsd Hp]; subst.
  eapply (top_main E (io_hash o) HE mems c hd dec decoys sdp sds F); eauto.
  - apply create_payload_nodup.
  - apply create_payload_no_sd.
  - intros k Hk Hk2. now apply (Hdis k).
  - intros k v. now apply create_payload_ordinary.
  - apply create_payload_hash.
Qed.
End Main.
