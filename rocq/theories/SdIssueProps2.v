(** Property theorems: issuing SD-JWTs, continued - what the payload shows, credentials, edge cases. *)
From Verif Require Import GoBase Base64 StrLemmas JwtSpec JwtModel JwtProofs JwtProps SdSpec SdModel SdProofs SdRun SdOrder SdParse SdParseProofs SdSubset
  SdIssueSpec SdIssueModel SdIssueEnc SdIssueTop SdIssueV2 SdIssueMain SdIssueV5 SdIssueVc SdIssueProps.

(** ** C76  The signed payload shows hidden claims as digests only. *)
Definition digest_of (E : sdenv) (h : hashalg) (ds dec : list string) (x : json) : Prop :=
  exists d, x = JStr d /\ (In d (map (get_hash E h) ds) \/ In d dec).
Lemma Enc_shows E h :
  (forall t j dec, Enc E h t j dec ->
     (forall x, scalar_of x j -> clear_scalar x t \/ x = JNull \/ digest_of E h (all_discs t) dec x) /\
     (forall n, name_of n j -> clear_name n t \/ n = "_sd" \/ n = "...")) /\
  (forall mems c hd dec, EncMems E h mems c hd dec ->
     (forall k v x, In (k, v) c -> scalar_of x v -> clear_scalar x (TObj mems) \/ x = JNull \/ digest_of E h (all_discs (TObj mems)) dec x) /\
     (forall k v n, In (k, v) c -> n = k \/ name_of n v -> clear_name n (TObj mems) \/ n = "_sd" \/ n = "...") /\
     incl hd (map (get_hash E h) (all_discs (TObj mems)))).
Proof.
  apply Enc_mutind.
  - intros j _. split; intros; left; now constructor.
  - intros els l _ F. split.
    + intros x Hx. inversion Hx as [|l0 v Hv Hs|]; subst; [contradiction|].
      clear Hx. revert v Hv Hs. induction F as [|[lb e] w els l [Ho He] F IH]; intros v Hv Hs; [destruct Hv|]; destruct Hv as [<-|Hv]; [destruct lb as [s|]|]; simpl in He.
      * destruct He as [-> _]. right. right. inversion Hs as [|?|m k y Hy Hsy]; subst; [contradiction|]. destruct Hy as [[= <- <-]|[]].
        inversion Hsy; subst. exists (get_hash E h s). split; [reflexivity|]. left. simpl. now left.
      * subst w. left. eapply cs_arr; [now left|assumption].
      * destruct (IH v Hv Hs) as [Hc|[?|(d & -> & Hd)]]; [left; inversion Hc; subst; eapply cs_arr; [right|]; eassumption|now right; left|].
        right. right. exists d. split; [reflexivity|]. destruct Hd as [Hd|[]]. left. unfold all_discs in *. simpl. rewrite map_app. apply in_app_iff. now right.
    + intros n Hn. inversion Hn as [|l0 v Hv Hs|]; subst. clear Hn. revert v Hv Hs.
      induction F as [|[lb e] w els l [Ho He] F IH]; intros v Hv Hs; [destruct Hv|]; destruct Hv as [<-|Hv]; [destruct lb as [s|]|]; simpl in He.
      * destruct He as [-> _]. inversion Hs as [m y Hy| |m k y Hy Hsy]; subst; destruct Hy as [[= <- <-]|[]]; [auto|inversion Hsy].
      * subst w. left. eapply cn_arr; [now left|assumption].
      * destruct (IH v Hv Hs) as [Hc|?]; [|auto]. left. inversion Hc; subst. eapply cn_arr; [right|]; eassumption.
  - intros mems c hd dec decoys sdp sds HM (IH1 & IH2 & IH3) N Hres Hsd Hp. split.
    + intros x Hx. inversion Hx as [| |m k v Hv Hs]; subst; [contradiction|]. apply in_app_iff in Hv as [Hv|Hv].
      * destruct (IH1 _ _ _ Hv Hs) as [?|[?|(d & -> & Hd)]]; auto. right. right. exists d. split; [reflexivity|].
        destruct Hd; [auto|right; apply in_app_iff; now left].
      * destruct Hsd as [[-> ->]|[[-> ->]| ->]]; [destruct Hv| |].
        -- destruct Hv as [[= <- <-]|[]]. inversion Hs; subst. auto.
        -- destruct Hv as [[= <- <-]|[]]. inversion Hs as [|l y Hy Hys|]; subst; [contradiction|].
           apply in_map_iff in Hy as (d & <- & Hd). inversion Hys; subst. right. right. exists d. split; [reflexivity|].
           apply Permutation_sym in Hp. apply (Permutation_in _ Hp) in Hd. apply in_app_iff in Hd as [Hd|Hd]; [left; auto|right; apply in_app_iff; now right].
    + intros n Hn. assert (Hd : exists k v, In (k, v) (c ++ sdp)%list /\ (n = k \/ name_of n v)) by (inversion Hn; subst; eauto 6).
      destruct Hd as (k & v & Hv & Hk). apply in_app_iff in Hv as [Hv|Hv]; [eauto|].
      destruct Hsd as [[-> ->]|[[-> ->]| ->]]; [destruct Hv| |]; destruct Hv as [[= <- <-]|[]]; (destruct Hk as [->|Hk]; [auto|]); [inversion Hk|].
      inversion Hk as [|l y Hy Hys|]; subst. apply in_map_iff in Hy as (d & <- & Hd). inversion Hys.
  - split; [intros k v x []|]. split; [intros k v n []|intros d []].
  - intros n t v d1 r c hd d Ht (IHt1 & IHt2) Hr (IH1 & IH2 & IH3). rewrite all_discs_obj. cbn [flat_map fst snd opt_list app].
    rewrite all_discs_obj in IH1, IH3. split; [|split].
    + intros k w x [[= <- <-]|Hi] Hs.
      * destruct (IHt1 _ Hs) as [?|[?|(y & -> & Hy)]]; [left; eapply cs_obj; [now left|assumption]|auto|].
        right. right. exists y. split; [reflexivity|]. rewrite map_app, !in_app_iff. tauto.
      * destruct (IH1 _ _ _ Hi Hs) as [Hc|[?|(y & -> & Hy)]]; [left; inversion Hc; subst; eapply cs_obj; [right|]; eassumption|auto|].
        right. right. exists y. split; [reflexivity|]. rewrite map_app, !in_app_iff. tauto.
    + intros k w x [[= <- <-]|Hi] Hs.
      * destruct Hs as [->|Hs]; [left; eapply cn_here; now left|]. destruct (IHt2 _ Hs); [left; eapply cn_obj; [now left|assumption]|auto].
      * destruct (IH2 _ _ _ Hi Hs) as [Hc|?]; [|auto]. left. inversion Hc; subst; [eapply cn_here|eapply cn_obj]; try (right; eassumption). assumption.
    + intros y Hy. rewrite map_app, in_app_iff. right. auto.
  - intros n s t v v' r c hd d Ht _ Hd Hj Hr (IH1 & IH2 & IH3). rewrite all_discs_obj. cbn [flat_map fst snd opt_list app].
    rewrite all_discs_obj in IH1, IH3. split; [|split].
    + intros k w x Hi Hs. destruct (IH1 _ _ _ Hi Hs) as [Hc|[?|(y & -> & Hy)]]; [left; inversion Hc; subst; eapply cs_obj; [right|]; eassumption|auto|].
      right. right. exists y. split; [reflexivity|]. cbn [map]. rewrite map_app. cbn [In]. rewrite in_app_iff. tauto.
    + intros k w x Hi Hs. destruct (IH2 _ _ _ Hi Hs) as [Hc|?]; [|auto].
      left. inversion Hc; subst; [eapply cn_here|eapply cn_obj]; try (right; eassumption). assumption.
    + intros y [<-|Hy]; cbn [map]; [now left|]. right. rewrite map_app, in_app_iff. right. auto.
Qed.
Theorem C76_payload_shows_clear_only :
  forall E I v5 o ok iss claims payload discs,
    reads_back (sd_json E) (ie_enc I) ok -> (forall n s, ie_salt I n = Some s -> ok s) ->
    (forall n l, Permutation l (ie_shuffle I n l)) -> ok "_sd" -> ok "..." -> (forall x, ok (b64_encode x)) ->
    (v5 = true -> io_decoys o = false /\ ~ name_of "" (JObj claims)) ->
    ordinary (JObj claims) -> texts ok (JObj claims) ->
    (forall k, In k (map fst claims) -> ~ In k (map fst (create_payload iss o))) ->
    new_sdjwt E I v5 o iss claims = Ok (payload, discs) ->
    exists T decoys, erase T = JObj claims /\
      (v5 = false -> v2_marked (io_structured o) (io_nonsd o) "" T) /\
      (v5 = true -> v5_marked (io_structured o) (io_nonsd o) (io_always o) (io_rec o) false "" T) /\
      Permutation discs (all_discs T) /\
      forall k v, In (k, v) payload -> In (k, v) (create_payload iss o) \/
        (clear_name k T \/ k = "_sd") /\
        (forall x, scalar_of x v -> clear_scalar x T \/ x = JNull \/
           exists d, x = JStr d /\ (In d (map (get_hash E (io_hash o)) discs) \/ In d decoys)) /\
        (forall n, name_of n v -> clear_name n T \/ n = "_sd" \/ n = "...").
Proof.
  intros E I v5 o ok iss claims payload discs Hrb Hsalt Hshuf Hok1 Hok2 Hok3 Hv5 Hord Ht Hdis Hnew.
  apply new_sdjwt_inv in Hnew as (dm & st & Hc & ->).
  assert (G : exists mems dec, Enc E (io_hash o) (TObj mems) (JObj dm) dec /\ erase (TObj mems) = JObj claims /\
      (v5 = false -> v2_marked (io_structured o) (io_nonsd o) "" (TObj mems)) /\
      (v5 = true -> v5_marked (io_structured o) (io_nonsd o) (io_always o) (io_rec o) false "" (TObj mems)) /\
      Permutation discs (all_discs (TObj mems))).
  { destruct v5.
    - destruct (Hv5 eq_refl) as [Hdec Hne].
      destruct (v5_create_ok E I o ok Hrb Hsalt Hshuf Hok1 Hok2 Hok3 Hdec (JObj claims) "" false 0 _ Hord Ht Hne eq_refl Hc) as (mems & HEnc & He & Hm & Hp & _).
      exists mems, []. split; [assumption|]. split; [assumption|]. split; [discriminate|]. split; [auto|assumption].
    - destruct (v2_create_ok E I o ok Hrb Hsalt Hshuf (JObj claims) "" 0 _ Hord Ht eq_refl Hc) as (mems & dec & HEnc & He & Hm & Hp).
      exists mems, dec. split; [assumption|]. split; [assumption|]. split; [auto|]. split; [discriminate|assumption]. }
  destruct G as (mems & dec & HEnc & He & Hm1 & Hm2 & Hp).
  assert (Hdis2 : forall k, In k (names mems) -> ~ In k (map fst (create_payload iss o))).
  { intros k Hk. apply Hdis. cbn [erase] in He. injection He as <-. rewrite map_map. exact Hk. }
  exists (TObj mems), dec. split; [assumption|]. split; [assumption|]. split; [assumption|]. split; [assumption|].
  rewrite (main_merge E o iss mems dm dec HEnc Hdis2). intros k v Hi. apply in_app_iff in Hi as [Hi|Hi]; [now left|]. right.
  destruct (Enc_shows E (io_hash o)) as (HS & _). destruct (HS _ _ _ HEnc) as (HS1 & HS2). split; [|split].
  - inversion HEnc as [| |? c hd d2 decoys sdp sds HM N Hres Hsd Hpp]; subst. apply (in_map fst) in Hi. simpl in Hi.
    rewrite map_app, in_app_iff, (EncMems_cnames _ _ _ _ _ _ HM) in Hi. destruct Hi as [Hi|Hi].
    + left. unfold cnames in Hi. apply in_flat_map in Hi as ([[n l] t] & Hi & Hx). destruct l; [destruct Hx|]. destruct Hx as [<-|[]].
      eapply cn_here. exact Hi.
    + right. now apply (sd_member_keys _ _ _ Hsd) in Hi.
  - intros x Hx. destruct (HS1 x (so_obj _ _ _ _ Hi Hx)) as [?|[?|(d & -> & Hd)]]; auto. right. right. exists d. split; [reflexivity|].
    destruct Hd as [Hd|Hd]; [left|auto]. eapply Permutation_in; [apply Permutation_map, Permutation_sym; exact Hp|exact Hd].
  - intros n Hn. apply HS2. eapply no_obj; eassumption.
Qed.
(* premises: see C22_example and C23_example; there [ex2_payload] has "Ann" and "BSc" as digests only *)
Fixpoint scalars (j : json) : list json :=
  match j with
  | JArr l => flat_map scalars l
  | JObj m => flat_map (fun kv => scalars (snd kv)) m
  | x => [x]
  end.
Lemma scalars_all x j : scalar_of x j -> In x (scalars j).
Proof.
  intros Hs. induction Hs as [Hx|l v Hi _ IH|m k v Hi _ IH].
  - destruct x; simpl; try contradiction; auto.
  - cbn [scalars]. apply in_flat_map. eauto.
  - cbn [scalars]. apply in_flat_map. exists (k, v). auto.
Qed.
Example C76_example : ~ scalar_of (JStr "Ann") (JObj ex2_payload) /\ ~ scalar_of (JStr "BSc") (JObj ex2_payload) /\ scalar_of (JStr "en") (JObj ex2_payload).
Proof.
  split; [|split].
  - intros H. apply scalars_all in H. vm_compute in H. intuition discriminate.
  - intros H. apply scalars_all in H. vm_compute in H. intuition discriminate.
  - eapply so_obj; [do 6 right; left; reflexivity|]. now constructor.
Qed.
Print Assumptions C76_payload_shows_clear_only.

(** ** C77 (refuted)  SD-JWT v5 with decoy digests: the issued token with all its disclosures should be accepted.
    The decoys' salts are handed out as disclosures (they must stay secret, and they do not decode), so the token
    is refused. *)
Lemma v5_loop_prefix E I o rec path ign claims : forall fin all dm st fin' all' dm' st',
  v5_loop E I o rec path ign claims fin all dm st = Ok (fin', all', dm', st') -> incl fin fin'.
Proof.
  induction claims as [|[k v] rest IH]; intros fin all dm st fin' all' dm' st' H; cbn [v5_loop] in H.
  - injection H as <- <- <- <-. apply incl_refl.
  - assert (Happ : forall s, incl (fin ++ [s])%list fin' -> incl fin fin') by (intros s Hs x Hx; apply Hs, in_app_iff; now left).
    repeat match type of H with
    | context [match ?v with JNull => _ | _ => _ end] => destruct v
    | (if ?b then _ else _) = _ => destruct b
    | bind _ _ = _ => let Hx := fresh "Hx" in apply bind_ok in H as (? & Hx & H)
    | (let '(_, _) := ?x in _) = _ => destruct x as [[? ?] ?]; cbn [fst snd] in H
    end; try discriminate; try (apply IH in H; eauto).
Qed.
Lemma decoy_loop_salts I n : forall st l st', decoy_loop I n st = Ok (l, st') -> forall x, In x l -> exists i, ie_salt I i = Some x.
Proof.
  induction n as [|n IH]; intros st l st' H; cbn [decoy_loop] in H.
  - injection H as <- <-. intros x [].
  - apply bind_ok in H as ([s st1] & Hs & H). apply bind_ok in H as ([l1 st2] & Hl & H). injection H as <- <-. cbn [fst snd] in *.
    unfold new_salt in Hs. destruct (ie_salt I st) as [s0|] eqn:Es; [|discriminate]. injection Hs as <- <-.
    intros x [<-|Hx]; eauto.
Qed.
Lemma decoy_loop_some I n st l st' : decoy_loop I (S n) st = Ok (l, st') -> exists x, In x l.
Proof.
  cbn [decoy_loop]. intros H. apply bind_ok in H as ([s st1] & Hs & H). apply bind_ok in H as ([l1 st2] & Hl & H). injection H as <- <-.
  exists s. now left.
Qed.
Theorem C77_v5_decoys_refuted :
  forall E I o iss claims payload discs, wf_env E -> io_decoys o = true ->
    new_sdjwt E I true o iss claims = Ok (payload, discs) ->
    (forall n salt, ie_salt I n = Some salt -> dsp E salt = None) ->   (* a random salt is no disclosure *)
    (exists n salt, ie_salt I n = Some salt /\ In salt discs) /\
    forall P', wf_json (JObj P') -> verify_disclosures E discs P' <> Ok tt.
Proof.
  intros E I o iss claims payload discs HE Hd Hn Hs.
  apply new_sdjwt_inv in Hn as (dm & st & Hc & _). cbn [v5_create] in Hc. unfold create_decoys in Hc. rewrite Hd in Hc.
  apply bind_ok in Hc as ([dec st0] & Hdec & Hc). apply bind_ok in Hc as ([[[fin all] dm0] st1] & Hl & Hc). cbn [fst snd] in *.
  injection Hc as <- _ _. rewrite Nat.add_1_r in Hdec.
  destruct (decoy_loop_some _ _ _ _ _ Hdec) as (x & Hx). destruct (decoy_loop_salts _ _ _ _ _ Hdec x Hx) as (i & Hi).
  apply v5_loop_prefix in Hl. assert (Hin : In x (fin ++ all)%list) by (apply in_app_iff; left; auto).
  split; [eauto|]. intros P' Hw Hv. apply verify_disclosures_iff in Hv as (h & _ & Hall & _); auto.
  apply (Hall x Hin). eauto.
Qed.
Example C77_example :
  let o := {| io_sub := ""; io_aud := ""; io_jti := ""; io_id := ""; io_exp := None; io_nbf := None; io_iat := None;
     io_holder := None; io_hash := SHA256; io_decoys := true; io_structured := false; io_nonsd := []; io_always := []; io_rec := [] |} in
  let tbl := [("A", JArr [JStr "s2"; JStr "name"; JStr "Ann"])] in
  new_sdjwt (tbl_env tbl) (tbl_ienv tbl) true o "did:i" [("name", JStr "Ann")]
  = Ok ([("iss", JStr "did:i"); ("_sd_alg", JStr "sha-256"); ("_sd", JArr [JStr (b64_encode (b64_encode "A")); JStr (b64_encode "s1")])],
        ["s1"; b64_encode "A"]) /\
  dsp (tbl_env tbl) "s1" = None.
Proof. split; vm_compute; reflexivity. Qed.
Print Assumptions C77_v5_decoys_refuted.

(** ** C78 (refuted)  Issuing returns a token or an error; with v5 a null claim value makes it panic. *)
Theorem C78_v5_null_claim_refuted :
  (forall E I o iss k claims, io_decoys o = false -> key_exists "_sd" (JObj ((k, JNull) :: claims)) = false ->
     new_sdjwt E I true o iss ((k, JNull) :: claims) = Panic) /\
  (* and in whatever order the claims are visited, it is not issued *)
  (forall E I o iss k claims r, In (k, JNull) claims -> new_sdjwt E I true o iss claims <> Ok r).
Proof.
  split.
  - intros E I o iss k claims Hd Hk. unfold new_sdjwt. rewrite Hk. cbn [negb guard bind v5_create].
    unfold create_decoys. rewrite Hd. reflexivity.
  - intros E I o iss k claims [payload discs] Hi Hn. apply new_sdjwt_inv in Hn as (dm & st & Hc & _). cbn [v5_create] in Hc.
    apply bind_ok in Hc as ([dec st0] & _ & Hc). apply bind_ok in Hc as ([[[fin all] dm0] st1] & Hl & _). cbn [fst snd] in *.
    revert Hl. generalize dec at 1. generalize (@nil string) at 1. generalize (@nil (string * json)) at 1. revert st0.
    induction claims as [|[k' v] rest IH]; intros n a b c Hl; [destruct Hi|]. destruct Hi as [[= -> ->]|Hi]; [discriminate|].
    cbn [v5_loop] in Hl.
    repeat match type of Hl with
    | context [match ?v with JNull => _ | _ => _ end] => destruct v
    | (if ?b then _ else _) = _ => destruct b
    | bind _ _ = _ => let Hx := fresh "Hx" in apply bind_ok in Hl as (? & Hx & Hl)
    | (let '(_, _) := ?x in _) = _ => destruct x as [[? ?] ?]; cbn [fst snd] in Hl
    end; try discriminate; eauto.
Qed.
Example C78_example : new_sdjwt (tbl_env []) (tbl_ienv []) true ex5_opts "did:i" [("middle_name", JNull)] = Panic.
Proof. reflexivity. Qed.
Print Assumptions C78_v5_null_claim_refuted.
