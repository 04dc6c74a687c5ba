(** Lemmas about the verifier and holder models. *)
From Verif Require Import GoBase Base64 StrLemmas JwtSpec JwtModel JwtProofs SdSpec SdModel SdProofs SdRun SdOrder SdParse.

(** the order Go iterates the disclosure map in: every key is visited *)
Definition visits_all (order : gomap disc -> list string) : Prop := forall m, incl (map fst m) (order m).

Lemma get_disclosure_claim_name E h s d c : get_disclosure_claim E h s = Ok (d, c) ->
  match content c with CMember n _ => dc_name c = n | _ => dc_name c = "" end.
Proof.
  unfold get_disclosure_claim. destruct (b64_decode s) as [b|]; [|discriminate]. intros H.
  apply bind_ok in H as (arr & _ & H).
  destruct arr as [|[| | |salt| |] [|y [|z [|w l]]]]; try discriminate; try (injection H as <- <-; reflexivity);
    destruct y; try discriminate; injection H as <- <-; reflexivity.
Qed.
Definition mapped (E : sdenv) (h : hashalg) (ds : list string) (m : gomap disc) : Prop :=
  forall k c, mget m k = Some c -> In (dc_str c) ds /\ get_hash E h (dc_str c) = k /\ dsp E (dc_str c) = Some (content c) /\ match content c with CMember n _ => dc_name c = n | _ => dc_name c = "" end.
Lemma get_disclosure_map_mapped E h all : forall ds acc m, incl ds all -> mapped E h all acc ->
  get_disclosure_map E h ds acc = Ok m -> mapped E h all m.
Proof.
  induction ds as [|s ds IH]; simpl; intros acc m Hi Ha H; [injection H as <-; assumption|].
  apply bind_ok in H as ([d c] & Hc & H). pose proof (get_disclosure_claim_spec E h s) as S. rewrite Hc in S.
  pose proof (get_disclosure_claim_name _ _ _ _ _ Hc) as Hn.
  destruct S as (-> & S2 & _ & S4). eapply IH; [intros x Hx; apply Hi; now right| |exact H]. simpl.
  intros k c' Hk. rewrite mget_mset in Hk. destruct (String.eqb_spec k (get_hash E h s)) as [->|]; [|auto].
  injection Hk as <-. rewrite S4. split; [apply Hi; now left|auto].
Qed.
Lemma get_disclosure_map_str E h ds m : get_disclosure_map E h ds [] = Ok m -> mapped E h ds m.
Proof. intros H. eapply get_disclosure_map_mapped; [apply incl_refl| |exact H]. intros k c Hk. discriminate. Qed.

Lemma disclosed_after_verify E h ds payload order : wf_env E -> wf_json (JObj payload) -> visits_all order ->
  verify_disclosures E ds payload = Ok tt -> get_crypto_hash payload = Ok h ->
  exists m, get_disclosure_claims E h ds order = Ok m /\ NoDup (map fst m) /\
    (forall k, In k (map fst m) <-> exists s, In s ds /\ k = get_hash E h s) /\
    (forall k c, In (k, c) m -> In (dc_str c) ds /\ get_hash E h (dc_str c) = k /\ exists c0 ds',
         Dof E h ds k = Some c0 /\
         Res true (Dof E h ds) (disclosed_value c0) (dc_value c) ds' /\
         (match c0 with CMember n _ => dc_name c = n | _ => dc_name c = "" end)) /\
    exists out ds', get_disclosed_claims m payload = Ok out /\ Res true (Dof E h ds) (JObj payload) (JObj out) ds'.
Proof.
  intros HE Hp Hord Hv Hh. pose proof Hv as Hv'.
  apply verify_disclosures_iff in Hv as (h' & Hh' & Hall & out0 & dl & R & N & Hin); [|assumption|assumption].
  assert (h' = h) by congruence. subst h'.
  destruct (disclosure_map_total E h ds Hall) as (m & Hm).
  pose proof (get_disclosure_map_spec E h ds []) as S. rewrite Hm in S.
  destruct S as (S1 & S2 & S3 & S4 & S5 & _ & S7).
  assert (Hr : raws m) by (apply S4; intros k c Hk; discriminate).
  assert (Hnd : NoDup (map fst m)) by (apply S3; constructor).
  assert (Hcof : forall d, cof m d = Dof E h ds d).
  { intros d. rewrite S2. unfold cof. simpl. now destruct (Dof E h ds d). }
  assert (Hwf : wf_raws m).
  { intros k c Hk. specialize (Hcof k). unfold cof in Hcof. rewrite Hk in Hcof. simpl in Hcof. symmetry in Hcof.
    apply Dof_In in Hcof as (s & _ & _ & Hs). apply dsp_wf in Hs; [|assumption].
    rewrite content_value in Hs; eauto. }
  assert (R' : Res false (cof m) (JObj payload) out0 dl) by (eapply Res_D_ext; [|exact R]; auto).
  assert (Hkeys : forall k, In k (map fst m) -> In k dl).
  { intros k Hk. apply S7 in Hk as [[]|(s & Hs & ->)]. auto. }
  destruct (claims_after_verify m (JObj payload) out0 dl Hr Hwf R' N Hkeys (order m) (Hord m)) as (st' & Hset & Hk & Hval & Hdis).
  exists (rs_discs st'). unfold get_disclosure_claims. rewrite Hm. simpl.
  unfold fuel0, st0 in Hset. rewrite Hset. simpl. split; [reflexivity|]. rewrite Hk. split; [assumption|].
  split; [|split].
  - intros k. split.
    + intros Hi. apply S7 in Hi as [[]|?]. assumption.
    + intros (s & Hs & ->). auto.
  - intros k c' Hc'. assert (Nk : NoDup (map fst (rs_discs st'))) by now rewrite Hk.
    pose proof (mget_In_nodup _ _ _ Nk Hc') as Gc'.
    destruct (mget m k) as [c|] eqn:Gk.
    2:{ exfalso. apply mget_None in Gk. apply Gk. rewrite <- Hk. exact (in_map fst _ _ Hc'). }
    destruct (Hval _ _ Gk) as (c2 & Hc2 & Hres). rewrite Gc' in Hc2. injection Hc2 as <-.
    destruct Hres as (E1 & E2 & E3 & E4 & ds' & Rv).
    destruct (get_disclosure_map_str E h ds m Hm k c Gk) as (Ks & Kh & Kc & Kn).
    rewrite E1. split; [assumption|]. split; [assumption|]. exists (content c), ds'.
    split; [|split].
    + rewrite <- Hcof. unfold cof. now rewrite Gk.
    + rewrite content_value by eauto. eapply Res_D_ext; [|exact Rv]. assumption.
    + rewrite E3. exact Kn.
  - destruct (Res_to_clean (cof m)) as (Hc & _). destruct (Hc _ _ _ R') as (o & ds' & Rt & Sc).
    assert (Ho : exists out, o = JObj out) by (inversion Rt; subst; [tauto|eauto]). destruct Ho as (out & ->).
    destruct (Hdis _ _ Hp Rt (subcount_nodup _ _ Sc N)) as (st2 & Hd2).
    exists out, ds'. unfold get_disclosed_claims. rewrite Hh. simpl.
    change {| rs_nested := []; rs_discs := rs_discs st' |} with (st0 (rs_discs st')). rewrite Hd2. simpl. split; [reflexivity|].
    eapply Res_D_ext; [|exact Rt]. assumption.
Qed.

(** ** Fuel *)
Lemma need_le st : (need st <= List.length (rs_discs st))%nat.
Proof.
  unfold need. etransitivity; [apply (filter_len_le _ (fun _ => true)); auto|].
  rewrite <- (map_length fst (rs_discs st)). clear. induction (map fst (rs_discs st)); simpl; lia.
Qed.
Lemma le_run_eq {A} (a b : res A) : a <> Err fuel_error -> le_run a b -> b = a.
Proof. intros H [?|?]; congruence. Qed.
Lemma disclose_enough clean fuel j st : (List.length (rs_discs st) < fuel)%nat ->
  disclose clean fuel j st = disclose_top clean j st /\ disclose_top clean j st <> Err fuel_error.
Proof.
  intros H. assert (Hn : disclose_top clean j st <> Err fuel_error).
  { unfold disclose_top. apply disclose_nofuel. apply need_le. }
  split; [|assumption]. apply le_run_eq; [assumption|]. unfold disclose_top. apply disclose_mono. lia.
Qed.
Lemma set_value_keys clean fuel d c st v st' : set_value (disclose clean fuel) d c st = Ok (v, st') ->
  mget (rs_discs st) d = Some c ->
  List.length (rs_discs st') = List.length (rs_discs st).
Proof.
  unfold set_value. destruct (dc_parsed c); [intros [= <- <-] _; reflexivity|]. intros H Hd.
  apply bind_ok in H as ([v1 st1] & H1 & H). injection H as <- <-. simpl.
  apply disclose_sound in H1 as (ds & _ & _ & A & K & B).
  assert (Hi : In d (map fst (rs_discs st1))).
  { rewrite K. apply mget_In in Hd. exact (in_map fst _ _ Hd). }
  rewrite <- (map_length fst), <- (map_length fst (rs_discs st)), <- K, !map_length.
  clear - Hi. induction (rs_discs st1) as [|[k x] m IH]; simpl in *; [tauto|].
  destruct (String.eqb_spec d k) as [->|Hne]; simpl; [reflexivity|]. f_equal. apply IH. destruct Hi; [congruence|assumption].
Qed.
Lemma set_value_enough fuel d c st : (List.length (rs_discs st) < fuel)%nat ->
  set_value (disclose true fuel) d c st = set_value (disclose true (S (List.length (rs_discs st)))) d c st /\
  set_value (disclose true fuel) d c st <> Err fuel_error.
Proof.
  intros H. unfold set_value. destruct (dc_parsed c); [split; [reflexivity|discriminate]|].
  destruct (disclose_enough true fuel (dc_value c) st H) as [-> Hn]. fold (disclose_top true (dc_value c) st).
  split; [reflexivity|]. destruct (disclose_top true (dc_value c) st) as [x|e|]; simpl; congruence.
Qed.
Lemma set_all_enough fuel : forall order st, (List.length (rs_discs st) < fuel)%nat ->
  set_all fuel order st = set_all (S (List.length (rs_discs st))) order st /\ set_all fuel order st <> Err fuel_error.
Proof.
  induction order as [|d o IH]; intros st H; cbn [set_all]; [split; [reflexivity|discriminate]|].
  destruct (mget (rs_discs st) d) as [c|] eqn:Ed; [|now apply IH].
  destruct (set_value_enough fuel d c st H) as [E N]. rewrite <- E.
  destruct (set_value (disclose true fuel) d c st) as [[v st']|e|] eqn:Es; simpl; [|split; [reflexivity|congruence]|split; [reflexivity|discriminate]].
  apply set_value_keys in Es; [|assumption]. rewrite <- Es in H |- *. now apply IH.
Qed.

(** ** Order *)
Lemma jeq_sym j : forall j', jeq j j' -> jeq j' j.
Proof.
  induction j using json_ind'; intros j' J; inversion J; subst; try (now constructor).
  - apply jeq_arr. revert H l' H1 J. induction 1 as [|x l Hx _ IH]; intros l' F J; inversion F; subst; constructor; auto.
    apply IH; [assumption|]. now apply jeq_arr.
  - apply jeq_obj_inv in J as (q & F & P). apply jeq_obj with (p := q); [now apply Permutation_sym|].
    clear - H F. revert q F. induction H as [|x m Hx _ IH]; intros q F; inversion F; subst; constructor; auto.
    destruct H1 as [? ?]. split; auto.
Qed.

Definition same_decoding (E E' : sdenv) : Prop :=
  sd_sum E = sd_sum E' /\
  forall b, match sd_json E b, sd_json E' b with Some j, Some j' => jeq j j' | None, None => True | _, _ => False end.
Lemma same_decoding_sym E E' : same_decoding E E' -> same_decoding E' E.
Proof.
  intros [H1 H2]. split; [auto|]. intros b. specialize (H2 b). destruct (sd_json E b), (sd_json E' b); try tauto. now apply jeq_sym.
Qed.
Lemma dsp_same E E' s : same_decoding E E' ->
  match dsp E s, dsp E' s with Some c, Some c' => ceq c c' | None, None => True | _, _ => False end.
Proof.
  intros [_ H]. unfold dsp, disclosure_content, decode_disclosure. destruct (b64_decode s) as [b|]; [|exact I].
  specialize (H b). destruct (sd_json E b) as [j|], (sd_json E' b) as [j'|]; try tauto.
  inversion H; subst; [destruct j'; try tauto; exact I| |exact I].
  destruct H0 as [|x x' l l' Hx Hl]; [exact I|].
  destruct x; inversion Hx; subst; try exact I; try (destruct x'; tauto).
  destruct Hl as [|y y' l l' Hy Hl]; [exact I|].
  destruct Hl as [|z z' l l' Hz Hl]; [destruct y, y'; exact Hy|].
  destruct Hl as [|w w' l l' Hw Hl].
  - destruct y; inversion Hy; subst; try exact I; try (destruct y'; tauto). simpl. auto.
  - destruct y, y'; exact I.
Qed.
Lemma Dof_same E E' h ds : same_decoding E E' -> Deq (Dof E h ds) (Dof E' h ds).
Proof.
  intros H d. unfold Dof. induction ds as [|s ds IH]; simpl; [exact I|].
  assert (Hg : get_hash E' h s = get_hash E h s) by (unfold get_hash; now rewrite (proj1 H)). rewrite Hg.
  destruct (supplied (dsp E) (get_hash E h) ds d), (supplied (dsp E') (get_hash E' h) ds d); try tauto.
  destruct (String.eqb (get_hash E h s) d); [now apply dsp_same|exact I].
Qed.
Lemma wfD_Dof E h ds : wf_env E -> wfD (Dof E h ds).
Proof. intros HE d c H. apply Dof_In in H as (s & _ & _ & Hs). eapply dsp_wf; eauto. Qed.

Lemma get_key_jeq k m m' : wf_json (JObj m) -> jeq (JObj m) (JObj m') ->
  match get_key_from_vc k m, get_key_from_vc k m' with Some v, Some v' => jeq v v' | None, None => True | _, _ => False end.
Proof.
  intros Hw J. apply wf_obj in Hw as [N Hw]. unfold get_key_from_vc.
  pose proof (jeq_get _ _ k N J) as Hk. pose proof (jeq_get _ _ "vc" N J) as Hv.
  destruct (mget m k), (mget m' k); try tauto.
  destruct (mget m "vc") as [v|] eqn:Ev, (mget m' "vc") as [v'|]; try tauto.
  inversion Hv; subst; [destruct v'; tauto|exact I|].
  apply jeq_get; [|assumption]. apply mget_In in Ev. apply Forall_forall with (x := ("vc", JObj m0)) in Hw; [|assumption].
  simpl in Hw. now apply wf_obj in Hw as [? _].
Qed.
Lemma crypto_hash_jeq m m' : wf_json (JObj m) -> jeq (JObj m) (JObj m') -> get_crypto_hash m' = get_crypto_hash m.
Proof.
  intros Hw J. pose proof (get_key_jeq "_sd_alg" _ _ Hw J) as H. unfold get_crypto_hash.
  destruct (get_key_from_vc "_sd_alg" m), (get_key_from_vc "_sd_alg" m'); try tauto. inversion H; subst; reflexivity.
Qed.

Lemma verify_disclosures_order E E' ds P P' : wf_env E -> wf_env E' -> wf_json (JObj P) -> wf_json (JObj P') ->
  same_decoding E E' -> jeq (JObj P) (JObj P') ->
  verify_disclosures E ds P = Ok tt -> verify_disclosures E' ds P' = Ok tt.
Proof.
  intros HE HE' HP HP' HS J H. apply verify_disclosures_iff in H as (h & Hh & Hall & out & dl & R & N & Hin); auto.
  apply verify_disclosures_iff; auto. exists h. split; [rewrite <- Hh; now apply crypto_hash_jeq|].
  split. { intros s Hs Hn. pose proof (dsp_same E E' s HS) as Hd. rewrite Hn in Hd. apply (Hall s Hs). destruct (dsp E s); tauto. }
  destruct (Res_jeq false _ _ (Dof_same E E' h ds HS) (wfD_Dof E h ds HE)) as (HR & _).
  destruct (HR _ _ _ R _ HP J) as (out' & dl' & R' & _ & Pm). exists out', dl'. split; [assumption|].
  split; [eapply Permutation_NoDup; eauto|]. intros s Hs.
  assert (Hg : get_hash E' h s = get_hash E h s) by (unfold get_hash; now rewrite (proj1 HS)). rewrite Hg.
  eapply Permutation_in; eauto.
Qed.

(** ** Signature check of the holder JWT *)
Lemma cnf_verifier C k : k <> BLS12381G2Type -> get_verifier (cnf_verifiers C) k = get_verifier (default_verifiers C) k.
Proof. intros H. unfold get_verifier. destruct k; try reflexivity. congruence. Qed.
Lemma jdesc_no_bls d s : In d default_jdescs -> In s (jd_vms d) -> sm_kms s <> BLS12381G2Type.
Proof.
  intros Hd Hs. repeat (destruct Hd as [<-|Hd]; [simpl in Hs; repeat (destruct Hs as [<-|Hs]; [discriminate|]); destruct Hs|]).
  destruct Hd.
Qed.
Lemma cnf_checker_default C k h iss msg sig :
  check_jwt_embedded (jwk_vm k) default_jdescs (cnf_verifiers C) h iss msg sig =
  check_jwt_embedded (jwk_vm k) default_jdescs (default_verifiers C) h iss msg sig.
Proof.
  unfold check_jwt_embedded. destruct (h_alg h) as [alg|]; [|reflexivity].
  destruct (supported_by_alg default_jdescs alg) as [d| |] eqn:Ed; try reflexivity. simpl.
  apply supported_by_alg_ok in Ed as [Hd _]. unfold verify_with.
  destruct (convert_to_public_key (jd_vms d) (jwk_vm k)) as [pk| |] eqn:Ec; try reflexivity. simpl.
  apply convert_ok in Ec as (s & Hs & -> & _). rewrite create_type, cnf_verifier; [reflexivity|].
  eapply jdesc_no_bls; eauto.
Qed.
Lemma dups_nil seen l : dups seen l = [] <-> NoDup l /\ forall x, In x l -> ~ In x seen.
Proof.
  revert seen. induction l as [|x l IH]; intros seen; simpl; [split; [split; [constructor|tauto]|reflexivity]|].
  destruct (str_in x seen) eqn:E.
  - split; [discriminate|]. intros [_ H]. apply str_in_In in E. exfalso. apply (H x); auto.
  - rewrite IH. apply str_in_nIn in E. split.
    + intros [H1 H2]. split; [constructor; [intros Hx; apply (H2 x Hx); now left|assumption]|].
      intros y [<-|Hy]; [assumption|]. intros Hys. apply (H2 y Hy). now right.
    + intros [H1 H2]. inversion H1; subst. split; [assumption|]. intros y Hy [<-|Hys]; [contradiction|]. apply (H2 y); auto.
Qed.
Lemma check_dups_iff l : check_for_duplicates l = Ok tt <-> NoDup l.
Proof.
  unfold check_for_duplicates. rewrite guard_ok, Nat.eqb_eq, length_zero_iff_nil, dups_nil. intuition.
Qed.

(** ** Combined formats *)
Lemma add_parts_concat s l : add_parts s l = String.concat "~" (s :: l).
Proof.
  unfold add_parts. revert s. induction l as [|d l IH]; intros s; [reflexivity|]. cbn [fold_left]. rewrite IH.
  destruct l as [|e l]; cbn; [reflexivity|]. now rewrite !append_assoc_s.
Qed.
Lemma add_parts_snoc s l x : add_parts s (l ++ [x])%list = add_parts s l ++ "~" ++ x.
Proof. unfold add_parts. now rewrite fold_left_app. Qed.
Lemma serialize_presentation_parts c :
  serialize_presentation c =
  match cp_discs c, cp_holder c with
  | [], "" => cp_jwt c
  | l, h => add_parts (cp_jwt c) (l ++ [h])%list
  end.
Proof.
  unfold serialize_presentation. destruct c as [j l h]. cbn [cp_jwt cp_discs cp_holder].
  destruct l as [|d l]; [destruct h as [|c h]|]; cbn [List.length Nat.eqb negb orb String.eqb].
  - unfold add_parts. cbn. apply append_nil_r.
  - rewrite add_parts_snoc. now rewrite append_assoc_s.
  - rewrite add_parts_snoc, append_assoc_s. reflexivity.
Qed.
Lemma parse_issuance_serialize c : free_of tilde (ci_jwt c) -> Forall (free_of tilde) (ci_discs c) ->
  parse_issuance (serialize_issuance c) = c.
Proof.
  intros H1 H2. unfold parse_issuance, serialize_issuance. rewrite add_parts_concat.
  rewrite split_on_concat; [|discriminate|now constructor]. destruct c as [j [|d l]]; reflexivity.
Qed.
Lemma parse_presentation_serialize c : free_of tilde (cp_jwt c) -> Forall (free_of tilde) (cp_discs c) ->
  free_of tilde (cp_holder c) -> parse_presentation (serialize_presentation c) = c.
Proof.
  intros H1 H2 H3. rewrite serialize_presentation_parts. unfold parse_presentation.
  destruct c as [j l h]. cbn [cp_jwt cp_discs cp_holder] in *.
  assert (G : forall l, Forall (free_of tilde) l -> split_on tilde (add_parts j (l ++ [h])%list) = j :: (l ++ [h])%list).
  { intros l' Hl. rewrite add_parts_concat, split_on_concat; [reflexivity|discriminate|].
    constructor; [assumption|]. apply Forall_app. auto. }
  destruct l as [|d l]; [destruct h as [|c h]|].
  - rewrite split_on_free by assumption. reflexivity.
  - rewrite (G [] (Forall_nil _)). reflexivity.
  - rewrite (G _ H2). simpl hd. simpl tl. replace (Datatypes.length (j :: ((d :: l) ++ [h])%list)) with (S (S (S (Datatypes.length l)))) by (simpl; rewrite app_length; simpl; lia).
    cbn [Nat.ltb Nat.leb]. f_equal.
    + apply (removelast_last (d :: l) h).
    + change (j :: (d :: l) ++ [h])%list with ((j :: d :: l) ++ [h])%list. apply last_last.
Qed.
Lemma parse_issuance_parts s : free_of tilde (ci_jwt (parse_issuance s)) /\ Forall (free_of tilde) (ci_discs (parse_issuance s)).
Proof.
  unfold parse_issuance. pose proof (split_on_parts tilde s) as H. pose proof (split_on_nonempty tilde s).
  destruct (split_on tilde s) as [|p ps]; [congruence|]. inversion H; subst. simpl. split; [assumption|].
  destruct (_ <? _)%nat; [assumption|constructor].
Qed.
Lemma serialize_parse_issuance s : serialize_issuance (parse_issuance s) = s.
Proof.
  unfold serialize_issuance, parse_issuance. rewrite add_parts_concat. pose proof (split_on_nonempty tilde s).
  pose proof (concat_split_on tilde s) as C. destruct (split_on tilde s) as [|p ps]; [congruence|]. simpl ci_jwt. simpl ci_discs.
  destruct ps as [|q ps]; exact C.
Qed.
Lemma serialize_parse_presentation s : (forall j, free_of tilde j -> s <> j ++ "~") ->
  serialize_presentation (parse_presentation s) = s.
Proof.
  intros Hs. rewrite serialize_presentation_parts. unfold parse_presentation.
  pose proof (split_on_nonempty tilde s). pose proof (split_on_parts tilde s) as Hf.
  pose proof (concat_split_on tilde s) as C. destruct (split_on tilde s) as [|p ps]; [congruence|].
  destruct ps as [|q [|r ps]]; cbn [List.length Nat.ltb Nat.leb hd tl cp_discs cp_jwt cp_holder last].
  - exact C.
  - inversion Hf; subst. destruct q as [|c q]; [exfalso; apply (Hs p); [assumption|]; reflexivity|]. reflexivity.
  - set (ts := (q :: r :: ps)) in *. change (last (p :: ts) "") with (last ts "").
    assert (E : ts = (removelast ts ++ [last ts ""])%list) by (apply app_removelast_last; discriminate).
    rewrite E in C at 1. rewrite <- add_parts_concat in C.
    destruct (removelast ts) as [|x xs] eqn:Er; [discriminate|]. exact C.
Qed.

(** ** Whole verifier *)
Definition wf_denv (D : denv) : Prop := forall b ms, de_members D b = Some ms -> Forall (fun kv => wf_json (snd kv)) ms.

Lemma wf_obj_intro m : NoDup (map fst m) -> Forall (fun kv => wf_json (snd kv)) m -> wf_json (JObj m).
Proof. intros H1 H2. simpl. split; [assumption|]. clear H1. induction H2; simpl; auto. Qed.

Lemma validate_issuer_inv D P o tok ds t : validate_issuer D P o tok ds = Ok t ->
  exists j iss, de_jws D tok (vo_det o) = Ok j /\ tk_headers t = jws_headers j /\
    tk_payload t = Some (payload_of t) /\ de_members D (jws_payload j) = Some (payload_of t) /\
    NoDup (map fst (payload_of t)) /\
    mget (payload_of t) "iss" = Some iss /\
    vo_check o (jws_headers j) (gjson_string D iss) (jws_input j) (jws_sig j) = Ok tt /\
    (exists alg, mget (jws_headers j) "alg" = Some (JStr alg) /\ alg <> "none" /\ In alg (vo_ialgs o)) /\
    verify_jwt P (payload_of t) (vo_leeway o) = Ok tt /\ NoDup ds.
Proof.
  unfold validate_issuer. intros H. apply bind_ok in H as ([t' pl] & Hp & H). simpl in H.
  apply bind_ok in H as ([] & Ha & H). apply bind_ok in H as ([] & Hj & H). apply bind_ok in H as ([] & Hd & H).
  injection H as ->. apply check_dups_iff in Hd.
  destruct (parse_and_check_inv _ _ _ _ _ _ _ _ _ Hp) as (j & _ & Hjws & _ & Hh & -> & Hm & _ & Hi & _).
  destruct (Hm eq_refl) as (m & Hm1 & Hnd & Hm2). destruct (Hi eq_refl) as (v & Hv & Hc).
  unfold gjson_get in Hv. rewrite Hm2 in Hv.
  assert (Hpl : payload_of t = m) by (unfold payload_of; now rewrite Hm1). rewrite Hpl in *.
  exists j, v. repeat (split; [assumption|]). split; [|auto].
  unfold verify_signing_alg, h_alg, h_str in Ha. rewrite Hh in Ha.
  destruct (mget (jws_headers j) "alg") as [[| | |alg| |]|]; try discriminate.
  apply bind_ok in Ha as ([] & Ha1 & Ha2). apply guard_ok in Ha1, Ha2. apply negb_true_iff, String.eqb_neq in Ha1.
  apply str_in_In in Ha2. eauto.
Qed.

Lemma verifier_parse_iff D C P E order o s out : wf_env E -> wf_denv D -> visits_all order ->
  (verifier_parse D C P E order o s = Ok out <->
   exists t, validate_issuer D P o (cp_jwt (parse_presentation s)) (cp_discs (parse_presentation s)) = Ok t /\
     verify_disclosures E (cp_discs (parse_presentation s)) (payload_of t) = Ok tt /\
     (vo_typ o = "" \/ mget (tk_headers t) "typ" = Some (JStr (vo_typ o))) /\
     run_holder_verification D C P o (payload_of t) (cp_holder (parse_presentation s)) = Ok tt /\
     exists h ds', get_crypto_hash (payload_of t) = Ok h /\
       Res true (Dof E h (cp_discs (parse_presentation s))) (JObj (payload_of t)) (JObj out) ds').
Proof.
  intros HE HD Hord. unfold verifier_parse. set (c := parse_presentation s).
  assert (Htyp : forall t, (if String.eqb (vo_typ o) "" then Ok tt else verify_typ (tk_headers t) (vo_typ o)) = Ok tt <->
    (vo_typ o = "" \/ mget (tk_headers t) "typ" = Some (JStr (vo_typ o)))).
  { intros t. destruct (String.eqb_spec (vo_typ o) "") as [->|Hne]; [split; auto|].
    unfold verify_typ, h_typ, h_str. destruct (mget (tk_headers t) "typ") as [[| | |ty| |]|];
      try (split; [discriminate|intros [?|?]; congruence]). rewrite guard_ok, String.eqb_eq.
    split; [intros ->; auto|intros [?|[= ->]]; [contradiction|reflexivity]]. }
  assert (Hwf : forall t, validate_issuer D P o (cp_jwt c) (cp_discs c) = Ok t -> wf_json (JObj (payload_of t))).
  { intros t Hv. apply validate_issuer_inv in Hv as (j & iss & _ & _ & _ & Hm & Hn & _).
    apply wf_obj_intro; [assumption|]. eapply HD; eauto. }
  split.
  - intros H. apply bind_ok in H as (t & Hv & H). apply bind_ok in H as ([] & Hd & H).
    apply bind_ok in H as ([] & Ht & H). apply bind_ok in H as ([] & Hh & H). apply bind_ok in H as (h & Hha & H).
    exists t. split; [assumption|]. split; [assumption|]. split; [now apply Htyp|]. split; [assumption|].
    exists h. destruct (disclosed_after_verify E h (cp_discs c) (payload_of t) order HE (Hwf _ Hv) Hord Hd Hha)
      as (m & Hm & _ & _ & _ & out' & ds' & Hg & R).
    unfold vp_disclosed in H. rewrite Hm in H. cbn [bind] in H. rewrite Hg in H. injection H as <-. eauto.
  - intros (t & Hv & Hd & Ht & Hh & h & ds' & Hha & R). rewrite Hv. cbn [bind]. rewrite Hd. cbn [bind].
    apply Htyp in Ht. rewrite Ht. cbn [bind]. rewrite Hh. cbn [bind]. rewrite Hha. cbn [bind].
    destruct (disclosed_after_verify E h (cp_discs c) (payload_of t) order HE (Hwf _ Hv) Hord Hd Hha)
      as (m & Hm & _ & _ & _ & out' & ds2 & Hg & R').
    unfold vp_disclosed. rewrite Hm. cbn [bind]. rewrite Hg. destruct (Res_det _ _ _ _ _ _ _ R R') as [[= <-] _]. reflexivity.
Qed.
