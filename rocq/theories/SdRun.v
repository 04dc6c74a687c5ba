(** Consequences of the walk theorems: verification, cleaning, order independence. *)
From Verif Require Import GoBase Base64 JwtSpec JwtModel SdSpec SdModel SdProofs.

Notation cnt := (count_occ String.string_dec).

(** ** Facts about [Res] *)
Section ResFacts.
Variables (clean : bool) (D : string -> option dcontent).

Lemma Res_det j out ds out' ds' : Res clean D j out ds -> Res clean D j out' ds' -> out' = out /\ ds' = ds.
Proof. intros H H'. apply Res_W in H, H'. destruct (W_det clean (fresh_L D)) as (Hd & _). exact (Hd _ _ _ H _ _ H'). Qed.

Definition occD (e : string) : list string :=
  match D e with Some c => digests_in clean (disclosed_value c) | None => [] end.

Lemma all_strings_map l r : all_strings l = Some r -> l = map JStr r.
Proof.
  revert r. induction l as [|[| | |s| |] l IH]; simpl; intros r H; try discriminate; [now injection H as <-|].
  destruct (all_strings l) as [r'|]; [|discriminate]. injection H as <-. simpl. now rewrite <- IH.
Qed.
Lemma digest_elem_occ v : elem_digest v = match digest_elem v with Some (JStr d) => [d] | _ => [] end.
Proof. destruct v; try reflexivity. Qed.
Lemma sd_digests_list m sds : sd_list m = Some sds -> sd_digests m = sds.
Proof. unfold sd_digests. now intros ->. Qed.

Ltac perm := repeat rewrite <- app_assoc; repeat rewrite <- app_comm_cons.
Lemma Res_perm :
  (forall j out ds, Res clean D j out ds -> Permutation ds (digests_in clean j ++ flat_map occD ds)%list) /\
  (forall l out ds, Elems clean D l out ds -> Permutation ds (flat_map elem_digest l ++ flat_map occD ds)%list) /\
  (forall l out hid ds, Named clean D l out hid ds -> Permutation ds (l ++ flat_map occD ds)%list) /\
  (forall m out ds, Members clean D m out ds ->
     Permutation ds (member_digests clean (digests_in clean) m ++ flat_map occD ds)%list).
Proof.
  apply Res_mutind; intros; simpl; try apply Permutation_refl; try assumption.
  - destruct j; try tauto; apply Permutation_refl.
  - rewrite (sd_digests_list _ _ e), flat_map_app.
    rewrite H at 1. rewrite H0 at 1. rewrite <- !app_assoc. apply Permutation_app_head.
    rewrite !app_assoc. apply Permutation_app_tail. apply Permutation_app_comm.
  - rewrite digest_elem_occ, e. assumption.
  - rewrite digest_elem_occ, e. simpl. constructor. unfold occD at 1. rewrite e0. simpl. assumption.
  - rewrite digest_elem_occ, e. simpl. constructor. unfold occD at 1. rewrite e0. simpl.
    rewrite flat_map_app. rewrite H at 1. rewrite H0 at 1. rewrite !app_assoc. apply Permutation_app_tail.
    rewrite <- !app_assoc. rewrite (app_assoc _ _ (flat_map elem_digest l)).
    rewrite Permutation_app_comm. now rewrite !app_assoc.
  - constructor. unfold occD at 1. rewrite e. simpl. assumption.
  - constructor. unfold occD at 1. rewrite e. simpl.
    rewrite flat_map_app. rewrite H at 1. rewrite H0 at 1. rewrite !app_assoc. apply Permutation_app_tail.
    rewrite <- !app_assoc. rewrite (app_assoc _ _ l).
    rewrite Permutation_app_comm. now rewrite !app_assoc.
  - rewrite e. assumption.
  - rewrite e. rewrite flat_map_app. rewrite H at 1. rewrite H0 at 1. rewrite <- !app_assoc. apply Permutation_app_head.
    rewrite !app_assoc. apply Permutation_app_tail. apply Permutation_app_comm.
Qed.

(** every digest listed by [Res] is committed *)
Lemma committed_sub j j' d : (forall x, occurs x j -> committed D j' x) -> committed D j d -> committed D j' d.
Proof. intros H. induction 1; [auto|]. eapply com_nested; eauto. Qed.
Lemma committed_via j e c d : committed D j e -> D e = Some c -> committed D (disclosed_value c) d -> committed D j d.
Proof. intros He Hc. induction 1; eapply com_nested; eauto. Qed.

Definition occurs_elem l d := exists m, In (JObj m) l /\ mget m "..." = Some (JStr d).
Lemma digest_elem_in v d l : digest_elem v = Some (JStr d) -> In v l -> occurs d (JArr l).
Proof. destruct v; try discriminate. intros. eapply occ_elem; eauto. Qed.

Lemma Res_committed :
  (forall j out ds, Res clean D j out ds -> forall d, In d ds -> committed D j d) /\
  (forall l out ds, Elems clean D l out ds -> forall d, In d ds -> committed D (JArr l) d) /\
  (forall l out hid ds, Named clean D l out hid ds -> forall d, In d ds ->
     In d l \/ exists e c, In e l /\ D e = Some c /\ committed D (disclosed_value c) d) /\
  (forall m out ds, Members clean D m out ds -> forall d, In d ds ->
     exists k v, In (k, v) m /\ plain_key clean k = true /\ committed D v d).
Proof.
  apply Res_mutind; intros; simpl in *; try tauto; auto.
  - assert (Hsd : forall x, In x sds -> occurs x (JObj m)).
    { intros x Hx. unfold sd_list in e. destruct (mget m "_sd") as [[| | | |l|]|] eqn:E; try discriminate;
        try (injection e as <-; destruct Hx).
      apply occ_sd with (l := l); [assumption|]. apply all_strings_map in e. subst l. now apply in_map. }
    apply in_app_iff in H1 as [H1|H1].
    + apply H in H1 as [H1|(e' & c & He & Hc & Hd)]; [now apply com_here, Hsd|].
      eapply committed_via; [apply com_here, Hsd; eassumption|eassumption|assumption].
    + apply H0 in H1 as (k & v & Hkv & Hp & Hd). eapply committed_sub; [|exact Hd].
      intros x Hx. apply com_here. eapply occ_member; eauto. intros ->. discriminate.
  - apply H in H0. eapply committed_sub; [|exact H0]. intros x Hx. apply com_here. inversion Hx; subst.
    eapply occ_elem; [right; eassumption|eassumption].
  - destruct H0 as [<-|H0].
    + apply com_here. eapply digest_elem_in; eauto. simpl; auto.
    + apply H in H0. eapply committed_sub; [|exact H0]. intros x Hx. apply com_here. inversion Hx; subst.
      eapply occ_elem; [right; eassumption|eassumption].
  - assert (Hd : occurs d (JArr (v :: l))) by (eapply digest_elem_in; eauto; simpl; auto).
    destruct H1 as [<-|H1]; [now apply com_here|]. apply in_app_iff in H1 as [H1|H1].
    + apply H in H1. eapply committed_via; [apply com_here; exact Hd|eassumption|assumption].
    + apply H0 in H1. eapply committed_sub; [|exact H1]. intros y Hy. apply com_here. inversion Hy; subst.
      eapply occ_elem; [right; eassumption|eassumption].
  - destruct H0 as [<-|H0]; [auto|]. apply H in H0 as [?|(e' & c & ? & ? & ?)]; [auto|]. right. eauto 7.
  - destruct H1 as [<-|H1]; [auto|]. apply in_app_iff in H1 as [H1|H1].
    + apply H in H1. right. exists d, (CMember n x). auto.
    + apply H0 in H1 as [?|(e' & c & ? & ? & ?)]; [auto|]. right. eauto 7.
  - apply H in H0 as (k' & v' & ? & ? & ?). eauto 7.
  - apply in_app_iff in H1 as [H1|H1]; [exists k, v; auto|].
    apply H0 in H1 as (k' & w & ? & ? & ?). eauto 7.
Qed.

Lemma with_hidden_JNull (named mem : list (string * json)) hid : JObj (with_hidden clean named hid ++ mem)%list <> JNull.
Proof. discriminate. Qed.
End ResFacts.

(** [digests_in] under cleaning loses occurrences only *)
Lemma digests_in_clean j : forall x, In x (digests_in true j) -> In x (digests_in false j).
Proof.
  induction j using json_ind'; simpl; auto. intros x Hx. apply in_app_iff in Hx as [Hx|Hx]; apply in_or_app; [auto|right].
  induction H as [|[k v] m Hv _ IH]; simpl in *; [tauto|].
  unfold plain_key in *. simpl in *. rewrite andb_true_r.
  destruct (String.eqb k "_sd"); simpl in *; [auto|].
  destruct (String.eqb k "_sd_alg"); simpl in *; [apply in_or_app; auto|].
  apply in_app_iff in Hx as [Hx|Hx]; apply in_or_app; auto.
Qed.

(** from keeping to cleaning *)
Definition subcount (a b : list string) : Prop := forall x, (cnt a x <= cnt b x)%nat.
Lemma subcount_app a b a' b' : subcount a a' -> subcount b b' -> subcount (a ++ b)%list (a' ++ b')%list.
Proof. intros H1 H2 x. rewrite !count_occ_app. specialize (H1 x). specialize (H2 x). lia. Qed.
Lemma subcount_cons d a b : subcount a b -> subcount (d :: a) (d :: b).
Proof. intros H x. simpl. specialize (H x). destruct (String.string_dec d x); lia. Qed.
Lemma subcount_nodup a b : subcount a b -> NoDup b -> NoDup a.
Proof.
  intros H Hb. apply (NoDup_count_occ String.string_dec). intros x.
  apply (NoDup_count_occ String.string_dec) with (x := x) in Hb. specialize (H x). lia.
Qed.
Lemma subcount_incl a b : subcount a b -> incl a b.
Proof. intros H x Hx. apply (count_occ_In String.string_dec) in Hx. apply (count_occ_In String.string_dec). specialize (H x). lia. Qed.

Lemma Res_to_clean D :
  (forall j out ds, Res false D j out ds -> exists out' ds', Res true D j out' ds' /\ subcount ds' ds) /\
  (forall l out ds, Elems false D l out ds -> exists out' ds', Elems true D l out' ds' /\ subcount ds' ds) /\
  (forall l out hid ds, Named false D l out hid ds -> exists out' hid' ds', Named true D l out' hid' ds' /\
     map fst out' = map fst out /\ subcount ds' ds) /\
  (forall m out ds, Members false D m out ds -> exists out' ds', Members true D m out' ds' /\ subcount ds' ds).
Proof.
  apply Res_mutind; intros.
  - exists j, []. split; [now constructor|]. intros x; reflexivity.
  - destruct H as (o & d & H & S). eexists _, d. split; [constructor; eassumption|assumption].
  - destruct H as (o1 & h1 & d1 & H & E & S1), H0 as (o2 & d2 & H0 & S2).
    eexists _, (d1 ++ d2)%list. split; [|now apply subcount_app].
    econstructor; eauto; rewrite E; [assumption|]. intros k Hk Hp. apply n1; [assumption|].
    unfold plain_key in *. destruct (String.eqb k "_sd"); [discriminate|reflexivity].
  - exists [], []. split; [constructor|]. intros x; reflexivity.
  - destruct H as (o & d & H & S). eexists _, d. split; [apply El_plain; eassumption|assumption].
  - destruct H as (o & d' & H & S). eexists _, _. split; [eapply El_hidden; eassumption|now apply subcount_cons].
  - destruct H as (o & d1 & H & S), H0 as (o2 & d2 & H0 & S2).
    eexists _, _. split; [eapply El_disclosed; eassumption|]. apply subcount_cons. now apply subcount_app.
  - exists [], [], []. split; [constructor|]. split; [reflexivity|intros x; reflexivity].
  - destruct H as (o & h & d' & H & E & S). eexists _, _, _. split; [eapply Nm_hidden; eassumption|].
    split; [assumption|now apply subcount_cons].
  - destruct H as (o & d1 & H & S), H0 as (o2 & h2 & d2 & H0 & E & S2).
    eexists _, _, _. split; [eapply Nm_disclosed; eassumption|]. split; [simpl; now rewrite E|].
    apply subcount_cons. now apply subcount_app.
  - exists [], []. split; [constructor|]. intros x; reflexivity.
  - destruct H as (o & d & H & S). exists o, d. split; [|assumption]. apply Mb_skip; [|assumption].
    unfold plain_key in *. simpl in e. rewrite andb_true_r in e. now rewrite e.
  - destruct H as (o & d & H & S), H0 as (o2 & d2 & H0 & S2). destruct (plain_key true k) eqn:Ek.
    + eexists _, (d ++ d2)%list. split; [apply Mb_keep; eassumption|now apply subcount_app].
    + exists o2, d2. split; [now apply Mb_skip|]. intros x. rewrite count_occ_app. specialize (S2 x). lia.
Qed.

(** every disclosed digest listed by [Res] has its own resolution *)
Lemma Res_sub clean D :
  (forall j out ds, Res clean D j out ds -> forall e c, In e ds -> D e = Some c ->
     exists o ds', Res clean D (disclosed_value c) o ds' /\ subcount (e :: ds') ds) /\
  (forall l out ds, Elems clean D l out ds -> forall e c, In e ds -> D e = Some c ->
     exists o ds', Res clean D (disclosed_value c) o ds' /\ subcount (e :: ds') ds) /\
  (forall l out hid ds, Named clean D l out hid ds -> forall e c, In e ds -> D e = Some c ->
     exists o ds', Res clean D (disclosed_value c) o ds' /\ subcount (e :: ds') ds) /\
  (forall m out ds, Members clean D m out ds -> forall e c, In e ds -> D e = Some c ->
     exists o ds', Res clean D (disclosed_value c) o ds' /\ subcount (e :: ds') ds).
Proof.
  assert (Sl : forall a b c, subcount a b -> subcount a (b ++ c)%list).
  { intros a b c H x. rewrite count_occ_app. specialize (H x). lia. }
  assert (Sr : forall a b c, subcount a c -> subcount a (b ++ c)%list).
  { intros a b c H x. rewrite count_occ_app. specialize (H x). lia. }
  assert (Sc : forall a d b, subcount a b -> subcount a (d :: b)).
  { intros a d b H x. simpl. specialize (H x). destruct (String.string_dec d x); lia. }
  apply Res_mutind; intros; simpl in *; try tauto; auto.
  - apply in_app_iff in H1 as [H1|H1]; [destruct (H _ _ H1 H2) as (o & d & R & S)|destruct (H0 _ _ H1 H2) as (o & d & R & S)]; exists o, d; auto.
  - destruct H0 as [<-|H0]; [congruence|]. destruct (H _ _ H0 H1) as (o & d' & R & S). exists o, d'. auto.
  - destruct H1 as [<-|H1].
    + rewrite e0 in H2. injection H2 as <-. exists x', ds1. split; [assumption|]. apply subcount_cons. apply Sl. intros y; reflexivity.
    + apply in_app_iff in H1 as [H1|H1]; [destruct (H _ _ H1 H2) as (o & d' & R & S)|destruct (H0 _ _ H1 H2) as (o & d' & R & S)]; exists o, d'; auto.
  - destruct H0 as [<-|H0]; [congruence|]. destruct (H _ _ H0 H1) as (o & d' & R & S). exists o, d'. auto.
  - destruct H1 as [<-|H1].
    + rewrite e in H2. injection H2 as <-. exists x', ds1. split; [assumption|]. apply subcount_cons. apply Sl. intros y; reflexivity.
    + apply in_app_iff in H1 as [H1|H1]; [destruct (H _ _ H1 H2) as (o & d' & R & S)|destruct (H0 _ _ H1 H2) as (o & d' & R & S)]; exists o, d'; auto.
  - apply in_app_iff in H1 as [H1|H1]; [destruct (H _ _ H1 H2) as (o & d & R & S)|destruct (H0 _ _ H1 H2) as (o & d & R & S)]; exists o, d; auto.
Qed.

(** every committed digest is listed (when nothing is cleaned away) *)
Lemma all_strings_In l r d : all_strings l = Some r -> In (JStr d) l -> In d r.
Proof. intros H Hi. apply all_strings_map in H. subst l. apply in_map_iff in Hi as (x & [= ->] & Hx). assumption. Qed.
Lemma Res_lists_occurs D :
  (forall j out ds, Res false D j out ds -> forall d, occurs d j -> In d ds) /\
  (forall l out ds, Elems false D l out ds -> forall d, occurs d (JArr l) -> In d ds) /\
  (forall l out hid ds, Named false D l out hid ds -> forall d, In d l -> In d ds) /\
  (forall m out ds, Members false D m out ds -> forall k v d, In (k, v) m -> k <> "_sd" -> occurs d v -> In d ds).
Proof.
  apply Res_mutind; intros; simpl in *; try tauto; auto.
  - inversion H; subst; tauto.
  - apply in_or_app. inversion H1; subst.
    + left. apply H. unfold sd_list in e. rewrite H3 in e. eapply all_strings_In; eauto.
    + right. eapply H0; eauto.
  - inversion H; subst. destruct H1.
  - inversion H0; subst. destruct H2 as [->|Hi]; [simpl in e; congruence|]. apply H. eapply occ_elem; eauto.
  - inversion H0; subst. destruct H2 as [->|Hi]; [simpl in e; left; congruence|]. right. apply H. eapply occ_elem; eauto.
  - inversion H1; subst. destruct H3 as [->|Hi]; [simpl in e; left; congruence|]. right. apply in_or_app. right. apply H0. eapply occ_elem; eauto.
  - destruct H0; auto.
  - destruct H1; auto. right. apply in_or_app. auto.
  - destruct H0 as [[= -> ->]|Hi]; [|eauto]. unfold plain_key in e. simpl in e. rewrite andb_true_r in e.
    apply negb_false_iff, String.eqb_eq in e. congruence.
  - apply in_or_app. destruct H1 as [[= -> ->]|Hi]; [left; auto|right; eauto].
Qed.
Lemma Res_lists_committed D j out ds : Res false D j out ds -> forall d, committed D j d -> In d ds.
Proof.
  intros R d. induction 1.
  - destruct (Res_lists_occurs D) as (H0 & _). eauto.
  - destruct (Res_sub false D) as (H2 & _). destruct (H2 _ _ _ R _ _ IHcommitted H0) as (o & ds' & R' & S).
    destruct (Res_lists_occurs D) as (H3 & _). apply subcount_incl in S. apply S. right. eauto.
Qed.

(** ** From disclosure strings to the map *)
Definition decode_disclosure (E : sdenv) (s : string) : option json :=
  match b64_decode s with Some b => sd_json E b | None => None end.
Definition dsp (E : sdenv) := disclosure_content (decode_disclosure E).
Definition Dof (E : sdenv) (h : hashalg) (ds : list string) : string -> option dcontent :=
  supplied (dsp E) (get_hash E h) ds.

Definition raw_disc (c : disc) : Prop := dc_parsed c = false /\
  (dc_elems c <> 2%nat -> dc_elems c <> 3%nat -> dc_value c = JNull).

Lemma get_disclosure_claim_spec E h s :
  match get_disclosure_claim E h s with
  | Ok (d, c) => d = get_hash E h s /\ dsp E s = Some (content c) /\ raw_disc c /\ dc_str c = s
  | Err e => dsp E s = None
  | Panic => False
  end.
Proof.
  unfold get_disclosure_claim, dsp, disclosure_content, decode_disclosure.
  destruct (b64_decode s) as [b|]; [|reflexivity].
  destruct (sd_json E b) as [[| | | |l|]|]; try reflexivity. simpl.
  destruct l as [|[| | |salt| |] [|y [|z [|w l]]]]; try reflexivity;
    destruct y; simpl; unfold raw_disc, content; simpl; repeat split; try reflexivity; congruence.
Qed.

Definition cof (m : gomap disc) (d : string) : option dcontent := option_map content (mget m d).
Definition raws (m : gomap disc) : Prop := forall k c, mget m k = Some c -> raw_disc c.

Lemma get_disclosure_map_spec E h ds : forall acc,
  match get_disclosure_map E h ds acc with
  | Ok m => (forall s, In s ds -> dsp E s <> None) /\
            (forall d, cof m d = match Dof E h ds d with Some c => Some c | None => cof acc d end) /\
            (NoDup (map fst acc) -> NoDup (map fst m)) /\ (raws acc -> raws m) /\
            (forall s, In s ds -> In (get_hash E h s) (map fst m)) /\
            (forall k, In k (map fst acc) -> In k (map fst m)) /\
            (forall k, In k (map fst m) -> In k (map fst acc) \/ exists s, In s ds /\ k = get_hash E h s)
  | Err e => exists s, In s ds /\ dsp E s = None
  | Panic => False
  end.
Proof.
  unfold Dof. induction ds as [|s ds IH]; intros acc; simpl.
  - split; [tauto|]. split; [reflexivity|]. split; [tauto|]. split; [tauto|]. split; [tauto|]. split; tauto.
  - pose proof (get_disclosure_claim_spec E h s) as Hs.
    destruct (get_disclosure_claim E h s) as [[d c]|e|]; [|exists s; auto|tauto]. simpl.
    destruct Hs as (-> & Hc & Hr & Hstr).
    specialize (IH (mset acc (get_hash E h s) c)).
    destruct (get_disclosure_map E h ds (mset acc (get_hash E h s) c)) as [m|e|]; [| |tauto].
    + destruct IH as (H1 & H2 & H3 & H4 & H5 & H6 & H7). split; [|split; [|split; [|split; [|split; [|split]]]]].
      * intros s' [<-|Hi]; [congruence|auto].
      * intros d. rewrite H2. destruct (supplied (dsp E) (get_hash E h) ds d); [reflexivity|].
        unfold cof. rewrite mget_mset, String.eqb_sym. destruct (String.eqb (get_hash E h s) d); [|reflexivity].
        simpl. now rewrite Hc.
      * intros Hn. apply H3. now apply mset_nodup.
      * intros Hra. apply H4. intros k c' Hk. rewrite mget_mset in Hk. destruct (String.eqb k (get_hash E h s)); [congruence|eauto].
      * intros s' [<-|Hi]; [|auto]. apply H6. rewrite mset_keys. auto.
      * intros k Hk. apply H6. rewrite mset_keys. auto.
      * intros k Hk. apply H7 in Hk as [Hk|(s' & Hs' & ->)]; [|eauto]. rewrite mset_keys in Hk. destruct Hk as [->|Hk]; [right; eauto|auto].
    + destruct IH as (s' & Hi & Hn). eauto.
Qed.

Lemma disclosure_map_total E h ds : (forall s, In s ds -> dsp E s <> None) ->
  exists m, get_disclosure_map E h ds [] = Ok m.
Proof.
  intros H. pose proof (get_disclosure_map_spec E h ds []) as S.
  destruct (get_disclosure_map E h ds []) as [m|e|]; [eauto| |tauto].
  destruct S as (s & Hi & Hn). now apply H in Hi.
Qed.

(** json decoding yields values with unique member names *)
Definition wf_env (E : sdenv) : Prop := forall b j, sd_json E b = Some j -> wf_json j.
Lemma dsp_wf E s c : wf_env E -> dsp E s = Some c -> wf_json (disclosed_value c).
Proof.
  unfold dsp, disclosure_content, decode_disclosure. intros Hw. destruct (b64_decode s) as [b|]; [|discriminate].
  destruct (sd_json E b) as [j|] eqn:Ej; [|discriminate]. apply Hw in Ej.
  destruct j as [| | | |l|]; try discriminate. apply wf_arr in Ej.
  destruct l as [|[| | |salt| |] [|y [|z [|w l]]]]; try discriminate.
  - intros H. inversion Ej as [|? ? _ K]; subst. inversion K; subst. destruct y; injection H as <-; assumption.
  - destruct y; try discriminate. intros [= <-]. inversion Ej as [|? ? _ K]; subst. inversion K as [|? ? _ K']; subst. now inversion K'.
  - intros H; destruct y; injection H as <-; exact I.
Qed.
Lemma Dof_In E h ds d c : Dof E h ds d = Some c -> exists s, In s ds /\ get_hash E h s = d /\ dsp E s = Some c.
Proof.
  unfold Dof. induction ds as [|s ds IH]; simpl; [discriminate|].
  destruct (supplied (dsp E) (get_hash E h) ds d).
  - intros [= ->]. destruct IH as (s' & ? & ? & ?); eauto.
  - destruct (String.eqb_spec (get_hash E h s) d); [|discriminate]. eauto.
Qed.
Lemma Dof_some E h ds s : In s ds -> (forall s, In s ds -> dsp E s <> None) -> Dof E h ds (get_hash E h s) <> None.
Proof.
  unfold Dof. induction ds as [|s' ds IH]; simpl; [tauto|]. intros Hi Hall.
  destruct (supplied (dsp E) (get_hash E h) ds (get_hash E h s)) eqn:Es; [discriminate|].
  destruct Hi as [->|Hi]; [rewrite String.eqb_refl; auto|]. exfalso. apply IH; auto.
Qed.

(** ** The state after reading the disclosures *)
Definition st0 (m : gomap disc) : rst := {| rs_nested := []; rs_discs := m |}.
Lemma content_value c : raw_disc c -> disclosed_value (content c) = dc_value c.
Proof.
  intros [_ H]. unfold content. destruct (Nat.eqb_spec (dc_elems c) 2); [reflexivity|].
  destruct (Nat.eqb_spec (dc_elems c) 3); [reflexivity|]. simpl. symmetry. auto.
Qed.
Lemma lk_st0 m d : raws m -> lk (st0 m) d = fresh_L (cof m) d.
Proof.
  intros Hr. unfold lk, fresh_L, cof. simpl. destruct (mget m d) as [c|] eqn:E; [|reflexivity].
  simpl. destruct (Hr _ _ E) as [-> _]. reflexivity.
Qed.
Lemma W_lk_st0 clean m j out ds : raws m -> W clean (lk (st0 m)) j out ds <-> Res clean (cof m) j out ds.
Proof.
  intros Hr. split; intros H.
  - apply W_Res. eapply W_ext; [exact H|]. intros d _. now apply lk_st0.
  - apply Res_W in H. eapply W_ext; [exact H|]. intros d _. symmetry. now apply lk_st0.
Qed.
Lemma fresh_empty ds : fresh [] ds <-> NoDup ds.
Proof. split; [now intros [H _]|intros H; split; [assumption|easy]]. Qed.

Definition wf_raws (m : gomap disc) : Prop := forall k c, mget m k = Some c -> wf_json (dc_value c).

Lemma disclose_top_iff clean m j out : raws m -> wf_raws m -> wf_json j ->
  (exists st', disclose_top clean j (st0 m) = Ok (out, st') ) <->
  (exists ds, Res clean (cof m) j out ds /\ NoDup ds).
Proof.
  intros Hr Hwf Hj. unfold disclose_top. split.
  - intros (st' & H). apply disclose_sound in H as (ds & HW & F & _). exists ds.
    split; [apply W_lk_st0 in HW; assumption|]. exact (proj1 F).
  - intros (ds & R & N). eapply disclose_complete; eauto.
    + intros k c Hk _. eauto.
    + apply need_start.
    + apply W_lk_st0; eassumption.
    + split; [assumption|easy].
Qed.

Lemma forallb_parsed m st' ds clean : raws m -> NoDup (map fst m) -> After clean (st0 m) ds st' ->
  forallb (fun kc => dc_parsed (snd kc)) (rs_discs st') = true <-> (forall k, In k (map fst m) -> In k ds).
Proof.
  intros Hr Hnd (N & K & HA). simpl in *. rewrite forallb_forall.
  assert (Hnd' : NoDup (map fst (rs_discs st'))) by now rewrite K.
  split.
  - intros H k Hk. destruct (mget m k) as [c|] eqn:E; [|apply mget_None in E; tauto].
    specialize (HA k). rewrite E in HA. destruct (mget (rs_discs st') k) as [c'|] eqn:E'; [|tauto].
    apply mget_In in E'. apply H in E'. simpl in E'. destruct HA as (_ & _ & _ & _ & HA).
    destruct (Hr _ _ E) as [Hp _]. rewrite Hp in HA. simpl in HA.
    destruct (str_in k ds) eqn:Ik; [now apply str_in_In|]. subst c'. congruence.
  - intros H [k c'] Hi. simpl. apply mget_In_nodup in Hi; [|assumption]. specialize (HA k). rewrite Hi in HA.
    destruct (mget m k) as [c|] eqn:E; [|tauto]. destruct HA as (_ & _ & _ & _ & HA).
    destruct (Hr _ _ E) as [Hp _]. rewrite Hp in HA. simpl in HA.
    assert (Ik : In k ds). { apply H. apply mget_In in E. exact (in_map fst _ _ E). }
    apply str_in_In in Ik. rewrite Ik in HA. tauto.
Qed.

Lemma Res_D_ext clean D D' j out ds : (forall d, D d = D' d) -> Res clean D j out ds -> Res clean D' j out ds.
Proof.
  intros H R. apply Res_W in R. apply W_Res. eapply W_ext; [exact R|]. intros d _. unfold fresh_L. now rewrite H.
Qed.

(** VerifyDisclosuresInSDJWT accepts exactly ... *)
Theorem verify_disclosures_iff E ds payload : wf_env E -> wf_json (JObj payload) ->
  (verify_disclosures E ds payload = Ok tt <->
   exists h, get_crypto_hash payload = Ok h /\
     (forall s, In s ds -> dsp E s <> None) /\
     exists out dl, Res false (Dof E h ds) (JObj payload) out dl /\ NoDup dl /\
       (forall s, In s ds -> In (get_hash E h s) dl)).
Proof.
  intros HE Hp. unfold verify_disclosures. split.
  - intros H. apply bind_ok in H as (h & Hh & H). apply bind_ok in H as (m & Hm & H).
    apply bind_ok in H as ([out st'] & Hd & H). exists h. split; [assumption|].
    pose proof (get_disclosure_map_spec E h ds []) as S. rewrite Hm in S.
    destruct S as (S1 & S2 & S3 & S4 & S5 & _ & S7). split; [assumption|].
    assert (Hr : raws m) by (apply S4; intros k c Hk; discriminate).
    apply disclose_sound in Hd as (dl & HW & F & A).
    exists out, dl. split; [|split; [exact (proj1 F)|]].
    + apply W_lk_st0 in HW; [|assumption]. eapply Res_D_ext; [|exact HW].
      intros d. rewrite S2. unfold cof. simpl. now destruct (Dof E h ds d).
    + unfold guard in H. destruct (forallb _ _) eqn:Ef; [|discriminate]. simpl in Ef.
      intros s Hs. apply (proj1 (forallb_parsed m st' dl false Hr (S3 (NoDup_nil _)) A) Ef). auto.
  - intros (h & Hh & Hall & out & dl & R & N & Hin). rewrite Hh. simpl.
    destruct (disclosure_map_total E h ds Hall) as (m & Hm). rewrite Hm. simpl.
    pose proof (get_disclosure_map_spec E h ds []) as S. rewrite Hm in S.
    destruct S as (S1 & S2 & S3 & S4 & S5 & _ & S7).
    assert (Hr : raws m) by (apply S4; intros k c Hk; discriminate).
    assert (Hcof : forall d, cof m d = Dof E h ds d).
    { intros d. rewrite S2. unfold cof. simpl. now destruct (Dof E h ds d). }
    assert (Hwf : wf_raws m).
    { intros k c Hk. specialize (Hcof k). unfold cof in Hcof. rewrite Hk in Hcof. simpl in Hcof. symmetry in Hcof.
      apply Dof_In in Hcof as (s & _ & _ & Hs). apply dsp_wf in Hs; [|assumption].
      rewrite content_value in Hs; eauto. }
    assert (R' : Res false (cof m) (JObj payload) out dl) by (eapply Res_D_ext; [|exact R]; auto).
    destruct (proj2 (disclose_top_iff false m (JObj payload) out Hr Hwf Hp)) as (st' & Hd); [eauto|].
    change {| rs_nested := []; rs_discs := m |} with (st0 m). rewrite Hd. simpl.
    apply disclose_sound in Hd as (dl' & HW & F & A). apply W_lk_st0 in HW; [|assumption].
    destruct (Res_det _ _ _ _ _ _ _ R' HW) as [_ ->].
    unfold guard. assert (Ef : forallb (fun kc => dc_parsed (snd kc)) (rs_discs st') = true).
    { apply (proj2 (forallb_parsed m st' dl false Hr (S3 (NoDup_nil _)) A)). intros k Hk.
      apply S7 in Hk as [[]|(s & Hs & ->)]. auto. }
    now rewrite Ef.
Qed.

(** ** Cleaning after verification *)
Lemma NoDup_app_r {A} (a b : list A) : NoDup (a ++ b)%list -> NoDup b.
Proof. induction a; simpl; [auto|]. intros H. inversion H; auto. Qed.
Lemma NoDup_flat_map_owner {A B} (f : A -> list B) l e1 e2 x :
  NoDup (flat_map f l) -> In e1 l -> In e2 l -> In x (f e1) -> In x (f e2) -> e1 = e2.
Proof.
  induction l as [|a l IH]; simpl; [tauto|]. intros N H1 H2 X1 X2.
  assert (Hd : forall e, In e l -> In x (f a) -> In x (f e) -> False).
  { intros e He Ha Hx. clear - N He Ha Hx.
    induction (f a) as [|y ys IHy]; simpl in *; [tauto|]. inversion N; subst. destruct Ha as [->|Ha]; [|auto].
    apply H1. apply in_or_app. right. apply in_flat_map. eauto. }
  destruct H1 as [->|H1], H2 as [->|H2]; auto; try (exfalso; eauto; fail).
  apply IH; auto. now apply NoDup_app_r in N.
Qed.

(** where the digests met by a walk come from *)
Lemma W_owner clean L :
  (forall j out ds, W clean L j out ds -> forall x, In x ds -> In x (digests_in clean j) \/
     exists e c, In e ds /\ L e = Some (false, c) /\ In x (digests_in clean (disclosed_value c))) /\
  (forall l out ds, WE clean L l out ds -> forall x, In x ds -> In x (flat_map elem_digest l) \/
     exists e c, In e ds /\ L e = Some (false, c) /\ In x (digests_in clean (disclosed_value c))) /\
  (forall l out hid ds, WN clean L l out hid ds -> forall x, In x ds -> In x l \/
     exists e c, In e ds /\ L e = Some (false, c) /\ In x (digests_in clean (disclosed_value c))) /\
  (forall m out ds, WM clean L m out ds -> forall x, In x ds -> In x (member_digests clean (digests_in clean) m) \/
     exists e c, In e ds /\ L e = Some (false, c) /\ In x (digests_in clean (disclosed_value c))) /\
  (forall p v v' ds, WV clean L p v v' ds -> forall x, In x ds -> p = false /\ (In x (digests_in clean v) \/
     exists e c, In e ds /\ L e = Some (false, c) /\ In x (digests_in clean (disclosed_value c)))).
Proof.
  assert (Hl : forall a b x, (exists e c, In e a /\ L e = Some (false, c) /\ In x (digests_in clean (disclosed_value c))) ->
    incl a b -> exists e c, In e b /\ L e = Some (false, c) /\ In x (digests_in clean (disclosed_value c))).
  { intros a b x (e & c & ? & ? & ?) I. exists e, c. auto. }
  apply W_mutind; intros; simpl in *; try tauto; auto.
  - rewrite (sd_digests_list _ _ e). apply in_app_iff in H1 as [H1|H1].
    + apply H in H1 as [H1|H1]; [left; apply in_or_app; auto|]. right. eapply Hl; [exact H1|]. now apply incl_appl.
    + apply H0 in H1 as [H1|H1]; [left; apply in_or_app; auto|]. right. eapply Hl; [exact H1|]. now apply incl_appr.
  - rewrite digest_elem_occ, e. simpl. auto.
  - rewrite digest_elem_occ, e. simpl. destruct H0 as [->|H0]; [auto|]. apply H in H0 as [H0|H0]; [auto|].
    right. refine (Hl _ (d :: ds) _ H0 _). now apply incl_tl.
  - rewrite digest_elem_occ, e. simpl. destruct H1 as [->|H1]; [auto|]. apply in_app_iff in H1 as [H1|H1].
    + apply H in H1 as [-> [H1|H1]]; right.
      * exists d, (CElem x). simpl. auto.
      * refine (Hl _ (d :: ds1 ++ ds)%list _ H1 _). apply incl_tl. now apply incl_appl.
    + apply H0 in H1 as [H1|H1]; [auto|]. right. refine (Hl _ (d :: ds1 ++ ds)%list _ H1 _). apply incl_tl. now apply incl_appr.
  - destruct H0 as [->|H0]; [auto|]. apply H in H0 as [H0|H0]; [auto|].
    right. refine (Hl _ (d :: ds) _ H0 _). now apply incl_tl.
  - destruct H1 as [->|H1]; [auto|]. apply in_app_iff in H1 as [H1|H1].
    + apply H in H1 as [-> [H1|H1]]; right.
      * exists d, (CMember n x). simpl. auto.
      * refine (Hl _ (d :: ds1 ++ ds)%list _ H1 _). apply incl_tl. now apply incl_appl.
    + apply H0 in H1 as [H1|H1]; [auto|]. right. refine (Hl _ (d :: ds1 ++ ds)%list _ H1 _). apply incl_tl. now apply incl_appr.
  - rewrite e. auto.
  - rewrite e. apply in_app_iff in H1 as [H1|H1].
    + apply H in H1 as [H1|H1]; [left; apply in_or_app; auto|]. right. eapply Hl; [exact H1|]. now apply incl_appl.
    + apply H0 in H1 as [H1|H1]; [left; apply in_or_app; auto|]. right. eapply Hl; [exact H1|]. now apply incl_appr.
Qed.

Section Clean.
Variables (m : gomap disc) (P : json) (out0 : json) (dl : list string).
Hypotheses (Hr : raws m) (Hwf : wf_raws m) (Hnd : NoDup (map fst m)).
Hypotheses (HP : Res false (cof m) P out0 dl) (HN : NoDup dl) (Hkeys : forall k, In k (map fst m) -> In k dl).
Local Notation D := (cof m).

Lemma mget_key k (c : disc) : mget m k = Some c -> In k (map fst m).
Proof. intros H. apply mget_In in H. exact (in_map fst _ _ H). Qed.
Lemma cof_mget k c : mget m k = Some c -> D k = Some (content c) /\ disclosed_value (content c) = dc_value c.
Proof. intros H. unfold cof. rewrite H. split; [reflexivity|]. apply content_value. eauto. Qed.

Lemma owner e1 c1 e2 c2 x : mget m e1 = Some c1 -> mget m e2 = Some c2 ->
  In x (digests_in true (dc_value c1)) -> In x (digests_in true (dc_value c2)) -> e1 = e2.
Proof.
  intros H1 H2 X1 X2. destruct (Res_perm false D) as (Pm & _). pose proof (Pm _ _ _ HP) as Pm'.
  apply Permutation_NoDup in Pm'; [|assumption]. apply NoDup_app_r in Pm'.
  destruct (cof_mget _ _ H1) as [D1 V1], (cof_mget _ _ H2) as [D2 V2].
  apply (NoDup_flat_map_owner (occD false D) dl e1 e2 x Pm').
  - apply Hkeys. eapply mget_key; eauto.
  - apply Hkeys. eapply mget_key; eauto.
  - unfold occD. rewrite D1, V1. now apply digests_in_clean.
  - unfold occD. rewrite D2, V2. now apply digests_in_clean.
Qed.
Lemma clean_value k c : mget m k = Some c -> exists o ds, Res true D (dc_value c) o ds /\ NoDup ds.
Proof.
  intros H. destruct (cof_mget _ _ H) as [D1 V1].
  destruct (Res_sub false D) as (Hs & _). destruct (Hs _ _ _ HP k (content c)) as (o & ds & R & S); auto.
  { apply Hkeys. eapply mget_key; eauto. }
  destruct (Res_to_clean D) as (Hc & _). destruct (Hc _ _ _ R) as (o' & ds' & R' & S').
  rewrite V1 in R'. exists o', ds'. split; [assumption|]. eapply subcount_nodup; [exact S'|].
  eapply subcount_nodup in S; [|assumption]. now inversion S.
Qed.

Definition resolved (k : string) (c c' : disc) : Prop :=
  dc_str c' = dc_str c /\ dc_elems c' = dc_elems c /\ dc_name c' = dc_name c /\ dc_parsed c' = true /\
  exists ds, Res true D (dc_value c) (dc_value c') ds.
Record Good (st : rst) : Prop := {
  gd_keys : map fst (rs_discs st) = map fst m;
  gd_val : forall k c, mget m k = Some c -> exists c', mget (rs_discs st) k = Some c' /\ (c' = c \/ resolved k c c');
  gd_own : forall x, In x (rs_nested st) -> exists e c c', mget m e = Some c /\ mget (rs_discs st) e = Some c' /\
             dc_parsed c' = true /\ In x (digests_in true (dc_value c)) }.

Lemma cof_elem_inv d x : D d = Some (CElem x) -> exists c, mget m d = Some c /\ dc_elems c = 2%nat /\ dc_value c = x.
Proof.
  unfold cof. destruct (mget m d) as [c|]; [|discriminate]. simpl. unfold content. intros [= H].
  destruct (Nat.eqb_spec (dc_elems c) 2); [injection H as <-; eauto|]. destruct (Nat.eqb (dc_elems c) 3); discriminate.
Qed.
Lemma cof_member_inv d n x : D d = Some (CMember n x) ->
  exists c, mget m d = Some c /\ dc_elems c = 3%nat /\ dc_value c = x /\ dc_name c = n.
Proof.
  unfold cof. destruct (mget m d) as [c|]; [|discriminate]. simpl. unfold content. intros [= H].
  destruct (Nat.eqb_spec (dc_elems c) 2); [discriminate|]. destruct (Nat.eqb_spec (dc_elems c) 3); [|discriminate].
  injection H as <- <-. eauto.
Qed.
Lemma Good_none st d : Good st -> D d = None -> lk st d = None.
Proof.
  intros G H. unfold cof in H. destruct (mget m d) eqn:E; [discriminate|]. unfold lk.
  apply mget_None in E. rewrite <- (gd_keys _ G) in E. apply mget_None in E. now rewrite E.
Qed.

Lemma Res_W_good st : Good st ->
  (forall j out ds, Res true D j out ds -> exists ds', W true (lk st) j out ds' /\ subcount ds' ds) /\
  (forall l out ds, Elems true D l out ds -> exists ds', WE true (lk st) l out ds' /\ subcount ds' ds) /\
  (forall l out hid ds, Named true D l out hid ds -> exists ds', WN true (lk st) l out hid ds' /\ subcount ds' ds) /\
  (forall mm out ds, Members true D mm out ds -> exists ds', WM true (lk st) mm out ds' /\ subcount ds' ds).
Proof.
  intros G.
  assert (Hn : forall a, subcount [] a) by (intros a x; simpl; lia).
  assert (HV : forall c c' x' d ds1 ds1', mget m d = Some c -> c' = c \/ resolved d c c' ->
     Res true D (dc_value c) x' ds1 -> W true (lk st) (dc_value c) x' ds1' -> subcount ds1' ds1 ->
     exists ds', WV true (lk st) (dc_parsed c') (dc_value c') x' ds' /\ subcount ds' ds1).
  { intros c c' x' d ds1 ds1' Hc [->|Hres] R HW S.
    - destruct (Hr _ _ Hc) as [-> _]. exists ds1'. split; [now constructor|assumption].
    - destruct Hres as (_ & _ & _ & -> & dsr & Rr). destruct (Res_det _ _ _ _ _ _ _ R Rr) as [-> _].
      exists []. split; [constructor|auto]. }
  apply Res_mutind; intros.
  - exists []. split; [now constructor|]. intros x; reflexivity.
  - destruct H as (d & H & S). exists d. split; [now constructor|assumption].
  - destruct H as (d1 & H & S1), H0 as (d2 & H0 & S2). exists (d1 ++ d2)%list. split; [|now apply subcount_app].
    econstructor; eauto.
  - exists []. split; [constructor|]. intros x; reflexivity.
  - destruct H as (d & H & S). exists d. split; [now constructor|assumption].
  - destruct H as (d' & H & S). exists (d :: d'). split; [|now apply subcount_cons].
    exact (WE_hidden true (lk st) v d l out d' e (Good_none _ _ G e0) H).
  - destruct H as (d1 & H & S1), H0 as (d2 & H0 & S2).
    destruct (cof_elem_inv _ _ e0) as (c & Hc & E2 & <-). destruct (gd_val _ G _ _ Hc) as (c' & Hc' & Hor).
    destruct (HV _ _ _ _ _ _ Hc Hor r H S1) as (d1' & HWV & S1').
    assert (He : dc_elems c' = 2%nat) by (destruct Hor as [->|(_ & ? & _)]; congruence).
    exists (d :: d1' ++ d2)%list. split; [|apply subcount_cons; now apply subcount_app].
    eapply WE_disc; eauto. unfold lk. rewrite Hc'. unfold content. rewrite He. reflexivity.
  - exists []. split; [constructor|]. intros x; reflexivity.
  - destruct H as (d' & H & S). exists (d :: d'). split; [|now apply subcount_cons].
    apply WN_hidden; auto. now apply Good_none.
  - destruct H as (d1 & H & S1), H0 as (d2 & H0 & S2).
    destruct (cof_member_inv _ _ _ e) as (c & Hc & E3 & <- & <-). destruct (gd_val _ G _ _ Hc) as (c' & Hc' & Hor).
    destruct (HV _ _ _ _ _ _ Hc Hor r H S1) as (d1' & HWV & S1').
    assert (He : dc_elems c' = 3%nat /\ dc_name c' = dc_name c) by (destruct Hor as [->|(_ & ? & ? & _)]; [auto|split; congruence]).
    destruct He as [He Hen].
    exists (d :: d1' ++ d2)%list. split; [|apply subcount_cons; now apply subcount_app].
    eapply WN_disc; eauto. unfold lk. rewrite Hc'. unfold content. rewrite He, Hen. reflexivity.
  - exists []. split; [constructor|]. intros x; reflexivity.
  - destruct H as (d & H & S). exists d. split; [now apply WM_skip|assumption].
  - destruct H as (d1 & H & S1), H0 as (d2 & H0 & S2). exists (d1 ++ d2)%list. split; [|now apply subcount_app].
    now apply WM_keep.
Qed.

(** and back: what a walk in a good state computes is the resolution *)
Lemma W_good_Res st : Good st -> forall j out ds, W true (lk st) j out ds -> (exists o ds', Res true D j o ds') ->
  exists ds', Res true D j out ds'.
Proof.
  intros G j out ds HW (o & ds' & R). destruct (Res_W_good st G) as (H & _). destruct (H _ _ _ R) as (ds2 & HW2 & _).
  destruct (W_det true (lk st)) as (Hd & _). destruct (Hd _ _ _ HW _ _ HW2) as [-> _]. eauto.
Qed.

Definition fuel0 : nat := S (List.length m).
Lemma need_good st : Good st -> (need st <= List.length m)%nat.
Proof.
  intros G. unfold need. rewrite (gd_keys _ G).
  etransitivity; [apply (filter_len_le _ (fun _ => true)); auto|].
  rewrite <- (map_length fst m). clear. induction (map fst m); simpl; lia.
Qed.
Lemma wfst_good st : Good st -> wfst st.
Proof.
  intros G k c' Hk Hp. assert (Hin : In k (map fst m)).
  { rewrite <- (gd_keys _ G). apply mget_In in Hk. change k with (fst (k, c')). now apply in_map. }
  destruct (mget m k) as [c|] eqn:E; [|apply mget_None in E; tauto].
  destruct (gd_val _ G _ _ E) as (c2 & Hc2 & Hor). rewrite Hk in Hc2. injection Hc2 as <-.
  destruct Hor as [->|(_ & _ & _ & ? & _)]; [eauto|congruence].
Qed.

Lemma step_good st d c' : Good st -> mget (rs_discs st) d = Some c' ->
  exists v st', set_value (disclose true fuel0) d c' st = Ok (v, st') /\ Good st' /\
    (exists c2, mget (rs_discs st') d = Some c2 /\ dc_parsed c2 = true) /\
    (forall k c1, mget (rs_discs st) k = Some c1 -> dc_parsed c1 = true ->
       exists c2, mget (rs_discs st') k = Some c2 /\ dc_parsed c2 = true).
Proof.
  intros G Hd. unfold set_value. destruct (dc_parsed c') eqn:Pc'.
  { exists (dc_value c'), st. split; [reflexivity|]. split; [assumption|]. split; eauto. }
  assert (Hin : In d (map fst m)).
  { rewrite <- (gd_keys _ G). apply mget_In in Hd. change d with (fst (d, c')). now apply in_map. }
  destruct (mget m d) as [c|] eqn:E; [|apply mget_None in E; tauto].
  destruct (gd_val _ G _ _ E) as (c2 & Hc2 & Hor). rewrite Hd in Hc2. injection Hc2 as <-.
  destruct Hor as [->|(_ & _ & _ & ? & _)]; [|congruence].
  destruct (clean_value _ _ E) as (o & ds & R & Nds).
  destruct (Res_W_good st G) as (HRW & _). destruct (HRW _ _ _ R) as (ds' & HW & S).
  assert (Hfr : fresh (rs_nested st) ds').
  { split; [eapply subcount_nodup; eauto|]. intros x Hx Hn.
    destruct (gd_own _ G _ Hn) as (e & ce & ce' & He & He' & Pe & Oe).
    destruct (W_owner true (lk st)) as (Hown & _). destruct (Hown _ _ _ HW _ Hx) as [Ho|(e2 & c2 & He2 & Hl & Ho)].
    - assert (e = d) by (eapply owner; eauto). subst e. rewrite Hd in He'. congruence.
    - unfold lk in Hl. destruct (mget (rs_discs st) e2) as [ce2|] eqn:E2; [|discriminate]. injection Hl as Hpp Hcc.
      assert (Hin2 : In e2 (map fst m)).
      { rewrite <- (gd_keys _ G). apply mget_In in E2. exact (in_map fst _ _ E2). }
      destruct (mget m e2) as [cm|] eqn:Em; [|apply mget_None in Em; tauto].
      destruct (gd_val _ G _ _ Em) as (c3 & Hc3 & Hor3). rewrite E2 in Hc3. injection Hc3 as <-.
      destruct Hor3 as [->|(_ & _ & _ & ? & _)]; [|congruence].
      subst c2. rewrite content_value in Ho by eauto.
      assert (e = e2) by (eapply owner; eauto). subst e. congruence. }
  assert (HR : exists st1, disclose true fuel0 (dc_value c) st = Ok (o, st1)).
  { eapply (disclose_complete true (List.length m)); eauto.
    - now apply wfst_good.
    - now apply need_good. }
  destruct HR as (st1 & HR). rewrite HR. cbn [bind fst snd].
  apply disclose_sound in HR as (ds1 & HW1 & F1 & A).
  destruct (W_det true (lk st)) as (Hdet & _). destruct (Hdet _ _ _ HW _ _ HW1) as [_ ->]. clear HW1.
  destruct A as (N1 & K1 & HA).
  eexists _, _. split; [reflexivity|].
  set (cn := {| dc_str := _; dc_salt := _; dc_elems := _; dc_name := _; dc_value := o; dc_parsed := true |}).
  assert (Hk1 : map fst (mset (rs_discs st1) d cn) = map fst m).
  { rewrite <- (gd_keys _ G), <- K1. pose proof (HA d) as HAd. rewrite Hd in HAd.
    destruct (mget (rs_discs st1) d) as [cc|] eqn:Ed; [|tauto]. clear - Ed.
    induction (rs_discs st1) as [|[k' v'] l IH]; simpl in *; [discriminate|].
    destruct (String.eqb_spec d k'); simpl; [now subst|]. now rewrite IH. }
  assert (Hval : forall k ck, mget m k = Some ck ->
     exists ck', mget (mset (rs_discs st1) d cn) k = Some ck' /\ (ck' = ck \/ resolved k ck ck') /\
       (forall ck0, mget (rs_discs st) k = Some ck0 -> dc_parsed ck0 = true -> dc_parsed ck' = true) /\
       (In k ds' -> dc_parsed ck' = true)).
  { intros k ck Hk. rewrite mget_mset. destruct (String.eqb_spec k d) as [->|Hkd].
    - exists cn. rewrite E in Hk. injection Hk as <-. split; [reflexivity|]. split; [|auto].
      right. unfold resolved, cn. simpl. repeat split. eauto.
    - destruct (gd_val _ G _ _ Hk) as (ck0 & Hck0 & Hor0). specialize (HA k). rewrite Hck0 in HA.
      destruct (mget (rs_discs st1) k) as [ck1|]; [|tauto]. exists ck1. split; [reflexivity|].
      destruct HA as (Hs & _ & He & Hn & HA).
      destruct Hor0 as [->|Hres].
      + destruct (Hr _ _ Hk) as [Hpk _]. rewrite Hpk in HA. simpl in HA.
        destruct (str_in k ds') eqn:Ik.
        * destruct HA as (P1 & dsk & _ & HWk). split; [|auto]. right. repeat split; auto.
          apply W_good_Res in HWk; auto. destruct (clean_value _ _ Hk) as (? & ? & ? & _). eauto.
        * subst ck1. split; [auto|]. split; [intros c0 Hc0; rewrite Hck0 in Hc0; injection Hc0 as <-; auto|].
          intros Hi. apply str_in_In in Hi. congruence.
      + pose proof Hres as (_ & _ & _ & Hpk & _). rewrite Hpk in HA. simpl in HA. subst ck1. auto. }
  split; [|split].
  - constructor; simpl.
    + exact Hk1.
    + intros k ck Hk. destruct (Hval _ _ Hk) as (ck' & ? & ? & _). eauto.
    + intros x Hx. rewrite N1 in Hx. apply in_app_iff in Hx as [Hx|Hx].
      * destruct (gd_own _ G _ Hx) as (e & ce & ce' & He & He' & Pe & Oe).
        destruct (Hval _ _ He) as (ck' & Hck' & _ & Hmono & _). exists e, ce, ck'. repeat split; eauto.
      * destruct (W_owner true (lk st)) as (Hown & _). destruct (Hown _ _ _ HW _ Hx) as [Ho|(e2 & c2 & He2 & Hl & Ho)].
        -- exists d, c, cn. rewrite mget_mset, String.eqb_refl. auto.
        -- unfold lk in Hl. destruct (mget (rs_discs st) e2) as [ce2|] eqn:E2; [|discriminate]. injection Hl as Hpp Hcc.
           assert (Hin2 : In e2 (map fst m)).
           { rewrite <- (gd_keys _ G). apply mget_In in E2. exact (in_map fst _ _ E2). }
           destruct (mget m e2) as [cm|] eqn:Em; [|apply mget_None in Em; tauto].
           destruct (gd_val _ G _ _ Em) as (c3 & Hc3 & Hor3). rewrite E2 in Hc3. injection Hc3 as <-.
           destruct Hor3 as [->|(_ & _ & _ & ? & _)]; [|congruence].
           subst c2. rewrite content_value in Ho by eauto.
           destruct (Hval _ _ Em) as (ck' & Hck' & _ & _ & Hpar). exists e2, cm, ck'. auto.
  - simpl. rewrite mget_mset, String.eqb_refl. eauto.
  - intros k c1 Hk Hp. simpl.
    assert (Hink : In k (map fst m)).
    { rewrite <- (gd_keys _ G). apply mget_In in Hk. exact (in_map fst _ _ Hk). }
    destruct (mget m k) as [cm|] eqn:Em; [|apply mget_None in Em; tauto].
    destruct (Hval _ _ Em) as (ck' & Hck' & _ & Hmono & _). eauto.
Qed.

Lemma set_all_good : forall order st, Good st ->
  exists st', set_all fuel0 order st = Ok st' /\ Good st' /\
    (forall k c1, mget (rs_discs st) k = Some c1 -> dc_parsed c1 = true \/ In k order ->
       exists c2, mget (rs_discs st') k = Some c2 /\ dc_parsed c2 = true).
Proof.
  induction order as [|d o IH]; intros st G; cbn [set_all].
  - exists st. split; [reflexivity|]. split; [assumption|]. intros k c1 Hk [H|[]]. eauto.
  - destruct (mget (rs_discs st) d) as [c|] eqn:Ed.
    + destruct (step_good _ _ _ G Ed) as (v & st1 & -> & G1 & Hd1 & Hm1). simpl.
      destruct (IH _ G1) as (st' & -> & G' & H'). exists st'. split; [reflexivity|]. split; [assumption|].
      intros k c1 Hk Hor.
      assert (Hx : exists c2, mget (rs_discs st1) k = Some c2 /\ (dc_parsed c2 = true \/ In k o)).
      { destruct (String.string_dec d k) as [<-|Hne].
        - destruct Hd1 as (c2 & ? & ?). eauto.
        - destruct Hor as [Hp|[?|Hi]]; [destruct (Hm1 _ _ Hk Hp) as (c2 & ? & ?); eauto|tauto|].
          destruct (mget (rs_discs st1) k) as [c2|] eqn:E2; [eauto|]. exfalso.
          apply mget_None in E2. apply E2. rewrite (gd_keys _ G1), <- (gd_keys _ G).
          apply mget_In in Hk. exact (in_map fst _ _ Hk). }
      destruct Hx as (c2 & Hc2 & Hor2). eauto.
    + destruct (IH _ G) as (st' & -> & G' & H'). exists st'. split; [reflexivity|]. split; [assumption|].
      intros k c1 Hk [Hp|[<-|Hi]]; [eauto|congruence|eauto].
Qed.

Lemma Good_st0 : Good (st0 m).
Proof. constructor; simpl; [reflexivity| |tauto]. intros k c Hk. eauto. Qed.

(** after the loop every disclosure is resolved, and the payload can be disclosed *)
Theorem claims_after_verify order : incl (map fst m) order ->
  exists st', set_all fuel0 order (st0 m) = Ok st' /\
    map fst (rs_discs st') = map fst m /\
    (forall k c, mget m k = Some c -> exists c', mget (rs_discs st') k = Some c' /\ resolved k c c') /\
    forall out ds, wf_json P -> Res true D P out ds -> NoDup ds ->
      exists st2, disclose_top true P (st0 (rs_discs st')) = Ok (out, st2).
Proof.
  intros Hord. destruct (set_all_good order _ Good_st0) as (st' & E & G & Hp). exists st'.
  split; [assumption|]. split; [apply (gd_keys _ G)|].
  assert (Hall : forall k c, mget m k = Some c -> exists c', mget (rs_discs st') k = Some c' /\ resolved k c c').
  { intros k c Hk. destruct (gd_val _ G _ _ Hk) as (c' & Hc' & Hor). exists c'. split; [assumption|].
    destruct (Hp _ _ Hk) as (c2 & Hc2 & P2); [right; apply Hord; eapply mget_key; eauto|].
    rewrite Hc' in Hc2. injection Hc2 as <-. destruct Hor as [->|]; [|assumption].
    destruct (Hr _ _ Hk). congruence. }
  split; [assumption|]. intros out ds HwP R N.
  assert (G0 : Good (st0 (rs_discs st'))).
  { constructor; simpl; [apply (gd_keys _ G)|apply (gd_val _ G)|tauto]. }
  destruct (Res_W_good _ G0) as (HRW & _). destruct (HRW _ _ _ R) as (ds' & HW & S).
  unfold disclose_top. eapply disclose_complete; eauto.
  - now apply wfst_good.
  - simpl. etransitivity; [now apply need_good|]. rewrite <- (map_length fst m), <- (gd_keys _ G), map_length. lia.
  - simpl. split; [eapply subcount_nodup; eauto|easy].
Qed.
End Clean.
