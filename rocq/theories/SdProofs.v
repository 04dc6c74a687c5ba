(** Proofs about disclosure processing (SdModel.v): the recursive walk against the relation [Res]. *)
From Verif Require Import GoBase Base64 JwtSpec JwtModel SdSpec SdModel.

(** ** The walk: [Res] generalised to disclosures whose value has already been resolved. *)
Section W.
  Variables (clean : bool) (L : string -> option (bool * dcontent)).
  Inductive W : json -> json -> list string -> Prop :=
  | W_leaf j : (match j with JArr _ | JObj _ => False | _ => True end) -> W j j []
  | W_arr l out ds : WE l out ds -> W (JArr l) (arr_or_null out) ds
  | W_obj m sds named hidden ds1 mem ds2 :
      sd_list m = Some sds -> WN sds named hidden ds1 -> WM m mem ds2 ->
      NoDup (map fst named) ->
      (forall k, In k (map fst m) -> plain_key clean k = true -> ~ In k (map fst named)) ->
      W (JObj m) (JObj (with_hidden clean named hidden ++ mem)%list) (ds1 ++ ds2)%list
  with WE : list json -> list json -> list string -> Prop :=
  | WE_nil : WE [] [] []
  | WE_plain v l out ds : digest_elem v = None -> WE l out ds -> WE (v :: l) (v :: out) ds
  | WE_hidden v d l out ds : digest_elem v = Some (JStr d) -> L d = None -> WE l out ds ->
      WE (v :: l) (if clean then out else v :: out) (d :: ds)
  | WE_disc v d p x x' ds1 l out ds : digest_elem v = Some (JStr d) -> L d = Some (p, CElem x) ->
      WV p x x' ds1 -> WE l out ds -> WE (v :: l) (x' :: out) (d :: ds1 ++ ds)%list
  with WN : list string -> list (string * json) -> list string -> list string -> Prop :=
  | WN_nil : WN [] [] [] []
  | WN_hidden d l out hid ds : L d = None -> WN l out hid ds -> WN (d :: l) out (d :: hid) (d :: ds)
  | WN_disc d n p x x' ds1 l out hid ds : L d = Some (p, CMember n x) -> WV p x x' ds1 -> WN l out hid ds ->
      WN (d :: l) ((n, x') :: out) hid (d :: ds1 ++ ds)%list
  with WM : list (string * json) -> list (string * json) -> list string -> Prop :=
  | WM_nil : WM [] [] []
  | WM_skip k v m out ds : plain_key clean k = false -> WM m out ds -> WM ((k, v) :: m) out ds
  | WM_keep k v v' m out ds1 ds : plain_key clean k = true -> W v v' ds1 -> WM m out ds ->
      WM ((k, v) :: m) (match v' with JNull => out | _ => (k, v') :: out end) (ds1 ++ ds)%list
  with WV : bool -> json -> json -> list string -> Prop :=
  | WV_done x : WV true x x []
  | WV_do x x' ds : W x x' ds -> WV false x x' ds.
End W.
Scheme W_mind := Induction for W Sort Prop
  with WE_mind := Induction for WE Sort Prop
  with WN_mind := Induction for WN Sort Prop
  with WM_mind := Induction for WM Sort Prop
  with WV_mind := Induction for WV Sort Prop.
Combined Scheme W_mutind from W_mind, WE_mind, WN_mind, WM_mind, WV_mind.
Scheme Res_mind := Induction for Res Sort Prop
  with Elems_mind := Induction for Elems Sort Prop
  with Named_mind := Induction for Named Sort Prop
  with Members_mind := Induction for Members Sort Prop.
Combined Scheme Res_mutind from Res_mind, Elems_mind, Named_mind, Members_mind.

Definition fresh_L (D : string -> option dcontent) (d : string) : option (bool * dcontent) :=
  match D d with Some c => Some (false, c) | None => None end.

Lemma Res_W clean D :
  (forall j out ds, Res clean D j out ds -> W clean (fresh_L D) j out ds) /\
  (forall l out ds, Elems clean D l out ds -> WE clean (fresh_L D) l out ds) /\
  (forall l out hid ds, Named clean D l out hid ds -> WN clean (fresh_L D) l out hid ds) /\
  (forall m out ds, Members clean D m out ds -> WM clean (fresh_L D) m out ds).
Proof.
  apply Res_mutind; intros; try (econstructor; eassumption); try (constructor; fail).
  - apply WE_hidden; auto. unfold fresh_L. now rewrite e0.
  - eapply WE_disc; eauto. unfold fresh_L. rewrite e0; reflexivity. now constructor.
  - apply WN_hidden; auto. unfold fresh_L. now rewrite e.
  - eapply WN_disc; eauto. unfold fresh_L. rewrite e; reflexivity. now constructor.
Qed.
Lemma W_Res clean D :
  (forall j out ds, W clean (fresh_L D) j out ds -> Res clean D j out ds) /\
  (forall l out ds, WE clean (fresh_L D) l out ds -> Elems clean D l out ds) /\
  (forall l out hid ds, WN clean (fresh_L D) l out hid ds -> Named clean D l out hid ds) /\
  (forall m out ds, WM clean (fresh_L D) m out ds -> Members clean D m out ds) /\
  (forall p x x' ds, WV clean (fresh_L D) p x x' ds -> p = false -> Res clean D x x' ds).
Proof.
  apply W_mutind; intros; try (econstructor; eassumption); try (constructor; fail); try discriminate; auto.
  - apply El_hidden; auto. unfold fresh_L in e0. destruct (D d); congruence.
  - unfold fresh_L in e0. destruct (D d) eqn:E; [|discriminate]. injection e0 as <- ->.
    eapply El_disclosed; eauto.
  - apply Nm_hidden; auto. unfold fresh_L in e. destruct (D d); congruence.
  - unfold fresh_L in e. destruct (D d) eqn:E; [|discriminate]. injection e as <- ->.
    eapply Nm_disclosed; eauto.
Qed.

(** Extensionality: only lookups of the listed digests matter. *)
Lemma W_ext clean L L' :
  (forall j out ds, W clean L j out ds -> (forall d, In d ds -> L d = L' d) -> W clean L' j out ds) /\
  (forall l out ds, WE clean L l out ds -> (forall d, In d ds -> L d = L' d) -> WE clean L' l out ds) /\
  (forall l out hid ds, WN clean L l out hid ds -> (forall d, In d ds -> L d = L' d) -> WN clean L' l out hid ds) /\
  (forall m out ds, WM clean L m out ds -> (forall d, In d ds -> L d = L' d) -> WM clean L' m out ds) /\
  (forall p x x' ds, WV clean L p x x' ds -> (forall d, In d ds -> L d = L' d) -> WV clean L' p x x' ds).
Proof.
  apply W_mutind; intros; try (constructor; fail).
  - constructor; auto.
  - constructor; auto.
  - econstructor; eauto; [apply H | apply H0]; intros; apply H1; apply in_or_app; auto.
  - constructor; auto.
  - apply WE_hidden; auto. rewrite <- H0; simpl; auto. apply H. intros; apply H0; simpl; auto.
  - eapply WE_disc; [exact e| | |].
    + rewrite <- H1; [exact e0|simpl; auto].
    + apply H. intros; apply H1; simpl. right. apply in_or_app; auto.
    + apply H0. intros; apply H1; simpl. right. apply in_or_app; auto.
  - apply WN_hidden; auto. rewrite <- H0; simpl; auto. apply H. intros; apply H0; simpl; auto.
  - eapply WN_disc.
    + rewrite <- H1; [exact e|simpl; auto].
    + apply H. intros; apply H1; simpl. right. apply in_or_app; auto.
    + apply H0. intros; apply H1; simpl. right. apply in_or_app; auto.
  - constructor; auto.
  - apply WM_keep; auto; [apply H | apply H0]; intros; apply H1; apply in_or_app; auto.
  - constructor. auto.
Qed.

Ltac same_eqs := repeat match goal with
  | A : ?x = Some _, B : ?x = Some _ |- _ => rewrite A in B; injection B; clear B; intros; subst
  end.
(** The walk is a function. *)
Lemma W_det clean L :
  (forall j out ds, W clean L j out ds -> forall out' ds', W clean L j out' ds' -> out' = out /\ ds' = ds) /\
  (forall l out ds, WE clean L l out ds -> forall out' ds', WE clean L l out' ds' -> out' = out /\ ds' = ds) /\
  (forall l out hid ds, WN clean L l out hid ds ->
     forall out' hid' ds', WN clean L l out' hid' ds' -> out' = out /\ hid' = hid /\ ds' = ds) /\
  (forall m out ds, WM clean L m out ds -> forall out' ds', WM clean L m out' ds' -> out' = out /\ ds' = ds) /\
  (forall p x x' ds, WV clean L p x x' ds -> forall y ds', WV clean L p x y ds' -> y = x' /\ ds' = ds).
Proof.
  apply W_mutind; intros.
  - inversion H; subst; try tauto; auto.
  - inversion H0; subst; [tauto|]. match goal with K : WE _ _ _ _ _ |- _ => destruct (H _ _ K) as [-> ->] end. auto.
  - inversion H1; subst; [tauto|].
    match goal with K : sd_list m = _ |- _ => rewrite e in K; injection K as <- end.
    match goal with K : WN _ _ _ _ _ _ |- _ => destruct (H _ _ _ K) as (-> & -> & ->) end.
    match goal with K : WM _ _ _ _ _ |- _ => destruct (H0 _ _ K) as [-> ->] end. auto.
  - inversion H; auto.
  - inversion H0; subst; try congruence.
    match goal with K : WE _ _ _ _ _ |- _ => destruct (H _ _ K) as [-> ->] end. auto.
  - inversion H0; subst; try congruence. same_eqs.
    match goal with K : WE _ _ _ _ _ |- _ => destruct (H _ _ K) as [-> ->] end. auto.
  - inversion H1; subst; try congruence; same_eqs; try congruence.
    match goal with K : WE _ _ _ _ _ |- _ => destruct (H0 _ _ K) as [-> ->] end.
    match goal with K : WV _ _ _ _ _ _ |- _ => destruct (H _ _ K) as [-> ->] end. auto.
  - inversion H; auto.
  - inversion H0; subst; try congruence.
    match goal with K : WN _ _ _ _ _ _ |- _ => destruct (H _ _ _ K) as (-> & -> & ->) end. auto.
  - inversion H1; subst; try congruence. same_eqs.
    match goal with K : WV _ _ _ _ _ _ |- _ => destruct (H _ _ K) as [-> ->] end.
    match goal with K : WN _ _ _ _ _ _ |- _ => destruct (H0 _ _ _ K) as (-> & -> & ->) end. auto.
  - inversion H; auto.
  - inversion H0; subst; try congruence. match goal with K : WM _ _ _ _ _ |- _ => apply H in K end. auto.
  - inversion H1; subst; try congruence.
    match goal with K : W _ _ _ _ _ |- _ => destruct (H _ _ K) as [-> ->] end.
    match goal with K : WM _ _ _ _ _ |- _ => destruct (H0 _ _ K) as [-> ->] end. auto.
  - inversion H; auto.
  - inversion H0; subst. auto.
Qed.

(** ** States *)
Definition content (c : disc) : dcontent :=
  if Nat.eqb (dc_elems c) 2 then CElem (dc_value c)
  else if Nat.eqb (dc_elems c) 3 then CMember (dc_name c) (dc_value c) else COther.
Definition lk (st : rst) (d : string) : option (bool * dcontent) :=
  match mget (rs_discs st) d with Some c => Some (dc_parsed c, content c) | None => None end.

Definition fresh (n ds : list string) : Prop := NoDup ds /\ forall x, In x ds -> ~ In x n.

Section Run.
Variable clean : bool.

Definition after1 (st : rst) (ds : list string) (k : string) (c c' : disc) : Prop :=
  dc_str c' = dc_str c /\ dc_salt c' = dc_salt c /\ dc_elems c' = dc_elems c /\ dc_name c' = dc_name c /\
  if negb (dc_parsed c) && str_in k ds
  then dc_parsed c' = true /\ exists ds', incl ds' ds /\ W clean (lk st) (dc_value c) (dc_value c') ds'
  else c' = c.
Definition After (st : rst) (ds : list string) (st' : rst) : Prop :=
  rs_nested st' = (rs_nested st ++ ds)%list /\
  map fst (rs_discs st') = map fst (rs_discs st) /\
  forall k, match mget (rs_discs st) k, mget (rs_discs st') k with
            | None, None => True
            | Some c, Some c' => after1 st ds k c c'
            | _, _ => False
            end.

Lemma after1_same st ds k c : str_in k ds = false \/ dc_parsed c = true -> after1 st ds k c c.
Proof.
  intros H. unfold after1. repeat split.
  destruct H as [-> | ->]; simpl; rewrite ?andb_false_r; reflexivity.
Qed.
Lemma After_refl st : After st [] st.
Proof.
  split; [now rewrite app_nil_r|]. split; [reflexivity|]. intros k.
  destruct (mget (rs_discs st) k); [|exact I]. apply after1_same. now left.
Qed.
Lemma After_lk st ds st' d : After st ds st' -> ~ In d ds -> lk st' d = lk st d.
Proof.
  intros (_ & _ & H) Hd. unfold lk. specialize (H d).
  destruct (mget (rs_discs st) d), (mget (rs_discs st') d); try tauto.
  destruct H as (_ & _ & _ & _ & H).
  apply str_in_nIn in Hd. rewrite Hd, andb_false_r in H. now rewrite H.
Qed.
Lemma str_in_app k a b : str_in k (a ++ b)%list = str_in k a || str_in k b.
Proof. induction a; simpl; [reflexivity|]. now rewrite IHa, orb_assoc. Qed.

Lemma After_trans st d1 st1 d2 st2 :
  After st d1 st1 -> After st1 d2 st2 -> (forall x, In x d2 -> ~ In x d1) -> After st (d1 ++ d2)%list st2.
Proof.
  intros A1 A2 Hdis.
  destruct A1 as (N1 & K1 & H1) eqn:EA. destruct A2 as (N2 & K2 & H2).
  split; [rewrite N2, N1; now rewrite app_assoc|]. split; [congruence|].
  intros k. specialize (H1 k) as H1k. specialize (H2 k).
  destruct (mget (rs_discs st) k) as [c|]; destruct (mget (rs_discs st1) k) as [c1|];
    destruct (mget (rs_discs st2) k) as [c2|]; try tauto.
  destruct H1k as (? & ? & ? & ? & B1), H2 as (? & ? & ? & ? & B2).
  split; [congruence|]. split; [congruence|]. split; [congruence|]. split; [congruence|].
  rewrite str_in_app.
  destruct (dc_parsed c) eqn:Pc; simpl in *.
  - subst c1. rewrite Pc in B2. simpl in B2. congruence.
  - destruct (str_in k d1) eqn:Ik; simpl in *.
    + destruct B1 as (P1 & ds' & I1 & W1).
      rewrite P1 in B2. simpl in B2. subst c2.
      split; [assumption|]. exists ds'. split; [intros x Hx; apply in_or_app; auto|assumption].
    + subst c1. rewrite Pc in B2. simpl in B2. destruct (str_in k d2); [|assumption].
      destruct B2 as (P2 & ds' & I2 & W2). split; [assumption|].
      exists ds'. split; [intros x Hx; apply in_or_app; auto|].
      eapply W_ext; [exact W2|]. intros d Hd. eapply After_lk; eauto.
Qed.

Lemma fresh_app n d1 d2 : fresh n d1 -> fresh (n ++ d1)%list d2 ->
  fresh n (d1 ++ d2)%list /\ (forall x, In x d2 -> ~ In x d1).
Proof.
  intros [N1 F1] [N2 F2]. split; [split|].
  - clear F1. induction d1 as [|a d1 IH]; [assumption|]. inversion N1; subst. simpl. constructor.
    + rewrite in_app_iff. intros [?|Hin]; [tauto|]. apply F2 in Hin. apply Hin, in_or_app. right; simpl; auto.
    + apply IH; [assumption|]. intros x Hx Hin. apply (F2 x Hx). apply in_app_iff in Hin. apply in_or_app. simpl. tauto.
  - intros x Hx Hin. apply in_app_iff in Hx as [Hx|Hx]; [now apply (F1 x)|]. apply (F2 x Hx). apply in_or_app; auto.
  - intros x Hx Hin. apply (F2 x Hx). apply in_or_app; auto.
Qed.
Lemma fresh_app_inv n d1 d2 : fresh n (d1 ++ d2)%list ->
  fresh n d1 /\ fresh (n ++ d1)%list d2 /\ (forall x, In x d2 -> ~ In x d1).
Proof.
  intros [N F].
  assert (Hdis : forall x, In x d2 -> ~ In x d1).
  { intros x H2 H1. clear F. induction d1 as [|a d1 IH]; [easy|]. simpl in N. inversion N; subst.
    destruct H1 as [->|H1]; [|auto]. apply H3. apply in_or_app; auto. }
  split; [split|split; [split|exact Hdis]].
  - clear F Hdis. induction d1; [constructor|]. simpl in N; inversion N; subst. constructor; [|auto].
    intros Hx. apply H1. apply in_or_app; auto.
  - intros x Hx. apply F. apply in_or_app; auto.
  - clear F Hdis. induction d1; [assumption|]. simpl in N; inversion N; subst. auto.
  - intros x Hx Hin. apply in_app_iff in Hin as [Hin|Hin]; [|now apply (Hdis x)].
    apply (F x); [apply in_or_app; auto|assumption].
Qed.
Lemma fresh_nil n : fresh n [].
Proof. split; [constructor|easy]. Qed.

(** One step that pushes the digest [d], found undisclosed. *)
Lemma After_push d st : mget (rs_discs st) d = None -> After st [d] (push d st).
Proof.
  intros H. split; [reflexivity|]. split; [reflexivity|]. intros k. simpl.
  destruct (mget (rs_discs st) k) eqn:E; [|exact I]. apply after1_same. left.
  simpl. rewrite orb_false_r. apply String.eqb_neq. congruence.
Qed.
Lemma fresh_one n d : str_in d n = false -> fresh n [d].
Proof.
  intros H. split; [repeat constructor; easy|]. intros x [<-|[]]. now apply str_in_nIn.
Qed.

(** ** Soundness *)
Definition SoundV (setv : string -> disc -> rst -> res (json * rst)) : Prop :=
  forall d c st v st', mget (rs_discs st) d = Some c -> str_in d (rs_nested st) = false ->
    setv d c (push d st) = Ok (v, st') ->
    exists ds, WV clean (lk st) (dc_parsed c) (dc_value c) v ds /\ fresh (rs_nested st) (d :: ds) /\
               After st (d :: ds) st'.
Definition Sound (r : json -> rst -> res (json * rst)) (j : json) : Prop :=
  forall st out st', r j st = Ok (out, st') ->
    exists ds, W clean (lk st) j out ds /\ fresh (rs_nested st) ds /\ After st ds st'.

Section SoundDcv.
Variable setv : string -> disc -> rst -> res (json * rst).
Hypothesis HV : SoundV setv.

(** transporting the second part of a sequence back to the first state *)
Lemma back_W st d1 st1 d2 :
  After st d1 st1 -> fresh (rs_nested st) d1 -> fresh (rs_nested st1) d2 ->
  fresh (rs_nested st) (d1 ++ d2)%list /\ (forall x, In x d2 -> ~ In x d1) /\
  (forall x, In x d2 -> lk st1 x = lk st x).
Proof.
  intros A F1 F2. destruct A as (N & K & HA) eqn:EA. rewrite N in F2.
  destruct (fresh_app _ _ _ F1 F2) as [F Hdis]. split; [assumption|]. split; [assumption|].
  intros x Hx. eapply After_lk; eauto.
Qed.

Lemma elems_sound : forall l st out st', elems_loop clean setv l st = Ok (out, st') ->
  exists ds, WE clean (lk st) l out ds /\ fresh (rs_nested st) ds /\ After st ds st'.
Proof.
  induction l as [|v l IH]; intros st out st' H; simpl in H.
  - injection H as <- <-. exists []. split; [constructor|]. split; [apply fresh_nil|apply After_refl].
  - apply bind_ok in H as ([o st1] & H1 & H). apply bind_ok in H as ([os st2] & H2 & H).
    injection H as <- <-. simpl fst in *; simpl snd in *.
    apply IH in H2 as (ds2 & W2 & F2 & A2).
    unfold elem_step in H1. destruct (digest_elem v) as [[| | |d| |]|] eqn:Ev; try discriminate.
    + destruct (str_in d (rs_nested st)) eqn:Id; [discriminate|].
      simpl in H1. destruct (mget (rs_discs st) d) as [c|] eqn:Ed.
      * destruct (Nat.eqb_spec (dc_elems c) 2) as [E2|]; [|discriminate]. simpl in H1.
        apply bind_ok in H1 as ([x st1'] & H1 & HH). injection HH as <- <-.
        destruct (HV _ _ _ _ _ Ed Id H1) as (ds1 & W1 & F1 & A1).
        destruct (back_W _ _ _ _ A1 F1 F2) as (F & Hdis & Hlk).
        exists (d :: ds1 ++ ds2)%list. split; [|split; [exact F|]].
        -- eapply WE_disc; eauto.
           ++ unfold lk. rewrite Ed. unfold content. now rewrite E2.
           ++ eapply W_ext; [exact W2|]. exact Hlk.
        -- change (d :: ds1 ++ ds2)%list with ((d :: ds1) ++ ds2)%list. eapply After_trans; eauto.
      * injection H1 as <- <-.
        pose proof (After_push _ _ Ed) as A1. pose proof (fresh_one _ _ Id) as F1.
        destruct (back_W _ _ _ _ A1 F1 F2) as (F & Hdis & Hlk).
        exists (d :: ds2)%list. split; [|split; [exact F|]].
        -- replace ((if clean then [] else [v]) ++ os)%list with (if clean then os else v :: os) by (now destruct clean).
           apply WE_hidden; auto. unfold lk. now rewrite Ed.
        -- change (d :: ds2) with ([d] ++ ds2)%list. eapply After_trans; eauto.
    + injection H1 as <- <-. exists ds2. split; [|auto]. now constructor.
Qed.

Lemma mset_new {V} (m : gomap V) k v : mhas m k = false -> mset m k v = (m ++ [(k, v)])%list.
Proof.
  unfold mhas. induction m as [|[k' v'] m IH]; simpl; [reflexivity|].
  destruct (String.eqb k k'); [discriminate|]. intros H. now rewrite IH.
Qed.
Lemma mhas_false {V} (m : gomap V) k : mhas m k = false <-> ~ In k (map fst m).
Proof. unfold mhas. rewrite <- mget_None. destruct (mget m k); split; congruence. Qed.

Lemma sds_sound : forall l acc miss st acc' miss' st', sds_loop setv l acc miss st = Ok (acc', miss', st') ->
  NoDup (map fst acc) ->
  exists named hid ds, WN clean (lk st) l named hid ds /\ fresh (rs_nested st) ds /\ After st ds st' /\
    acc' = (acc ++ named)%list /\ miss' = (miss ++ hid)%list /\ NoDup (map fst acc').
Proof.
  induction l as [|d l IH]; intros acc miss st acc' miss' st' H Hnd; simpl in H.
  - injection H as <- <- <-. exists [], [], []. rewrite !app_nil_r.
    split; [constructor|]. split; [apply fresh_nil|]. split; [apply After_refl|auto].
  - destruct (str_in d (rs_nested st)) eqn:Id; [discriminate|].
    destruct (mget (rs_discs st) d) as [c|] eqn:Ed.
    + destruct (Nat.eqb_spec (dc_elems c) 3) as [E3|]; [|discriminate]. simpl in H.
      apply bind_ok in H as ([x st1] & H1 & H). simpl in H.
      destruct (HV _ _ _ _ _ Ed Id H1) as (ds1 & W1 & F1 & A1).
      destruct (mhas acc (dc_name c)) eqn:Hm; [discriminate|].
      apply IH in H as (named & hid & ds2 & W2 & F2 & A2 & -> & -> & Hnd'); [|now apply mset_nodup].
      destruct (back_W _ _ _ _ A1 F1 F2) as (F & Hdis & Hlk).
      exists ((dc_name c, x) :: named), hid, (d :: ds1 ++ ds2)%list.
      rewrite mset_new, <- app_assoc in * by assumption.
      split; [|split; [exact F|]; split; [|auto]].
      * eapply WN_disc; eauto. { unfold lk. rewrite Ed. unfold content. now rewrite E3. }
        eapply W_ext; [exact W2|]. exact Hlk.
      * change (d :: ds1 ++ ds2)%list with ((d :: ds1) ++ ds2)%list. eapply After_trans; eauto.
    + apply IH in H as (named & hid & ds2 & W2 & F2 & A2 & -> & -> & Hnd'); [|assumption].
      pose proof (After_push _ _ Ed) as A1. pose proof (fresh_one _ _ Id) as F1.
      destruct (back_W _ _ _ _ A1 F1 F2) as (F & Hdis & Hlk).
      exists named, (d :: hid), (d :: ds2). split; [|split; [exact F|]; split; [|split; [reflexivity|split; [|assumption]]]].
      * apply WN_hidden; auto. unfold lk. now rewrite Ed.
      * change (d :: ds2) with ([d] ++ ds2)%list. eapply After_trans; eauto.
      * now rewrite <- app_assoc.
Qed.

Lemma sd_part_sound m st acc st1 : sd_part clean setv m st = Ok (acc, st1) ->
  exists sds named hid ds, sd_list m = Some sds /\ WN clean (lk st) sds named hid ds /\
    fresh (rs_nested st) ds /\ After st ds st1 /\ acc = with_hidden clean named hid /\ NoDup (map fst named).
Proof.
  unfold sd_part, sd_list. destruct (mget m "_sd") as [x|] eqn:E.
  - intros H. apply bind_ok in H as (sds & H1 & H).
    apply bind_ok in H as ([[a miss] st2] & H2 & H). simpl in H. injection H as <- <-.
    apply sds_sound in H2 as (named & hid & ds & W2 & F & A & -> & -> & Hnd); [|constructor].
    exists sds, named, hid, ds. simpl in *.
    split; [|split; [assumption|]; split; [assumption|]; split; [assumption|]; split; [|assumption]].
    + destruct x; try discriminate; simpl in H1; [congruence|]. destruct (all_strings l); congruence.
    + unfold with_hidden. destruct clean; [reflexivity|]. now destruct hid.
  - intros [= <- <-]. exists [], [], [], []. repeat split; try constructor; try easy.
    + now rewrite app_nil_r.
    + apply After_refl.
    + unfold with_hidden. now destruct clean.
Qed.

Lemma plain_key_model k : plain_key clean k =
  negb (String.eqb k "_sd") && negb (String.eqb k "_sd_alg" && clean).
Proof. unfold plain_key. now rewrite (andb_comm clean). Qed.

Lemma members_sound f : forall m, Forall (fun kv => Sound f (snd kv)) m ->
  forall acc st out st', members_loop clean f m acc st = Ok (out, st') ->
  exists mem ds, WM clean (lk st) m mem ds /\ fresh (rs_nested st) ds /\ After st ds st' /\
    out = JObj (acc ++ mem)%list /\
    (forall k, In k (map fst m) -> plain_key clean k = true -> ~ In k (map fst acc)).
Proof.
  induction 1 as [|[k v] m Hv _ IH]; intros acc st out st' H; simpl in H.
  - injection H as <- <-. exists [], []. rewrite app_nil_r.
    split; [constructor|]. split; [apply fresh_nil|]. split; [apply After_refl|]. split; [reflexivity|easy].
  - assert (Hp := plain_key_model k).
    destruct (String.eqb_spec k "_sd") as [->|Hk]; simpl in Hp.
    { apply IH in H as (mem & ds & Wm & F & A & -> & Hn). exists mem, ds.
      split; [now constructor|]. split; [assumption|]. split; [assumption|]. split; [reflexivity|].
      intros k' [<-|Hin]; [simpl; congruence|auto]. }
    destruct (String.eqb k "_sd_alg" && clean) eqn:Ek; simpl in Hp.
    { apply IH in H as (mem & ds & Wm & F & A & -> & Hn). exists mem, ds.
      split; [now constructor|]. split; [assumption|]. split; [assumption|]. split; [reflexivity|].
      intros k' [<-|Hin]; [simpl; congruence|auto]. }
    apply bind_ok in H as ([v' st1] & H1 & H). simpl in H.
    apply Hv in H1 as (ds1 & W1 & F1 & A1).
    destruct (mhas acc k) eqn:Hm; [discriminate|].
    apply IH in H as (mem & ds2 & W2 & F2 & A2 & -> & Hn).
    destruct (back_W _ _ _ _ A1 F1 F2) as (F & Hdis & Hlk).
    exists (match v' with JNull => mem | _ => (k, v') :: mem end), (ds1 ++ ds2)%list.
    split; [|split; [exact F|]; split; [|split]].
    + apply WM_keep; auto. eapply W_ext; [exact W2|]. exact Hlk.
    + eapply After_trans; eauto.
    + apply mhas_false in Hm. pose proof (mset_new acc k v') as Hms. rewrite mhas_false in Hms. specialize (Hms Hm). destruct v'; try reflexivity; rewrite Hms; now rewrite <- app_assoc.
    + apply mhas_false in Hm. simpl. intros k' [<-|Hin] Hk'; [assumption|].
      specialize (Hn k' Hin Hk'). destruct v'; try assumption;
        intros Hi; apply Hn; rewrite mset_keys; auto.
Qed.

Lemma with_hidden_keys named hid k : In k (map fst named) -> In k (map fst (with_hidden clean named hid)).
Proof.
  unfold with_hidden. destruct clean; [easy|]. destruct hid; [easy|]. rewrite mset_keys. auto.
Qed.

Lemma dcv_sound j : Sound (dcv clean setv) j.
Proof.
  induction j using json_ind'; intros st out st' Hr;
    try (simpl in Hr; injection Hr as <- <-; exists []; split; [now constructor|];
         split; [apply fresh_nil|apply After_refl]).
  - simpl in Hr. apply bind_ok in Hr as ([os st1] & H1 & Hr). injection Hr as <- <-.
    apply elems_sound in H1 as (ds & WE1 & F & A). exists ds. split; [now constructor|auto].
  - simpl in Hr. apply bind_ok in Hr as ([acc st1] & H1 & Hr). simpl in Hr.
    apply sd_part_sound in H1 as (sds & named & hid & ds1 & Hsd & W1 & F1 & A1 & -> & Hnd).
    change (members_loop clean (dcv clean setv) m (with_hidden clean named hid) st1 = Ok (out, st')) in Hr.
    apply members_sound in Hr as (mem & ds2 & W2 & F2 & A2 & -> & Hn); [|exact H].
    destruct (back_W _ _ _ _ A1 F1 F2) as (F & Hdis & Hlk).
    exists (ds1 ++ ds2)%list. split; [|split; [exact F|eapply After_trans; eauto]].
    econstructor; eauto.
    + eapply W_ext; [exact W2|]. exact Hlk.
    + intros k Hk Hp Hi. apply (Hn k Hk Hp). now apply with_hidden_keys.
Qed.
End SoundDcv.

Lemma set_value_sound rec : (forall j, Sound rec j) -> SoundV (set_value rec).
Proof.
  intros Hrec d c st v st' Hd Hn H. unfold set_value in H.
  destruct (dc_parsed c) eqn:Pc.
  - injection H as <- <-. exists []. split; [constructor|]. split; [now apply fresh_one|].
    split; [reflexivity|]. split; [reflexivity|]. intros k. simpl.
    destruct (mget (rs_discs st) k) eqn:E; [|exact I]. apply after1_same. simpl. rewrite orb_false_r.
    destruct (String.eqb_spec k d) as [->|]; [right; congruence|now left].
  - apply bind_ok in H as ([v1 st1] & H1 & H). injection H as <- <-. simpl.
    apply Hrec in H1 as (ds & W1 & F1 & A1). simpl in F1.
    exists ds. split; [now constructor|].
    assert (F : fresh (rs_nested st) ([d] ++ ds)%list /\ (forall x, In x ds -> ~ In x [d])).
    { apply fresh_app; [now apply fresh_one|exact F1]. }
    destruct F as [F Hdis]. split; [exact F|].
    assert (Hnd : ~ In d ds) by (intros Hi; apply (Hdis d Hi); simpl; auto).
    destruct A1 as (N1 & K1 & H1). split; [|split].
    + simpl. rewrite N1. simpl. now rewrite <- app_assoc.
    + simpl. simpl in K1. rewrite <- K1.
      clear - Hd H1. specialize (H1 d). simpl in H1; rewrite Hd in H1.
      destruct (mget (rs_discs st1) d) as [c1|] eqn:E; [clear H1|tauto].
      induction (rs_discs st1) as [|[k' c'] l IH]; simpl in *; [discriminate|].
      destruct (String.eqb_spec d k'); simpl; [now subst|]. now rewrite IH.
    + intros k. simpl. rewrite mget_mset. specialize (H1 k). simpl in H1.
      destruct (String.eqb_spec k d) as [->|Hkd].
      * rewrite Hd. unfold after1. simpl. rewrite Pc, String.eqb_refl. simpl. repeat split; auto.
        exists ds. split; [now right|assumption].
      * destruct (mget (rs_discs st) k), (mget (rs_discs st1) k); try tauto.
        destruct H1 as (? & ? & ? & ? & H1). unfold after1. simpl.
        apply String.eqb_neq in Hkd. rewrite Hkd. simpl. repeat split; auto.
        destruct (negb (dc_parsed d0) && str_in k ds); [|assumption].
        destruct H1 as (? & ds' & I' & W'). split; [assumption|]. exists ds'. split; [now right; apply I'|exact W'].
Qed.

Theorem disclose_sound fuel : forall j, Sound (disclose clean fuel) j.
Proof.
  induction fuel as [|f IH]; intros j; [intros ? ? ? H; discriminate|].
  simpl. intros st out st'. apply dcv_sound. now apply set_value_sound.
Qed.
End Run.

Lemma wf_arr l : wf_json (JArr l) <-> Forall wf_json l.
Proof. simpl. induction l; split; intros H; try constructor; try tauto; inversion H; subst; try tauto. Qed.
Lemma wf_obj m : wf_json (JObj m) <-> NoDup (map fst m) /\ Forall (fun kv => wf_json (snd kv)) m.
Proof.
  simpl. cut ((fix go (m0 : list (string * json)) : Prop :=
    match m0 with [] => True | x :: xs => wf_json (snd x) /\ go xs end) m <-> Forall (fun kv => wf_json (snd kv)) m).
  { tauto. }
  induction m as [|x m IH]; split; intros H; try constructor; try tauto; inversion H; subst; try tauto.
Qed.

(** ** Completeness *)
Definition wfst (st : rst) : Prop :=
  forall k c, mget (rs_discs st) k = Some c -> dc_parsed c = false -> wf_json (dc_value c).
Definition need (st : rst) : nat :=
  List.length (filter (fun k => negb (str_in k (rs_nested st))) (map fst (rs_discs st))).

Lemma After_wfst clean st ds st' : After clean st ds st' -> wfst st -> wfst st'.
Proof.
  intros (_ & _ & H) Hw k c' Hk Hp. specialize (H k). rewrite Hk in H.
  destruct (mget (rs_discs st) k) as [c|] eqn:E; [|tauto]. destruct H as (_ & _ & _ & _ & H).
  destruct (negb (dc_parsed c) && str_in k ds); [destruct H; congruence|]. subst c'. eauto.
Qed.
Lemma filter_len_le {A} (f g : A -> bool) l : (forall x, In x l -> f x = true -> g x = true) ->
  (List.length (filter f l) <= List.length (filter g l))%nat.
Proof.
  induction l as [|a l IH]; simpl; intros H; [lia|].
  assert (IH' := IH (fun x Hx => H x (or_intror Hx))). specialize (H a (or_introl eq_refl)).
  destruct (f a); [rewrite H by reflexivity; simpl; lia|]. destruct (g a); simpl; lia.
Qed.
Lemma filter_len_lt {A} (f g : A -> bool) l y : (forall x, In x l -> f x = true -> g x = true) ->
  In y l -> f y = false -> g y = true ->
  (List.length (filter f l) < List.length (filter g l))%nat.
Proof.
  induction l as [|a l IH]; simpl; intros H Hy Hf Hg; [tauto|].
  assert (H' := fun x Hx => H x (or_intror Hx)). specialize (H a (or_introl eq_refl)).
  destruct Hy as [->|Hy].
  - rewrite Hf, Hg. simpl. apply filter_len_le in H'. lia.
  - specialize (IH H' Hy Hf Hg). destruct (f a); [rewrite H by reflexivity; simpl; lia|]. destruct (g a); simpl; lia.
Qed.
Lemma After_need clean st ds st' : After clean st ds st' -> (need st' <= need st)%nat.
Proof.
  intros (N & K & _). unfold need. rewrite K, N. apply filter_len_le.
  intros x _. rewrite str_in_app. destruct (str_in x (rs_nested st)); easy.
Qed.
Lemma need_push d c st : mget (rs_discs st) d = Some c -> str_in d (rs_nested st) = false ->
  (need (push d st) < need st)%nat.
Proof.
  intros Hd Hn. unfold need. simpl. apply filter_len_lt with (y := d).
  - intros x _. rewrite str_in_app. destruct (str_in x (rs_nested st)); easy.
  - apply mget_In in Hd. change d with (fst (d, c)). now apply in_map.
  - rewrite str_in_app. simpl. now rewrite String.eqb_refl, orb_true_r.
  - now rewrite Hn.
Qed.

Section Complete.
Variable clean : bool.
Definition CompleteV (n : nat) (setv : string -> disc -> rst -> res (json * rst)) : Prop :=
  forall d c st v ds, mget (rs_discs st) d = Some c -> wfst st -> (need st <= n)%nat ->
    WV clean (lk st) (dc_parsed c) (dc_value c) v ds -> fresh (rs_nested st) (d :: ds) ->
    exists st', setv d c (push d st) = Ok (v, st').
Definition Complete (n : nat) (r : json -> rst -> res (json * rst)) (j : json) : Prop :=
  forall st out ds, wf_json j -> wfst st -> (need st <= n)%nat ->
    W clean (lk st) j out ds -> fresh (rs_nested st) ds -> exists st', r j st = Ok (out, st').

Section CompleteDcv.
Variables (n : nat) (setv : string -> disc -> rst -> res (json * rst)).
Hypothesis HV : SoundV clean setv.
Hypothesis HC : CompleteV n setv.

Lemma fresh_cons n0 d ds : fresh n0 (d :: ds) -> str_in d n0 = false.
Proof. intros [_ F]. apply str_in_nIn, F. simpl; auto. Qed.

(** visiting a disclosed digest: success, with its effect *)
Lemma visit d c st v ds : mget (rs_discs st) d = Some c -> wfst st -> (need st <= n)%nat ->
  WV clean (lk st) (dc_parsed c) (dc_value c) v ds -> fresh (rs_nested st) (d :: ds) ->
  exists st', setv d c (push d st) = Ok (v, st') /\ After clean st (d :: ds) st'.
Proof.
  intros Hd Hw Hn W1 F. destruct (HC _ _ _ _ _ Hd Hw Hn W1 F) as (st' & E).
  exists st'. split; [assumption|].
  destruct (HV _ _ _ _ _ Hd (fresh_cons _ _ _ F) E) as (ds' & W2 & _ & A).
  destruct (W_det clean (lk st)) as (_ & _ & _ & _ & Hdet). destruct (Hdet _ _ _ _ W1 _ _ W2) as [_ ->]. assumption.
Qed.

(** the rest of a sequence, transported to the intermediate state *)
Lemma fwd st d1 st1 d2 : After clean st d1 st1 -> fresh (rs_nested st) (d1 ++ d2)%list -> wfst st -> (need st <= n)%nat ->
  fresh (rs_nested st1) d2 /\ wfst st1 /\ (need st1 <= n)%nat /\ (forall x, In x d2 -> lk st x = lk st1 x).
Proof.
  intros A F Hw Hn. destruct (fresh_app_inv _ _ _ F) as (_ & F2 & Hdis).
  split; [destruct A as (-> & _); assumption|]. split; [eapply After_wfst; eauto|].
  split; [apply After_need in A; lia|]. intros x Hx. symmetry. eapply After_lk; eauto.
Qed.

Lemma lk_elem st d p x : lk st d = Some (p, CElem x) ->
  exists c, mget (rs_discs st) d = Some c /\ dc_elems c = 2%nat /\ dc_parsed c = p /\ dc_value c = x.
Proof.
  unfold lk. destruct (mget (rs_discs st) d) as [c|]; [|discriminate]. intros [= <- H]. exists c. unfold content in H.
  destruct (Nat.eqb_spec (dc_elems c) 2); [|destruct (Nat.eqb (dc_elems c) 3); discriminate]. injection H as <-. auto.
Qed.
Lemma lk_member st d p nm x : lk st d = Some (p, CMember nm x) ->
  exists c, mget (rs_discs st) d = Some c /\ dc_elems c = 3%nat /\ dc_parsed c = p /\ dc_value c = x /\ dc_name c = nm.
Proof.
  unfold lk. destruct (mget (rs_discs st) d) as [c|]; [|discriminate]. intros [= <- H]. exists c. unfold content in H.
  destruct (Nat.eqb_spec (dc_elems c) 2); [discriminate|].
  destruct (Nat.eqb_spec (dc_elems c) 3); [|discriminate]. injection H as <- <-. auto.
Qed.
Lemma lk_none st d : lk st d = None -> mget (rs_discs st) d = None.
Proof. unfold lk. destruct (mget (rs_discs st) d); [discriminate|auto]. Qed.

Lemma elems_complete : forall l st out ds, wfst st -> (need st <= n)%nat ->
  WE clean (lk st) l out ds -> fresh (rs_nested st) ds -> exists st', elems_loop clean setv l st = Ok (out, st').
Proof.
  induction l as [|v l IH]; intros st out ds Hw Hn HW F.
  - inversion HW; subst. eexists; reflexivity.
  - inversion HW; subst; simpl; unfold elem_step;
      match goal with K : digest_elem v = _ |- _ => rewrite K end;
      try (match goal with K : lk st _ = _ |- _ => rename K into H2 end);
      try (match goal with K : WV _ _ _ _ _ _ |- _ => rename K into H3' end);
      match goal with K : WE clean (lk st) l _ _ |- _ => rename K into HWl end.
    + simpl. destruct (IH _ _ _ Hw Hn HWl F) as (st' & ->). eexists; reflexivity.
    + rewrite (fresh_cons _ _ _ F). apply lk_none in H2. simpl. rewrite H2. simpl.
      destruct (fwd _ [d] _ _ (After_push clean _ _ H2) F Hw Hn) as (F2 & Hw2 & Hn2 & Hlk).
      destruct (IH (push d st) out0 ds0) as (st' & E); auto.
      { rewrite E. simpl. destruct clean; eexists; reflexivity. }
    + rewrite (fresh_cons _ _ _ F). destruct (lk_elem _ _ _ _ H2) as (c & Hd & E2 & <- & <-).
      simpl. rewrite Hd, E2. simpl.
      change (fresh (rs_nested st) ((d :: ds1) ++ ds0)%list) in F.
      destruct (fresh_app_inv _ _ _ F) as (F1 & _ & _).
      destruct (visit _ _ _ _ _ Hd Hw Hn H3' F1) as (st1 & -> & A). simpl.
      destruct (fwd _ _ _ _ A F Hw Hn) as (F2 & Hw2 & Hn2 & Hlk).
      destruct (IH st1 out0 ds0) as (st' & ->); auto.
      { eapply W_ext; [eassumption|]. assumption. }
      eexists; reflexivity.
Qed.

Lemma sds_complete : forall l acc miss st named hid ds, wfst st -> (need st <= n)%nat ->
  WN clean (lk st) l named hid ds -> fresh (rs_nested st) ds -> NoDup (map fst (acc ++ named)%list) ->
  exists st', sds_loop setv l acc miss st = Ok ((acc ++ named)%list, (miss ++ hid)%list, st').
Proof.
  induction l as [|d l IH]; intros acc miss st named hid ds Hw Hn HW F Hnd.
  - inversion HW; subst. rewrite !app_nil_r. eexists; reflexivity.
  - inversion HW; subst; simpl; rewrite (fresh_cons _ _ _ F);
      try (match goal with K : lk st _ = _ |- _ => rename K into H1 end);
      try (match goal with K : WV _ _ _ _ _ _ |- _ => rename K into H3' end).
    + apply lk_none in H1. rewrite H1.
      destruct (fwd _ [d] _ _ (After_push clean _ _ H1) F Hw Hn) as (F2 & Hw2 & Hn2 & Hlk).
      destruct (IH acc (miss ++ [d])%list (push d st) named hid0 ds0) as (st' & ->); auto.
      rewrite <- app_assoc. eexists; reflexivity.
    + destruct (lk_member _ _ _ _ _ H1) as (c & Hd & E3 & <- & <- & <-). rewrite Hd, E3. simpl.
      change (fresh (rs_nested st) ((d :: ds1) ++ ds0)%list) in F.
      destruct (fresh_app_inv _ _ _ F) as (F1 & _ & _).
      destruct (visit _ _ _ _ _ Hd Hw Hn H3' F1) as (st1 & -> & A). simpl.
      destruct (fwd _ _ _ _ A F Hw Hn) as (F2 & Hw2 & Hn2 & Hlk).
      assert (Hm : mhas acc (dc_name c) = false).
      { apply mhas_false. rewrite map_app in Hnd. simpl in Hnd. apply NoDup_remove_2 in Hnd.
        intros Hi. apply Hnd, in_or_app. auto. }
      rewrite Hm, mset_new by assumption.
      destruct (IH (acc ++ [(dc_name c, x')])%list miss st1 out hid ds0) as (st' & ->); auto.
      { eapply W_ext; [eassumption|]. assumption. }
      { now rewrite <- app_assoc. }
      rewrite <- app_assoc. eexists; reflexivity.
Qed.

Lemma sd_part_complete m st sds named hid ds : wfst st -> (need st <= n)%nat ->
  sd_list m = Some sds -> WN clean (lk st) sds named hid ds -> fresh (rs_nested st) ds -> NoDup (map fst named) ->
  exists st', sd_part clean setv m st = Ok (with_hidden clean named hid, st') /\ After clean st ds st'.
Proof.
  intros Hw Hn Hsd HW F Hnd.
  assert (HH : exists st', sd_part clean setv m st = Ok (with_hidden clean named hid, st')).
  { unfold sd_part, sd_list in *. destruct (mget m "_sd") as [x|] eqn:E.
    - assert (Hx : string_array x = Ok sds).
      { destruct x; try discriminate; simpl; [congruence|]. destruct (all_strings l); congruence. }
      rewrite Hx. simpl. destruct (sds_complete sds [] [] st named hid ds) as (st' & ->); auto. simpl.
      exists st'. do 2 f_equal. unfold with_hidden. destruct clean; [reflexivity|]. now destruct hid.
    - injection Hsd as <-. inversion HW; subst. exists st. unfold with_hidden. now destruct clean. }
  destruct HH as (st' & E). exists st'. split; [assumption|].
  apply sd_part_sound in E as (sds' & named' & hid' & ds' & E' & W' & _ & A & _); [|assumption].
  rewrite Hsd in E'. injection E' as <-.
  destruct (W_det clean (lk st)) as (_ & _ & Hdet & _). destruct (Hdet _ _ _ _ HW _ _ _ W') as (_ & _ & ->). assumption.
Qed.

Lemma members_complete f : (forall j, Sound clean f j) -> forall m, Forall (fun kv => Complete n f (snd kv)) m ->
  forall acc st mem ds, NoDup (map fst m) -> Forall (fun kv => wf_json (snd kv)) m -> wfst st -> (need st <= n)%nat ->
  WM clean (lk st) m mem ds -> fresh (rs_nested st) ds ->
  (forall k, In k (map fst m) -> plain_key clean k = true -> ~ In k (map fst acc)) ->
  exists st', members_loop clean f m acc st = Ok (JObj (acc ++ mem)%list, st').
Proof.
  intros Hs. induction 1 as [|[k v] m Hv _ IH]; intros acc st mem ds Hnd Hwf Hw Hn HW F Hk.
  - inversion HW; subst. rewrite app_nil_r. eexists; reflexivity.
  - simpl in Hnd. inversion Hnd; subst. inversion Hwf; subst. simpl in *.
    assert (Hp := plain_key_model clean k).
    inversion HW; subst; match goal with K : plain_key clean k = _ |- _ => rename K into H7 end.
    + assert (E : members_loop clean f ((k, v) :: m) acc st = members_loop clean f m acc st).
      { rewrite Hp in H7. simpl. destruct (String.eqb k "_sd"); [reflexivity|]. simpl in H7.
        destruct (String.eqb k "_sd_alg" && clean); [reflexivity|discriminate]. }
      simpl in E. rewrite E. eapply IH; eauto.
    + rewrite Hp in H7. destruct (String.eqb k "_sd"); [discriminate|]. simpl in H7.
      destruct (String.eqb k "_sd_alg" && clean); [discriminate|].
      destruct (fresh_app_inv _ _ _ F) as (F1 & _ & _).
      destruct (Hv st v' ds1) as (st1 & E1); auto. rewrite E1. simpl.
      destruct (Hs _ _ _ _ E1) as (ds1' & W1' & _ & A).
      destruct (W_det clean (lk st)) as (Hdet & _).
      match goal with K : W clean (lk st) v v' ds1 |- _ => destruct (Hdet _ _ _ K _ _ W1') as (_ & ->) end.
      destruct (fwd _ _ _ _ A F Hw Hn) as (F2 & Hw2 & Hn2 & Hlk).
      assert (Hm : mhas acc k = false) by (apply mhas_false, Hk; [auto | rewrite Hp; reflexivity]).
      rewrite Hm.
      destruct (IH (match v' with JNull => acc | _ => mset acc k v' end) st1 out ds0) as (st' & E2); auto.
      { eapply W_ext; [eassumption|]. assumption. }
      { intros k' Hk' Hp' Hi. apply (Hk k' (or_intror Hk') Hp').
        assert (k' <> k) by congruence.
        destruct v'; try assumption; rewrite mset_keys in Hi; tauto. }
      exists st'. pose proof (mset_new acc k v' Hm) as Hms.
      destruct v'; rewrite E2; rewrite ?Hms, <- ?app_assoc; reflexivity.
Qed.

Lemma dcv_complete j : Complete n (dcv clean setv) j.
Proof.
  induction j using json_ind'; intros st out ds Hwf Hw Hn HW F;
    try (inversion HW; subst; eexists; reflexivity).
  - inversion HW; subst; [tauto|]. simpl. match goal with K : WE _ _ _ _ _ |- _ => destruct (elems_complete _ _ _ _ Hw Hn K F) as (st' & ->) end.
    eexists; reflexivity.
  - inversion HW; subst; [tauto|]. apply wf_obj in Hwf as [Hnd Hwf].
    destruct (fresh_app_inv _ _ _ F) as (F1 & _ & _).
    destruct (sd_part_complete m st sds named hidden ds1) as (st1 & E1 & A); auto.
    destruct (fwd _ _ _ _ A F Hw Hn) as (F2 & Hw2 & Hn2 & Hlk).
    simpl. rewrite E1. simpl.
    change (exists st', members_loop clean (dcv clean setv) m (with_hidden clean named hidden) st1 =
      Ok (JObj (with_hidden clean named hidden ++ mem)%list, st')).
    eapply members_complete; eauto.
    + apply dcv_sound. exact HV.
    + eapply W_ext; [eassumption|]. assumption.
    + intros k Hk Hp Hi. unfold with_hidden in Hi.
      assert (k <> "_sd") by (intros ->; discriminate).
      match goal with K : forall k, _ -> _ -> ~ In k (map fst named) |- _ => apply (K k Hk Hp) end.
      destruct clean; [assumption|]. destruct hidden; [assumption|]. rewrite mset_keys in Hi. tauto.
Qed.
End CompleteDcv.

Lemma set_value_complete n rec : (forall j, Complete n rec j) -> CompleteV (S n) (set_value rec).
Proof.
  intros Hrec d c st v ds Hd Hw Hn HW F. unfold set_value.
  inversion HW; subst.
  - eexists; reflexivity.
  - change (d :: ds) with ([d] ++ ds)%list in F. destruct (fresh_app_inv _ _ _ F) as (F1 & F2 & _).
    apply fresh_cons in F1. pose proof (need_push _ _ _ Hd F1) as Hlt.
    destruct (Hrec (dc_value c) (push d st) v ds) as (st' & ->); auto.
    + eapply Hw; eauto.
    + lia.
    + eexists; reflexivity.
Qed.

Theorem disclose_complete fuel : forall j, Complete fuel (disclose clean (S fuel)) j.
Proof.
  induction fuel as [|f IH]; intros j.
  - cbn [disclose]. apply dcv_complete.
    + apply set_value_sound. intros j'. apply (disclose_sound clean 0).
    + intros d c st v ds Hd Hw Hn HW F. exfalso.
      apply fresh_cons in F. pose proof (need_push _ _ _ Hd F). lia.
  - change (disclose clean (S (S f))) with (fun j => dcv clean (set_value (disclose clean (S f))) j).
    apply dcv_complete.
    + apply set_value_sound. intros j'. apply disclose_sound.
    + now apply set_value_complete.
Qed.
End Complete.

(** ** Enough fuel: the recursion depth is bounded by the number of disclosures *)
Section Fuel.
Variable clean : bool.
Definition NoFuelV n (setv : string -> disc -> rst -> res (json * rst)) : Prop :=
  forall d c st, mget (rs_discs st) d = Some c -> str_in d (rs_nested st) = false -> (need st <= n)%nat ->
    setv d c (push d st) <> Err fuel_error.
Section NF.
Variables (n : nat) (setv : string -> disc -> rst -> res (json * rst)).
Hypothesis HV : SoundV clean setv.
Hypothesis HF : NoFuelV n setv.

Lemma bind_nofuel {A B} (r : res A) (f : A -> res B) :
  r <> Err fuel_error -> (forall a, r = Ok a -> f a <> Err fuel_error) -> bind r f <> Err fuel_error.
Proof. destruct r; simpl; intros H1 H2; [now apply H2|congruence|discriminate]. Qed.

Lemma elem_step_after v st o st1 : elem_step clean setv v st = Ok (o, st1) -> exists ds, After clean st ds st1.
Proof.
  intros H. assert (E : elems_loop clean setv [v] st = Ok ((o ++ [])%list, st1)) by (simpl; now rewrite H).
  apply elems_sound in E as (ds & _ & _ & A); [|assumption]. eauto.
Qed.
Lemma elems_nofuel : forall l st, (need st <= n)%nat -> elems_loop clean setv l st <> Err fuel_error.
Proof.
  induction l as [|v l IH]; intros st Hn; [discriminate|]. simpl. apply bind_nofuel.
  - unfold elem_step. destruct (digest_elem v) as [[| | |d| |]|]; try discriminate.
    destruct (str_in d (rs_nested st)) eqn:Id; [discriminate|]. simpl.
    destruct (mget (rs_discs st) d) as [c|] eqn:Ed; [|discriminate].
    destruct (Nat.eqb (dc_elems c) 2); [|discriminate]. simpl.
    apply bind_nofuel; [now apply HF|discriminate].
  - intros [o st1] E. apply bind_nofuel; [|discriminate]. apply IH.
    apply elem_step_after in E as (ds & A). apply After_need in A. simpl. lia.
Qed.
Lemma sds_nofuel : forall l acc miss st, (need st <= n)%nat -> sds_loop setv l acc miss st <> Err fuel_error.
Proof.
  induction l as [|d l IH]; intros acc miss st Hn; [discriminate|]. simpl.
  destruct (str_in d (rs_nested st)) eqn:Id; [discriminate|].
  destruct (mget (rs_discs st) d) as [c|] eqn:Ed.
  - destruct (Nat.eqb (dc_elems c) 3); [|discriminate]. simpl. apply bind_nofuel; [now apply HF|].
    intros [v st1] E. simpl. destruct (mhas acc (dc_name c)); [discriminate|]. apply IH.
    destruct (HV _ _ _ _ _ Ed Id E) as (ds & _ & _ & A). apply After_need in A. lia.
  - apply IH. pose proof (After_need _ _ _ _ (After_push clean _ _ Ed)). lia.
Qed.
Lemma members_nofuel f : (forall j, Sound clean f j) -> forall m,
  Forall (fun kv => forall st, (need st <= n)%nat -> f (snd kv) st <> Err fuel_error) m ->
  forall acc st, (need st <= n)%nat -> members_loop clean f m acc st <> Err fuel_error.
Proof.
  intros Hs. induction 1 as [|[k v] m Hv _ IH]; intros acc st Hn; [discriminate|]. simpl.
  destruct (String.eqb k "_sd"); [now apply IH|].
  destruct (String.eqb k "_sd_alg" && clean); [now apply IH|].
  apply bind_nofuel; [now apply Hv|]. intros [v' st1] E. simpl. destruct (mhas acc k); [discriminate|].
  apply IH. apply Hs in E as (ds & _ & _ & A). apply After_need in A. lia.
Qed.
Lemma dcv_nofuel j : forall st, (need st <= n)%nat -> dcv clean setv j st <> Err fuel_error.
Proof.
  induction j using json_ind'; intros st Hn; try discriminate.
  - simpl. apply bind_nofuel; [now apply elems_nofuel|discriminate].
  - simpl. apply bind_nofuel.
    + unfold sd_part. destruct (mget m "_sd"); [|discriminate].
      apply bind_nofuel; [destruct j; try discriminate; simpl; destruct (all_strings l); discriminate|].
      intros sds _. apply bind_nofuel; [now apply sds_nofuel|]. intros [[a b] st1] _. discriminate.
    + intros [acc st1] E. simpl.
      change (members_loop clean (dcv clean setv) m acc st1 <> Err fuel_error).
      apply members_nofuel; [apply dcv_sound; assumption|assumption|].
      apply sd_part_sound in E as (? & ? & ? & ? & _ & _ & _ & A & _); [|assumption]. apply After_need in A. lia.
Qed.
End NF.

Theorem disclose_nofuel fuel : forall j st, (need st <= fuel)%nat -> disclose clean (S fuel) j st <> Err fuel_error.
Proof.
  induction fuel as [|f IH]; intros j st Hn; cbn [disclose].
  - apply dcv_nofuel with (n := 0%nat); [| |assumption].
    + apply set_value_sound. intros j'. apply (disclose_sound clean 0).
    + intros d c st' Hd Hi Hn'. pose proof (need_push _ _ _ Hd Hi). lia.
  - apply dcv_nofuel with (n := S f); [| |assumption].
    + apply set_value_sound. intros j'. apply (disclose_sound clean (S f)).
    + intros d c st' Hd Hi Hn'. unfold set_value. destruct (dc_parsed c); [discriminate|].
      apply bind_nofuel; [|discriminate]. apply IH. pose proof (need_push _ _ _ Hd Hi). lia.
Qed.

(** more fuel does not change a result obtained within the fuel *)
Definition le_run {A} (r r' : res A) : Prop := r = Err fuel_error \/ r' = r.
Lemma le_bind {A B} (r r' : res A) (f f' : A -> res B) :
  le_run r r' -> (forall a, le_run (f a) (f' a)) -> le_run (bind r f) (bind r' f').
Proof. intros [->| ->] H; [now left|]. destruct r; simpl; [apply H|now right|now right]. Qed.
Lemma le_refl {A} (r : res A) : le_run r r. Proof. now right. Qed.

Section Mono.
Variables (sv sv' : string -> disc -> rst -> res (json * rst)).
Hypothesis Hle : forall d c st, le_run (sv d c st) (sv' d c st).
Lemma elems_mono : forall l st, le_run (elems_loop clean sv l st) (elems_loop clean sv' l st).
Proof.
  induction l as [|v l IH]; intros st; [apply le_refl|]. simpl. apply le_bind.
  - unfold elem_step. destruct (digest_elem v) as [[| | |d| |]|]; try apply le_refl.
    destruct (str_in d (rs_nested st)); [apply le_refl|]. destruct (mget (rs_discs (push d st)) d); [|apply le_refl].
    destruct (negb (Nat.eqb (dc_elems d0) 2)); [apply le_refl|]. apply le_bind; [apply Hle|intros; apply le_refl].
  - intros [o st1]. apply le_bind; [apply IH|intros; apply le_refl].
Qed.
Lemma sds_mono : forall l acc miss st, le_run (sds_loop sv l acc miss st) (sds_loop sv' l acc miss st).
Proof.
  induction l as [|d l IH]; intros acc miss st; [apply le_refl|]. simpl.
  destruct (str_in d (rs_nested st)); [apply le_refl|]. destruct (mget (rs_discs st) d); [|apply IH].
  destruct (negb (Nat.eqb (dc_elems d0) 3)); [apply le_refl|]. apply le_bind; [apply Hle|].
  intros a. destruct (mhas acc (dc_name d0)); [apply le_refl|apply IH].
Qed.
Lemma members_mono f f' : forall m, Forall (fun kv => forall st, le_run (f (snd kv) st) (f' (snd kv) st)) m ->
  forall acc st, le_run (members_loop clean f m acc st) (members_loop clean f' m acc st).
Proof.
  induction 1 as [|[k v] m Hv _ IH]; intros acc st; [apply le_refl|]. simpl.
  destruct (String.eqb k "_sd"); [apply IH|]. destruct (String.eqb k "_sd_alg" && clean); [apply IH|].
  apply le_bind; [apply Hv|]. intros a. destruct (mhas acc k); [apply le_refl|apply IH].
Qed.
Lemma dcv_mono j : forall st, le_run (dcv clean sv j st) (dcv clean sv' j st).
Proof.
  induction j using json_ind'; intros st; try apply le_refl.
  - simpl. apply le_bind; [apply elems_mono|intros; apply le_refl].
  - simpl. apply le_bind.
    + unfold sd_part. destruct (mget m "_sd"); [|apply le_refl]. apply le_bind; [apply le_refl|].
      intros sds. apply le_bind; [apply sds_mono|]. intros [[a b] c]. apply le_refl.
    + intros [acc st1].
      change (le_run (members_loop clean (dcv clean sv) m acc st1) (members_loop clean (dcv clean sv') m acc st1)).
      now apply members_mono.
Qed.
End Mono.
Theorem disclose_mono f f' : (f <= f')%nat -> forall j st, le_run (disclose clean f j st) (disclose clean f' j st).
Proof.
  revert f'. induction f as [|f IH]; intros f' Hle j st; [now left|].
  destruct f' as [|f']; [lia|]. cbn [disclose]. apply dcv_mono. intros d c st'. unfold set_value.
  destruct (dc_parsed c); [apply le_refl|]. apply le_bind; [apply IH; lia|intros; apply le_refl].
Qed.
End Fuel.

Lemma need_start m : (need {| rs_nested := []; rs_discs := m |} <= List.length m)%nat.
Proof.
  unfold need. simpl. etransitivity; [apply (filter_len_le _ (fun _ => true)); auto|].
  rewrite <- (map_length fst m). clear. induction (map fst m); simpl; lia.
Qed.
