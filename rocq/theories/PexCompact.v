(** Proofs about array path compaction. *)
From Coq Require Import ZifyN ZifyNat.
From Verif Require Import GoBase PexSpec StatusModel StatusProofs PexModel PexProofs StrLemmas.

(** [c] is not a decimal digit. *)
Definition digit_val_none (c : ascii) : bool := match digit_val c with Some _ => false | None => negb (Ascii.eqb c ".") end.
(** Object keys without a dot that do not look like an array index. *)
Definition good_name (s : string) : Prop := free_of "." s /\ forall n, s <> itoa n.
Definition good_key (k : pkey) : Prop := match k with KName s => good_name s | KIdx _ => True end.
(** Object at the root and no array directly inside an array. *)
Fixpoint alternating (after_name : bool) (ks : list pkey) : Prop :=
  match ks with
  | [] => True
  | KName _ :: r => alternating true r
  | KIdx _ :: r => after_name = true /\ alternating false r
  end.
Definition good_path (ks : list pkey) : Prop := Forall good_key ks /\ alternating false ks.

Definition kp (p : list pkey) : string := String.concat "." (map key_str p).
Lemma key_str_free k : good_key k -> free_of "." (key_str k).
Proof. destruct k as [n|s]; cbn; [intros _; apply itoa_free; reflexivity|intros [H _]; exact H]. Qed.
Lemma key_str_inj a b : good_key a -> good_key b -> key_str a = key_str b -> a = b.
Proof.
  destruct a as [n|s], b as [m|t]; cbn; intros Ha Hb E.
  - f_equal. now apply itoa_inj.
  - destruct Hb as [_ Hb]. symmetry in E. now apply Hb in E.
  - destruct Ha as [_ Ha]. now apply Ha in E.
  - now subst.
Qed.
Lemma kp_inj p q : Forall good_key p -> Forall good_key q -> p <> [] -> q <> [] -> kp p = kp q -> p = q.
Proof.
  intros Hp Hq Np Nq E. unfold kp in E. apply (concat_inj ".") in E.
  - revert q Hq Nq E. clear Np. induction p as [|a p IH]; intros [|b q] Hq Nq E; cbn in E; try discriminate; [reflexivity|].
    injection E as E1 E2. inversion Hp; inversion Hq; subst. f_equal; [now apply key_str_inj|].
    destruct q as [|c q]; [destruct p; [reflexivity|discriminate]|]. apply IH; auto. discriminate.
  - rewrite Forall_map. eapply Forall_impl; [|exact Hp]. intros; now apply key_str_free.
  - rewrite Forall_map. eapply Forall_impl; [|exact Hq]. intros; now apply key_str_free.
  - destruct p; [congruence|discriminate].
  - destruct q; [congruence|discriminate].
Qed.
(** Prefix of an array: good keys, ends in a name. *)
Definition arr (p : list pkey) : Prop := Forall good_key p /\ exists q s, p = (q ++ [KName s])%list.
Lemma arr_ne p : arr p -> p <> [].
Proof. intros (_ & q & s & ->). destruct q; discriminate. Qed.
Definition mk (p : list pkey) (v : nat) : string := kp (p ++ [KIdx v])%list.
Lemma good_snoc p v : Forall good_key p -> Forall good_key (p ++ [KIdx v])%list.
Proof. intros H. apply Forall_app. split; [assumption|]. repeat constructor. Qed.
Lemma mk_inj p v q w : arr p -> arr q -> mk p v = mk q w -> p = q /\ v = w.
Proof.
  intros Hp Hq E. apply kp_inj in E.
  - apply app_inj_tail in E as [-> [= ->]]. auto.
  - apply good_snoc, Hp.
  - apply good_snoc, Hq.
  - destruct p; discriminate.
  - destruct q; discriminate.
Qed.
Lemma mk_ck p v q : arr p -> arr q -> mk p v <> kp q.
Proof.
  intros Hp Hq E. apply kp_inj in E.
  - destruct Hq as (_ & q' & s & ->). apply app_inj_tail in E as [_ E]. discriminate.
  - apply good_snoc, Hp.
  - apply Hq.
  - destruct p; discriminate.
  - now apply arr_ne.
Qed.
Lemma ck_inj p q : arr p -> arr q -> kp p = kp q -> p = q.
Proof. intros Hp Hq. apply kp_inj; [apply Hp|apply Hq|now apply arr_ne|now apply arr_ne]. Qed.

Definition inv (E : list pkey -> nat -> Prop) (set : gomap nat) : Prop :=
  (forall p v, arr p -> (E p v <-> exists n, mget set (mk p v) = Some n)) /\
  (forall p v n, arr p -> mget set (mk p v) = Some n -> (n < counter set (kp p))%nat) /\
  (forall p v w n, arr p -> mget set (mk p v) = Some n -> mget set (mk p w) = Some n -> v = w) /\
  (forall p k, arr p -> (k < counter set (kp p))%nat -> exists v, mget set (mk p v) = Some k).
Definition grows (a b : gomap nat) : Prop := forall p v n, arr p -> mget a (mk p v) = Some n -> mget b (mk p v) = Some n.

(** Indices met on path [ks] read after [pre]. *)
Definition on_path (pre ks : list pkey) (p : list pkey) (v : nat) : Prop :=
  exists a rest, p = (pre ++ a)%list /\ ks = (a ++ KIdx v :: rest)%list.

Lemma counter_mset s k v x : counter (mset s k v) x = if String.eqb x k then v else counter s x.
Proof. unfold counter. rewrite mget_mset. now destruct (String.eqb x k). Qed.

Lemma visit_inv E set p v : inv E set -> arr p ->
  let set' := if mhas set (mk p v) then set
              else let set := mset set (mk p v) (counter set (kp p)) in
                   mset set (kp p) (S (counter set (kp p))) in
  inv (fun q w => E q w \/ (q = p /\ w = v)) set' /\ grows set set' /\ exists n, mget set' (mk p v) = Some n.
Proof.
  intros (I1 & I2 & I3 & I4) Hp. cbv zeta. unfold mhas. destruct (mget set (mk p v)) as [n|] eqn:En.
  - split; [|split; [intros q w m _ H; exact H|eauto]]. split; [|auto]. intros q w Hq. rewrite <- I1 by assumption.
    split; [intros [H|[-> ->]]; [assumption|]|tauto]. apply I1; eauto.
  - set (c := counter set (kp p)).
    assert (Ec : counter (mset set (mk p v) c) (kp p) = c).
    { rewrite counter_mset. destruct (String.eqb_spec (kp p) (mk p v)) as [H|_]; [symmetry in H; now apply mk_ck in H|reflexivity]. }
    rewrite Ec. set (set' := mset (mset set (mk p v) c) (kp p) (S c)).
    assert (Gm : forall q w, arr q -> mget set' (mk q w) = if (String.eqb (mk q w) (mk p v)) then Some c else mget set (mk q w)).
    { intros q w Hq. unfold set'. rewrite !mget_mset. destruct (String.eqb_spec (mk q w) (kp p)) as [H|_]; [now apply mk_ck in H|reflexivity]. }
    assert (Gc : forall q, arr q -> counter set' (kp q) = if (String.eqb (kp q) (kp p)) then S c else counter set (kp q)).
    { intros q Hq. unfold set'. rewrite !counter_mset. destruct (String.eqb_spec (kp q) (kp p)); [reflexivity|].
      destruct (String.eqb_spec (kp q) (mk p v)) as [H|_]; [symmetry in H; now apply mk_ck in H|reflexivity]. }
    assert (Hlt : forall w m, mget set (mk p w) = Some m -> (m < c)%nat) by (intros w m H; now apply I2 in H).
    split; [|split].
    + split; [|split; [|split]].
      * intros q w Hq. rewrite Gm by assumption. destruct (String.eqb_spec (mk q w) (mk p v)) as [H|H].
        -- apply mk_inj in H as [-> ->]; auto. split; eauto.
        -- rewrite <- I1 by assumption. split; [intros [H'|[-> ->]]; [assumption|congruence]|tauto].
      * intros q w m Hq. rewrite Gm, Gc by assumption. destruct (String.eqb_spec (mk q w) (mk p v)) as [H|H].
        -- apply mk_inj in H as [-> ->]; auto. rewrite String.eqb_refl. intros [= <-]. lia.
        -- intros Hm. destruct (String.eqb_spec (kp q) (kp p)) as [H'|H']; [|now apply I2 in Hm].
           apply ck_inj in H'; auto. subst q. apply Hlt in Hm. lia.
      * intros q w w' m Hq. rewrite !Gm by assumption.
        destruct (String.eqb_spec (mk q w) (mk p v)) as [H|H]; destruct (String.eqb_spec (mk q w') (mk p v)) as [H'|H'].
        -- apply mk_inj in H as [_ ->]; auto. apply mk_inj in H' as [_ ->]; auto.
        -- apply mk_inj in H as [-> ->]; auto. intros [= <-] Hm. apply Hlt in Hm. lia.
        -- apply mk_inj in H' as [-> ->]; auto. intros Hm [= <-]. apply Hlt in Hm. lia.
        -- now apply I3.
      * intros q k Hq. rewrite Gc by assumption. destruct (String.eqb_spec (kp q) (kp p)) as [H|H].
        -- apply ck_inj in H; auto. subst q. intros Hk. destruct (Nat.eq_dec k c) as [->|].
           ++ exists v. rewrite Gm, String.eqb_refl by assumption. reflexivity.
           ++ destruct (I4 p k Hp) as (w & Hw); [fold c; lia|]. exists w. rewrite Gm by assumption.
              destruct (String.eqb_spec (mk p w) (mk p v)) as [E'|]; [rewrite E' in Hw; congruence|assumption].
        -- intros Hk. destruct (I4 q k Hq Hk) as (w & Hw). exists w. rewrite Gm by assumption.
           destruct (String.eqb_spec (mk q w) (mk p v)) as [E'|]; [|assumption]. apply mk_inj in E' as [-> _]; auto. congruence.
    + intros q w m Hq Hm. rewrite Gm by assumption. destruct (String.eqb_spec (mk q w) (mk p v)) as [E'|]; [|assumption].
      rewrite E' in Hm. congruence.
    + exists c. rewrite Gm, String.eqb_refl by assumption. reflexivity.
Qed.
Lemma grows_trans a b c : grows a b -> grows b c -> grows a c.
Proof. intros H1 H2 p v n Hp H. apply H2; auto. Qed.
Lemma inv_ext E E' set : (forall p v, arr p -> E p v <-> E' p v) -> inv E set -> inv E' set.
Proof. intros H (I1 & I2). split; [|exact I2]. intros p v Hp. rewrite <- H by assumption. now apply I1. Qed.
Lemma renumber_ext r r' : forall ks pre, (forall p v, on_path pre ks p v -> r p v = r' p v) -> renumber r pre ks = renumber r' pre ks.
Proof.
  induction ks as [|[v|s] ks IH]; intros pre H; cbn; [reflexivity| |].
  - f_equal; [f_equal; apply H; exists [], ks; rewrite app_nil_r; auto|]. apply IH. intros p w (a & rest & -> & ->). apply H.
    exists (KIdx v :: a), rest. rewrite <- app_assoc. auto.
  - f_equal. apply IH. intros p w (a & rest & -> & ->). apply H. exists (KName s :: a), rest. rewrite <- app_assoc. auto.
Qed.

Lemma get_path_spec : forall ks pre new set E b set' orig' new',
  Forall good_key pre -> Forall good_key ks -> alternating b ks ->
  (b = true -> arr pre) -> inv E set ->
  get_path_loop ks (map key_str pre) new set = (set', orig', new') ->
  inv (fun p v => E p v \/ on_path pre ks p v) set' /\ grows set set' /\
  orig' = map key_str (pre ++ ks)%list /\
  new' = (new ++ map key_str (renumber (fun p v => counter set' (mk p v)) pre ks))%list /\
  (forall p v, on_path pre ks p v -> arr p).
Proof.
  induction ks as [|[v|s] ks IH]; intros pre new set E b set' orig' new' Hpre Hks Halt Hb Hinv H; cbn [get_path_loop] in H.
  - injection H as <- <- <-. split; [|split; [|split; [|split]]].
    + eapply inv_ext; [|exact Hinv]. intros p v _. split; [now left|]. intros [H|(a & rest & _ & H)]; [assumption|destruct a; discriminate].
    + intros p v n _ H; exact H.
    + now rewrite app_nil_r.
    + cbn. now rewrite app_nil_r.
    + intros p v (a & rest & _ & H). destruct a; discriminate.
  - cbn [alternating] in Halt. destruct Halt as [Hbt Halt]. specialize (Hb Hbt). inversion Hks; subst.
    assert (Em : String.concat "." (map key_str pre ++ [itoa v]) = mk pre v) by (unfold mk, kp; now rewrite map_app).
    change (String.concat "." (map key_str pre)) with (kp pre) in H. rewrite Em in H.
    pose proof (visit_inv E set pre v Hinv Hb) as Hv. cbv zeta in Hv, H.
    set (set1 := if mhas set (mk pre v) then set else _) in *.
    destruct Hv as (Hinv1 & Hg1 & n & Hn).
    replace (map key_str pre ++ [itoa v])%list with (map key_str (pre ++ [KIdx v])) in H by now rewrite map_app.
    eapply IH in H; [|now apply good_snoc|assumption|exact Halt|discriminate|exact Hinv1].
    destruct H as (A & B & C & D & F). split; [|split; [|split; [|split]]].
    + eapply inv_ext; [|exact A]. intros p w Hp. split.
      * intros [[H|[-> ->]]|(a & rest & -> & ->)]; [now left|right; exists [], ks; rewrite app_nil_r; auto|].
        right. exists (KIdx v :: a), rest. rewrite <- app_assoc. auto.
      * intros [H|(a & rest & -> & Ha)]; [left; now left|]. destruct a as [|k a]; cbn in Ha.
        -- injection Ha as <- <-. left. right. rewrite app_nil_r. auto.
        -- injection Ha as <- ->. right. exists a, rest. rewrite <- app_assoc. auto.
    + eapply grows_trans; eassumption.
    + rewrite C, <- app_assoc. reflexivity.
    + rewrite D, <- app_assoc. cbn [renumber map app]. f_equal. f_equal. cbn [key_str]. f_equal.
      unfold counter. rewrite Hn. now rewrite (B pre v n Hb Hn).
    + intros p w (a & rest & -> & Ha). destruct a as [|k a]; cbn in Ha.
      * rewrite app_nil_r. assumption.
      * injection Ha as <- Ha. apply (F _ w). exists a, rest. rewrite <- app_assoc. auto.
  - inversion Hks; subst. cbn [alternating] in Halt.
    replace (map key_str pre ++ [s])%list with (map key_str (pre ++ [KName s])) in H by now rewrite map_app.
    assert (Hpre' : Forall good_key (pre ++ [KName s])%list) by (apply Forall_app; split; [assumption|constructor; auto]).
    assert (Ha : arr (pre ++ [KName s])%list) by (split; [assumption|eauto]).
    eapply IH in H; [|assumption|assumption|exact Halt|auto|exact Hinv].
    destruct H as (A & B & C & D & F). split; [|split; [|split; [|split]]].
    + eapply inv_ext; [|exact A]. intros p w Hp. split.
      * intros [H|(a & rest & -> & ->)]; [now left|]. right. exists (KName s :: a), rest. rewrite <- app_assoc. auto.
      * intros [H|(a & rest & -> & Hx)]; [now left|]. destruct a as [|k a]; cbn in Hx; [discriminate|].
        injection Hx as <- ->. right. exists a, rest. rewrite <- app_assoc. auto.
    + assumption.
    + rewrite C, <- app_assoc. reflexivity.
    + rewrite D, <- app_assoc. reflexivity.
    + intros p w (a & rest & -> & Hx). destruct a as [|k a]; cbn in Hx; [discriminate|].
      injection Hx as <- Hx. apply (F _ w). exists a, rest. rewrite <- app_assoc. auto.
Qed.

Lemma compact_paths_inv : forall paths set E, Forall good_path paths -> inv E set ->
  exists set', inv (fun p v => E p v \/ mentioned paths p v) set' /\ grows set set' /\
    compact_paths paths set = map (fun ks => (kp (renumber (fun p v => counter set' (mk p v)) [] ks), kp ks)) paths /\
    (forall p v, mentioned paths p v -> arr p).
Proof.
  induction paths as [|ks paths IH]; intros set E HF Hinv; cbn [compact_paths map].
  - exists set. split; [|split; [intros p v n _ H; exact H|split; [reflexivity|]]].
    + eapply inv_ext; [|exact Hinv]. intros p v _. split; [now left|]. intros [H|(rest & [])]; assumption.
    + intros p v (rest & []).
  - inversion HF as [|? ? [Hg Ha] HF']; subst. destruct (get_path_loop ks [] [] set) as [[set1 orig] new] eqn:El.
    change (@nil string) with (map key_str []) in El.
    eapply get_path_spec in El; [|constructor|exact Hg|exact Ha|discriminate|exact Hinv].
    destruct El as (A & B & C & D & F). destruct (IH set1 _ HF' A) as (set' & A' & B' & C' & F').
    exists set'. split; [|split; [eapply grows_trans; eassumption|split]].
    + eapply inv_ext; [|exact A']. intros p v _. unfold mentioned. split.
      * intros [[H|(a & rest & -> & ->)]|(rest & H)]; [now left|right; exists rest; now left|right; exists rest; now right].
      * intros [H|(rest & [H|H])]; [left; now left|left; right; exists p, rest; auto|right; eauto].
    + rewrite C'. f_equal. rewrite C, D. cbn [map app]. unfold kp. f_equal. f_equal. f_equal. apply renumber_ext.
      intros p v Hp. assert (Hpa : arr p) by (eapply F; exact Hp).
      destruct A as (I1 & _). destruct (proj1 (I1 p v Hpa) (or_intror Hp)) as (n & Hn).
      unfold counter. rewrite Hn. now rewrite (B' p v n Hpa Hn).
    + intros p v (rest & [H|H]); [apply (F p v); exists p, rest; auto|apply (F' p v); exists rest; assumption].
Qed.

Theorem compact_paths_spec paths : Forall good_path paths ->
  exists rank, compacts paths rank /\
    compact_paths paths [] = map (fun ks => (kp (renumber rank [] ks), kp ks)) paths.
Proof.
  intros HF. destruct (compact_paths_inv paths [] (fun _ _ => False) HF) as (set' & (I1 & I2 & I3 & I4) & _ & C & F).
  { split; [|split; [|split]]; cbn; try discriminate.
    - intros p v _. split; [intros []|intros (n & H); discriminate].
    - unfold counter; cbn. intros; lia. }
  exists (fun p v => counter set' (mk p v)). split; [|exact C].
  assert (S : forall p v, mentioned paths p v -> mget set' (mk p v) = Some (counter set' (mk p v))).
  { intros p v H. assert (Hp : arr p) by (eapply F; exact H). destruct (proj1 (I1 p v Hp) (or_intror H)) as (n & Hn).
    unfold counter. now rewrite Hn. }
  split.
  - intros p v w Hv Hw E. apply S in Hv as Hv'. apply S in Hw as Hw'. rewrite E in Hv'. eapply I3; eauto.
  - intros p v k Hv Hk. assert (Hp : arr p) by (eapply F; exact Hv). apply S in Hv as Hv'.
    pose proof (I2 _ _ _ Hp Hv'). destruct (I4 p k Hp) as (w & Hw); [lia|]. exists w. split.
    + destruct (proj2 (I1 p w Hp)) as [[]|H']; eauto.
    + unfold counter. now rewrite Hw.
Qed.
