From Verif Require Import GoBase StatusModel ScModel ScSpec.

Lemma le_put_len n : forall z, String.length (le_put n z) = n.
Proof. induction n as [|n IH]; intros z; cbn; [reflexivity|now rewrite IH]. Qed.
Lemma le_round n : forall z s, 0 <= z < 256 ^ Z.of_nat n -> le_get n (le_put n z ++ s) = z.
Proof.
  induction n as [|n IH]; intros z s Hz; cbn [le_put le_get append]; [cbn in Hz; lia|].
  rewrite Nat2Z.inj_succ, Z.pow_succ_r in Hz by lia.
  pose proof (Z.mod_pos_bound z 256 ltac:(lia)) as Hm.
  rewrite nat_ascii_embedding by (apply Nat2Z.inj_lt; rewrite Z2Nat.id by lia; cbn; lia).
  rewrite Z2Nat.id by lia. rewrite IH; [pose proof (Z.div_mod z 256 ltac:(lia)); lia|].
  split; [apply Z.div_pos; lia|]. apply Z.div_lt_upper_bound; lia.
Qed.
Lemma drop_put n : forall z s, str_drop n (le_put n z ++ s) = Some s.
Proof. induction n as [|n IH]; intros z s; cbn; [reflexivity|apply IH]. Qed.
Lemma int64_round z : - 2 ^ 63 <= z < 2 ^ 63 -> to_int64 (to_uint64 z) = z.
Proof.
  intros H. unfold to_int64, to_uint64. destruct (Z.ltb_spec z 0).
  - assert (E : z mod 2 ^ 64 = z + 2 ^ 64) by (rewrite <- (Z.mod_small (z + 2 ^ 64) (2 ^ 64)) by lia; rewrite <- (Z.mod_add z 1 (2 ^ 64)) by lia; f_equal; lia).
    rewrite E. destruct (Z.ltb_spec (z + 2 ^ 64) (2 ^ 63)); lia.
  - rewrite Z.mod_small by lia. destruct (Z.ltb_spec z (2 ^ 63)); lia.
Qed.
Lemma stamp_get life t v : le_get 8 (stamped life t v) = to_uint64 (unix (t + life)).
Proof. unfold stamped. apply le_round. unfold to_uint64. apply (Z.mod_pos_bound (unix (t + life)) (2 ^ 64)). lia. Qed.
Lemma stamp_drop life t v : str_drop 8 (stamped life t v) = Some v.
Proof. apply drop_put. Qed.
(** the expiry second as it is read back *)
Definition expiry (life t : Z) : Z := to_int64 (to_uint64 (unix (t + life))).
Lemma expiry_fits life t : fits life t -> expiry life t = unix (t + life).
Proof. intros H. now apply int64_round. Qed.

Section Cache.
  Variable life : Z.
  (** the cache holds stamped values *)
  Definition well_stamped (c : gomap string) : Prop := forall k b, mget c k = Some b -> exists t v, b = stamped life t v.
  Lemma get_stamped now k c t v : mget c k = Some (stamped life t v) ->
    cache_get now k c = if expiry life t <? unix now then Ok (None, mdel c k) else Ok (Some v, c).
  Proof. intros E. unfold cache_get. rewrite E, stamp_drop, stamp_get. reflexivity. Qed.
  Lemma get_none now k c : mget c k = None -> cache_get now k c = Ok (None, c).
  Proof. intros E. unfold cache_get. now rewrite E. Qed.
  (** the memory a cache stands for *)
  Definition holds (c : gomap string) (m : memory) : Prop := forall k,
    match m k with Some (v, t) => mget c k = Some (stamped life t v) /\ fits life t | None => mget c k = None end.

  Lemma holds_empty : holds [] (fun _ => None).
  Proof. intros k. reflexivity. Qed.
  Lemma holds_put c m t k v : holds c m -> fits life t -> holds (cache_put life t k v c) (remember m k v t).
  Proof.
    intros H F k'. unfold remember, cache_put. rewrite mget_mset. destruct (String.eqb_spec k' k) as [->|N]; [now split|apply H].
  Qed.
  Definition forget (m : memory) (k : string) : memory := fun k' => if String.eqb k' k then None else m k'.
  Lemma holds_del c m k : holds c m -> holds (mdel c k) (forget m k).
  Proof. intros H k'. unfold forget. rewrite mget_mdel. destruct (String.eqb_spec k' k) as [->|N]; [reflexivity|apply H]. Qed.
  Lemma holds_ext c m m' : holds c m -> (forall k, m' k = m k) -> holds c m'.
  Proof. intros H E k. rewrite E. apply H. Qed.
  (** asking the cache *)
  Lemma asked c m now k : holds c m ->
    (exists v t, m k = Some (v, t) /\ good life t now /\ cache_get now k c = Ok (Some v, c)) \/
    ((forall v t, m k = Some (v, t) -> ~ good life t now) /\ exists c', cache_get now k c = Ok (None, c') /\ holds c' (forget m k)).
  Proof.
    intros H. pose proof (H k) as Hk. destruct (m k) as [[v t]|] eqn:E.
    - destruct Hk as [Hc F]. rewrite (get_stamped _ _ _ _ _ Hc), (expiry_fits _ _ F). unfold good. destruct (Z.ltb_spec (unix (t + life)) (unix now)).
      + right. split; [intros v0 t0 [= <- <-]; lia|]. eexists. split; [reflexivity|now apply holds_del].
      + left. exists v, t. repeat split; lia.
    - right. split; [intros v t [=]|]. exists c. split; [now apply get_none|]. apply (holds_ext _ m); [assumption|]. intros k'. unfold forget. destruct (String.eqb_spec k' k) as [->|]; congruence.
  Qed.
  Lemma load_ok r v : load_json_schema r = Ok v <-> r = Answer 200 (Ok v).
  Proof.
    split; [|intros ->; reflexivity]. destruct r as [e|st b]; cbn; [discriminate|]. destruct (Z.eqb_spec st 200) as [->|]; [now intros ->|discriminate].
  Qed.
  Lemma calls_answered l : Forall (fun c => fits life (ca_t2 c)) l -> forall c m, holds c m -> answered life m l (calls life (Some c) l).
  Proof.
    induction 1 as [|a l F Fl IH]; intros c m H; cbn [calls]; [constructor|]. unfold get_json_schema.
    destruct (asked c m (ca_t1 a) (ca_url a) H) as [(v & t & E & G & R)|(N & c' & R & H')]; rewrite R.
    - eapply an_good; eauto.
    - destruct (load_json_schema (ca_answer a)) as [v|e|] eqn:L.
      + apply load_ok in L. apply an_load; [assumption|assumption|]. apply IH. apply (holds_ext _ (remember (forget m (ca_url a)) (ca_url a) v (ca_t2 a))); [now apply holds_put|].
        intros k. unfold remember, forget. destruct (String.eqb k (ca_url a)); reflexivity.
      + apply (an_fail life m (forget m (ca_url a))); auto.
        * intros v E. apply load_ok in E. congruence.
        * intros k Hk. unfold forget. destruct (String.eqb_spec k (ca_url a)); congruence.
        * unfold forget. now rewrite String.eqb_refl.
      + apply (an_fail life m (forget m (ca_url a))); auto.
        * intros v E. apply load_ok in E. congruence.
        * intros k Hk. unfold forget. destruct (String.eqb_spec k (ca_url a)); congruence.
        * unfold forget. now rewrite String.eqb_refl.
  Qed.
End Cache.

(** the specification determines the answers *)
Lemma answered_ext life m l rs : answered life m l rs -> forall m', (forall k, m' k = m k) -> answered life m' l rs.
Proof.
  induction 1 as [m|m c l v t0 rs E G A IH|m c l v rs N E A IH|m m0 c l e rs N E K Z L A IH]; intros m' X.
  - constructor.
  - eapply an_good; [rewrite X; eassumption|assumption|now apply IH].
  - apply an_load; [intros v0 t0; rewrite X; apply N|assumption|]. apply IH. intros k. unfold remember. destruct (String.eqb k (ca_url c)); [reflexivity|apply X].
  - apply (an_fail life m' m0); auto; [intros v0 t0; rewrite X; apply N|]. intros k Hk. rewrite X. now apply K.
Qed.
Lemma answered_fun life m l rs : answered life m l rs -> forall rs', answered life m l rs' -> rs = rs'.
Proof.
  induction 1 as [m|m c l v t0 rs E G A IH|m c l v rs N E A IH|m m0 c l e rs N E K Z L A IH]; intros rs' A'; inversion A'; subst; clear A'.
  all: try reflexivity.
  all: try match goal with
    | [H : ?m ?u = Some (?v1, ?t1), H' : ?m ?u = Some (?v2, ?t2) |- _ ] => rewrite H in H'; injection H' as <- <-; f_equal; now apply IH
    | [H : ?m ?u = Some (?v1, ?t1), G : good _ ?t1 _, N' : forall v0 t0, ?m ?u = Some (v0, t0) -> ~ _ |- _ ] => exfalso; exact (N' _ _ H G)
    | [H : ?a = Answer 200 (Ok ?v), H' : ?a = Answer 200 (Ok ?v') |- _ ] => rewrite H in H'; injection H' as <-; f_equal; now apply IH
    | [H : ?a = Answer 200 (Ok ?v), N' : forall v, ?a <> Answer 200 (Ok v) |- _ ] => exfalso; exact (N' _ H)
    end.
  f_equal. apply IH. eapply answered_ext; [eassumption|]. intros k. destruct (string_dec k (ca_url c)) as [->|Hk]; [congruence|].
  rewrite K by assumption. match goal with [H : forall k, k <> ca_url c -> ?m'' k = m k |- _ ] => first [now rewrite H|symmetry; now rewrite H] end.
Qed.
