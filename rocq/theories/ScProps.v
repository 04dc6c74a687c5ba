(** C277-C280: custom credential schemas and their cache. *)
From Verif Require Import GoBase StatusModel ScModel ScSpec ScProofs ScProofs2.

(** C277: a sequence of schema requests on one loader whose cache starts empty is answered as the specification says, and in no other way: a remembered
    schema that is still good, without asking the server; otherwise what the server delivers with status 200, which is remembered; a failure is
    reported and not remembered.  In particular nothing panics unless the HTTP client does.  Without a cache the server is asked every time. *)
Theorem C277_answers : forall (life : Z) (l : list call), (forall c, In c l -> fits life (ca_t2 c)) -> forall rs,
  (calls life (Some []) l = rs <-> answered life (fun _ => None) l rs) /\
  (calls life None l = rs <-> Forall2 (fun c r => snd r = true /\
     match ca_answer c with
     | NoAnswer e => fst r = Err e
     | Answer status body => (status = 200 /\ fst r = body) \/ (status <> 200 /\ fst r = Err "credential schema endpoint HTTP failure")
     end) l rs).
Proof.
  intros life l F rs. split.
  - assert (A : answered life (fun _ => None) l (calls life (Some []) l)).
    { apply calls_answered; [|apply holds_empty]. apply Forall_forall. exact F. }
    split; [intros <-; exact A|]. intros B. eapply answered_fun; eauto.
  - clear F. assert (D : forall c r, (load_json_schema (ca_answer c), true) = r <-> snd r = true /\
      match ca_answer c with
      | NoAnswer e => fst r = Err e
      | Answer status body => (status = 200 /\ fst r = body) \/ (status <> 200 /\ fst r = Err "credential schema endpoint HTTP failure")
      end).
    { intros c [r b]. unfold load_json_schema. cbn. destruct (ca_answer c) as [e|st body]; [|destruct (Z.eqb_spec st 200)]; split.
      all: try (intros [= <- <-]; auto; fail).
      - intros [-> ->]. reflexivity.
      - intros [-> [[_ ->]|[N _]]]; [reflexivity|congruence].
      - intros [-> [[N _]|[_ ->]]]; [congruence|reflexivity]. }
    revert rs. induction l as [|c l IH]; intros rs; cbn [calls get_json_schema].
    + split; [intros <-; constructor|]. intros H. now inversion H.
    + split.
      * intros <-. constructor; [now apply D|now apply IH].
      * intros H. inversion H as [|? r ? rs' H1 H2]; subst. f_equal; [now apply D|now apply IH].
Qed.
Definition at_s (url : string) (t : Z) (r : response) : call := {| ca_url := url; ca_t1 := t * 1000000000; ca_t2 := t * 1000000000 + 5; ca_answer := r |}.
Definition day := 86400 * 1000000000.
Example C277_example :
  (forall c, In c [at_s "a" 0 (Answer 200 (Ok "A1")); at_s "b" 5 (Answer 404 (Ok "x")); at_s "a" 86400 (Answer 200 (Ok "A2")); at_s "b" 86400 (Answer 200 (Ok "B"));
                   at_s "a" 86401 (Answer 200 (Ok "A2")); at_s "a" 86402 (NoAnswer "down")] -> fits day (ca_t2 c)) /\
  calls day (Some []) [at_s "a" 0 (Answer 200 (Ok "A1")); at_s "b" 5 (Answer 404 (Ok "x")); at_s "a" 86400 (Answer 200 (Ok "A2")); at_s "b" 86400 (Answer 200 (Ok "B"));
                   at_s "a" 86401 (Answer 200 (Ok "A2")); at_s "a" 86402 (NoAnswer "down")] =
  [(Ok "A1", true); (Err "credential schema endpoint HTTP failure", true); (Ok "A1", false); (Ok "B", true); (Ok "A2", true); (Ok "A2", false)].
Proof.
  split; [|vm_compute; reflexivity]. intros c H. cbn in H. unfold fits. repeat (destruct H as [<-|H]; [vm_compute; split; [discriminate|reflexivity]|]). destruct H.
Qed.

(** C278: with a cache, a schema that was loaded is reused without asking the server as long as every request for that address comes within the lifetime
    of the entry, whatever other addresses are asked for; and a schema returned without asking the server was delivered with status 200 to an earlier
    request for the same address, less than the lifetime and a second ago. *)
Theorem C278_reuse : forall (life : Z) (l : list call), (forall c, In c l -> fits life (ca_t2 c)) ->
  (forall i j a b v, (i < j)%nat -> nth_error l i = Some a -> nth_error l j = Some b -> ca_url a = ca_url b ->
     nth_error (calls life (Some []) l) i = Some (Ok v, true) ->
     (forall k c, (i < k <= j)%nat -> nth_error l k = Some c -> ca_url c = ca_url b -> ca_t1 c <= ca_t2 a + life) ->
     nth_error (calls life (Some []) l) j = Some (Ok v, false)) /\
  (forall j b r, nth_error l j = Some b -> nth_error (calls life (Some []) l) j = Some (r, false) ->
     exists i a v, (i < j)%nat /\ nth_error l i = Some a /\ nth_error (calls life (Some []) l) i = Some (Ok v, true) /\ ca_url a = ca_url b /\
       ca_answer a = Answer 200 (Ok v) /\ r = Ok v /\ ca_t1 b < ca_t2 a + life + 1000000000).
Proof.
  intros life l F.
  assert (A : answered life (fun _ => None) l (calls life (Some []) l)) by (apply (C277_answers life l F); reflexivity).
  split.
  - intros i j a b v Hij Ha Hb Hu Hr Hg. eapply answered_reused; eauto. intros k c Hk Hc Hcu. unfold good, unix. apply Z.div_le_mono; [lia|]. eauto.
  - intros j b r Hb Hr. destruct (answered_stale _ _ _ _ A j b r Hb Hr) as [(v & t0 & X & _)|(i & a & v & Hi & Ha & Hra & Hu & An & E & G)]; [discriminate|].
    exists i, a, v. repeat split; auto. unfold good, unix in G. clear - G.
    pose proof (Z.div_mod (ca_t1 b) 1000000000 ltac:(lia)). pose proof (Z.mod_pos_bound (ca_t1 b) 1000000000 ltac:(lia)).
    pose proof (Z.div_mod (ca_t2 a + life) 1000000000 ltac:(lia)). pose proof (Z.mod_pos_bound (ca_t2 a + life) 1000000000 ltac:(lia)). lia.
Qed.

(** C279: any number of calls interleaving on one loader (with a clock that may jump and a cache that may forget or decline): no call panics, and a call that
    returned a schema returned one that the server delivered with status 200 for its own address; one that was answered from the cache got an entry stored
    under its address that was still good. *)
Theorem C279_interleaved : forall (life : Z) (urls : list string) (t : Z) (s : state), runs life (start urls t) s ->
  (forall u v t0, In (Stored u v t0) (st_past s) -> fits life t0) ->
  (forall now k, cache_get now k (st_cache s) <> Panic) /\
  (forall i url, nth_error urls i = Some url -> exists th, nth_error (st_threads s) i = Some th /\
     match th with
     | Want u | Missed u | Failed u _ => u = url
     | Loaded u v | Fresh u v => u = url /\ In (Delivered url v) (st_past s)
     | Hit u v now => u = url /\ In (Delivered url v) (st_past s) /\ exists t0, In (Stored url v t0) (st_past s) /\ good life t0 now
     end).
Proof.
  intros life urls t s R F. destruct (inv_runs life urls t s R) as (C & D & Len & T). split.
  - intros now k. destruct (cache_get_ok life _ _ now k C) as [(c' & -> & _)|(v & t0 & -> & _)]; discriminate.
  - intros i url Hu. destruct (nth_error (st_threads s) i) as [th|] eqn:E.
    + exists th. split; [reflexivity|]. pose proof (T i url th Hu E) as X. destruct th; cbn in X; auto.
      destruct X as (-> & t0 & I & G). split; [reflexivity|]. split; [eauto|]. exists t0. split; [assumption|]. rewrite expiry_fits in G by eauto. exact G.
    + apply nth_error_None in E. rewrite Len in E. apply nth_error_None in E. congruence.
Qed.
Lemma served : cache_get 7 "a" (cache_put 0 0 "a" "A1" (cache_put 0 0 "a" "A2" [])) = Ok (Some "A1", cache_put 0 0 "a" "A1" (cache_put 0 0 "a" "A2" [])).
Proof. vm_compute. reflexivity. Qed.
(** two calls for one address race: both load it, both store it; a third is answered from the cache *)
Definition mk (c : gomap string) (l : list thread) (t : Z) (p : list event) : state := {| st_cache := c; st_threads := l; st_clock := t; st_past := p |}.
Definition both := [Stored "a" "A1" 0; Stored "a" "A2" 0; Delivered "a" "A1"; Delivered "a" "A2"].
Definition final := mk (cache_put 0 0 "a" "A1" (cache_put 0 0 "a" "A2" [])) [Fresh "a" "A1"; Fresh "a" "A2"; Hit "a" "A1" 7] 7 both.
Example C279_example : runs 0 (start ["a"; "a"; "a"] 0) final /\ (forall u v t0, In (Stored u v t0) (st_past final) -> fits 0 t0).
Proof.
  split.
  - apply (ru_step 0 _ (mk (cache_put 0 0 "a" "A1" (cache_put 0 0 "a" "A2" [])) [Fresh "a" "A1"; Fresh "a" "A2"; Want "a"] 7 both));
      [|exact (st_ask 0 (mk _ [Fresh "a" "A1"; Fresh "a" "A2"; Want "a"] 7 both) 2 "a" (Some "A1") _ eq_refl served)].
    apply (ru_step 0 _ (mk (cache_put 0 0 "a" "A1" (cache_put 0 0 "a" "A2" [])) [Fresh "a" "A1"; Fresh "a" "A2"; Want "a"] 0 both));
      [|exact (st_time 0 (mk _ _ 0 both) 7)].
    apply (ru_step 0 _ (mk (cache_put 0 0 "a" "A2" []) [Loaded "a" "A1"; Fresh "a" "A2"; Want "a"] 0 (tl both)));
      [|exact (st_store 0 (mk _ [Loaded "a" "A1"; Fresh "a" "A2"; Want "a"] 0 _) 0 "a" "A1" eq_refl)].
    apply (ru_step 0 _ (mk [] [Loaded "a" "A1"; Loaded "a" "A2"; Want "a"] 0 (tl (tl both))));
      [|exact (st_store 0 (mk _ [Loaded "a" "A1"; Loaded "a" "A2"; Want "a"] 0 _) 1 "a" "A2" eq_refl)].
    apply (ru_step 0 _ (mk [] [Missed "a"; Loaded "a" "A2"; Want "a"] 0 (tl (tl (tl both)))));
      [|exact (st_load 0 (mk _ [Missed "a"; Loaded "a" "A2"; Want "a"] 0 _) 0 "a" (Answer 200 (Ok "A1")) "A1" eq_refl eq_refl)].
    apply (ru_step 0 _ (mk [] [Missed "a"; Missed "a"; Want "a"] 0 []));
      [|exact (st_load 0 (mk _ [Missed "a"; Missed "a"; Want "a"] 0 _) 1 "a" (Answer 200 (Ok "A2")) "A2" eq_refl eq_refl)].
    apply (ru_step 0 _ (mk [] [Missed "a"; Want "a"; Want "a"] 0 []));
      [|exact (st_ask 0 (mk [] [Missed "a"; Want "a"; Want "a"] 0 _) 1 "a" None [] eq_refl eq_refl)].
    apply (ru_step 0 _ (start ["a"; "a"; "a"] 0)); [apply ru_refl|exact (st_ask 0 (start ["a"; "a"; "a"] 0) 0 "a" None [] eq_refl eq_refl)].
  - cbn. intros u v t0 H. repeat destruct H as [H|H]; try discriminate; try contradiction; injection H as <- <- <-; (split; [discriminate|reflexivity]).
Qed.

(** C280 (does not hold): an entry is not served after its lifetime.  The expiry is kept in whole seconds and compared with them, so it is served for up to
    one second more; an expiration of zero still serves entries until the second ends. *)
Theorem C280_lifetime_refuted : ~ (forall (life : Z) (l : list call), 0 <= life -> (forall c, In c l -> fits life (ca_t2 c)) ->
  forall i j a b v, (i < j)%nat -> nth_error l i = Some a -> nth_error l j = Some b -> ca_url a = ca_url b ->
    nth_error (calls life (Some []) l) i = Some (Ok v, true) -> nth_error (calls life (Some []) l) j = Some (Ok v, false) ->
    (forall k c, (i < k < j)%nat -> nth_error l k = Some c -> ca_url c <> ca_url b) -> ca_t1 b <= ca_t2 a + life).
Proof.
  intros H. specialize (H 0 [ {| ca_url := "a"; ca_t1 := 0; ca_t2 := 0; ca_answer := Answer 200 (Ok "A") |};
                             {| ca_url := "a"; ca_t1 := 999999999; ca_t2 := 999999999; ca_answer := NoAnswer "down" |} ]).
  specialize (H ltac:(lia)). cut (999999999 <= 0 + 0); [lia|]. refine (H _ 0%nat 1%nat _ _ "A" ltac:(lia) eq_refl eq_refl eq_refl _ _ _).
  - intros c [<-|[<-|[]]]; vm_compute; (split; [discriminate|reflexivity]).
  - vm_compute. reflexivity.
  - vm_compute. reflexivity.
  - intros k c Hk. lia.
Qed.

Print Assumptions C277_answers.
Print Assumptions C278_reuse.
Print Assumptions C279_interleaved.
Print Assumptions C280_lifetime_refuted.
