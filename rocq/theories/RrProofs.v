(** Proofs about the related-resource validator. *)
From Verif Require Import GoBase Base64 JwtSpec StrLemmas DiProofs VcSpec RrSpec RrModel.
From Coq Require Import Lia.

(** *** The digest check *)
Lemma mh_header_cons c c' d : N_of_ascii c = 18%N -> N_of_ascii c' = 32%N -> String c (String c' d) = mh_header ++ d.
Proof.
  intros H H'. unfold mh_header. cbn [append].
  rewrite <- (ascii_N_embedding c), <- (ascii_N_embedding c'), H, H'. reflexivity.
Qed.
Lemma has_header_true enc d : has_header enc d = Ok true <-> enc = true /\ d = mh_header ++ drop2 d.
Proof.
  unfold has_header. destruct enc; cbn [negb]; [|split; [discriminate|intros [? _]; discriminate]].
  destruct d as [|c [|c' d]]; cbn [drop2].
  - split; [discriminate|intros [_ H]; discriminate H].
  - split; [destruct (negb _); discriminate|intros [_ H]; discriminate H].
  - split.
    + destruct (N.eqb_spec (N_of_ascii c) 18); cbn [negb]; [|discriminate].
      destruct (N.eqb_spec (N_of_ascii c') 32); [|discriminate]. intros _. split; [reflexivity|].
      apply mh_header_cons; assumption.
    + intros [_ H]. unfold mh_header in H. cbn [append] in H. injection H as -> ->. reflexivity.
Qed.
Lemma has_header_false enc d : has_header enc d = Ok false -> enc = true -> forall y, d <> mh_header ++ y.
Proof.
  intros H -> y ->. unfold has_header, mh_header in H. cbn in H. discriminate.
Qed.
Lemma has_header_panic enc d : has_header enc d = Panic -> enc = true /\ (String.length d < 2)%nat.
Proof.
  unfold has_header. destruct enc; cbn [negb]; [|discriminate].
  destruct d as [|c [|c' d]]; cbn; [split; [reflexivity|lia]|split; [reflexivity|lia]|].
  destruct (negb _); discriminate.
Qed.
Lemma has_header_total enc d : ~ (enc = true /\ (String.length d < 2)%nat) -> exists b, has_header enc d = Ok b.
Proof.
  intros H. destruct (has_header enc d) as [b|e|] eqn:E; [eauto| |].
  - exfalso. unfold has_header in E. destruct enc; cbn [negb] in E; [|discriminate].
    destruct d as [|c [|c' d]]; try discriminate; destruct (negb _); discriminate.
  - apply has_header_panic in E. contradiction.
Qed.
Lemma alg_raw E alg h raw b : h = calc E b ->
  (if String.eqb (to_lower alg) "sha256" then Ok (h_256 h)
   else if String.eqb (to_lower alg) "sha384" then Ok (h_384 h)
   else if String.eqb (to_lower alg) "sha512" then Ok (h_512 h)
   else Err "unsupported hash algorithm") = Ok raw ->
  exists a, alg_name alg a /\ raw = re_hash E a b.
Proof.
  intros ->. destruct (String.eqb_spec (to_lower alg) "sha256"); [intros [= <-]; eexists; split; [apply an_256; assumption|reflexivity]|].
  destruct (String.eqb_spec (to_lower alg) "sha384"); [intros [= <-]; eexists; split; [apply an_384; assumption|reflexivity]|].
  destruct (String.eqb_spec (to_lower alg) "sha512"); [intros [= <-]; eexists; split; [apply an_512; assumption|reflexivity]|discriminate].
Qed.
Definition chk (E : renv) (a : hashalg) (d : string) (b : string) : Prop :=
  exists enc x, re_mb E d = Some (enc, x)
    /\ ((enc = true /\ x = mh_header ++ re_hash E a b) \/ (x = re_hash E a b /\ (enc = true -> forall y, x <> mh_header ++ y))).
Lemma validate_hash_ok E d alg b : validate_hash E d alg (calc E b) = Ok tt -> exists a, alg_name alg a /\ chk E a d b.
Proof.
  unfold validate_hash. destruct (re_mb E d) as [[enc x]|] eqn:Em; [|discriminate].
  intros H. apply bind_ok in H as (raw & Hr & H). apply bind_ok in H as (hd & Hh & H).
  destruct (alg_raw E alg _ raw b eq_refl Hr) as (a & Ha & Hraw). subst raw. exists a. split; [assumption|].
  exists enc, x. split; [assumption|].
  unfold guard in H. destruct (String.eqb_spec (re_hash E a b) (if hd then drop2 x else x)) as [Hx|]; [|discriminate].
  destruct hd.
  - apply has_header_true in Hh as [-> Hd]. left. split; [reflexivity|]. rewrite Hx. assumption.
  - right. split; [congruence|]. exact (has_header_false _ _ Hh).
Qed.
Lemma validate_hash_complete E d alg a b : alg_name alg a -> chk E a d b -> (2 <= String.length (re_hash E a b))%nat ->
  validate_hash E d alg (calc E b) = Ok tt.
Proof.
  intros Ha (enc & x & Em & Hx) Hlen. unfold validate_hash. rewrite Em.
  assert (Hr : (if String.eqb (to_lower alg) "sha256" then Ok (h_256 (calc E b))
   else if String.eqb (to_lower alg) "sha384" then Ok (h_384 (calc E b))
   else if String.eqb (to_lower alg) "sha512" then Ok (h_512 (calc E b))
   else Err "unsupported hash algorithm") = Ok (re_hash E a b)).
  { destruct Ha as [s Hs|s Hs|s Hs]; rewrite Hs; reflexivity. }
  rewrite Hr. cbn [bind]. destruct Hx as [[-> ->]|[-> Hn]].
  - assert (Hh : has_header true (mh_header ++ re_hash E a b) = Ok true) by (apply has_header_true; auto).
    rewrite Hh. cbn [bind]. unfold mh_header. cbn [append drop2]. unfold guard. rewrite String.eqb_refl. reflexivity.
  - destruct (has_header_total enc (re_hash E a b)) as [hd Hh]; [lia|]. rewrite Hh. cbn [bind].
    destruct hd.
    + apply has_header_true in Hh as [-> He]. exfalso. exact (Hn eq_refl _ He).
    + unfold guard. rewrite String.eqb_refl. reflexivity.
Qed.
Definition parts_of (r : relres) : res (string * string) :=
  if negb (String.eqb (rr_sri r) "") then
    match split_on "-" (rr_sri r) with
    | [a; d] => Ok (d, a)
    | _ => Err "invalid digest SRI format"
    end
  else if negb (String.eqb (rr_mb r) "") then Ok (rr_mb r, "sha256")
  else Ok ("", "").
Lemma validate_single_eq E r h :
  validate_single E r h = let* ha := parts_of r in validate_hash E (fst ha) (snd ha) h.
Proof. reflexivity. Qed.
(** text of the digest, name of the algorithm *)
Lemma parts_of_ok r d alg : parts_of r = Ok (d, alg) ->
  (forall a, alg_name alg a -> digest_of r a d) \/ alg = "".
Proof.
  unfold parts_of. destruct (String.eqb_spec (rr_sri r) "") as [Hs|Hs]; cbn [negb].
  - destruct (String.eqb_spec (rr_mb r) "") as [Hm|Hm]; cbn [negb]; intros [= <- <-]; [right; reflexivity|].
    left. intros a Ha. assert (a = SHA256) as -> by (inversion Ha; subst; cbn in *; congruence). apply do_mb; assumption.
  - destruct (split_on "-" (rr_sri r)) as [|a0 [|d0 [|? ?]]] eqn:Ep; try discriminate.
    intros [= <- <-]. left. intros a Ha.
    apply split_on_cons_inv in Ep as [_ Ep]. destruct (Ep ltac:(discriminate)) as (q & Hq & Hsp & Hfree).
    apply split_on_cons_inv in Hsp as [Hsp _]. destruct (Hsp eq_refl) as [-> Hf2].
    eapply do_sri; eassumption.
Qed.
Lemma parts_of_complete r a d : digest_of r a d -> exists alg, parts_of r = Ok (d, alg) /\ alg_name alg a.
Proof.
  intros [a' n d' Hs Hn Hd Ha|Hs Hm]; unfold parts_of.
  - exists n. split; [|assumption]. rewrite Hs.
    replace (String.eqb (n ++ String "-" d') "") with false by (destruct n; reflexivity). cbn [negb].
    rewrite split_on_app by assumption. rewrite split_on_free by assumption. reflexivity.
  - exists "sha256". split; [|apply an_256; reflexivity]. rewrite Hs. cbn [String.eqb negb].
    destruct (String.eqb_spec (rr_mb r) ""); [contradiction|reflexivity].
Qed.
Lemma no_empty_alg a : ~ alg_name "" a.
Proof. intros H. inversion H as [? H'|? H'|? H']; subst; cbn in H'; discriminate. Qed.
Lemma validate_single_sound E r b : validate_single E r (calc E b) = Ok tt -> matches E r b.
Proof.
  rewrite validate_single_eq. intros H. apply bind_ok in H as ([d alg] & Hp & H). cbn [fst snd] in H.
  apply validate_hash_ok in H as (a & Ha & enc & x & Em & Hx).
  destruct (parts_of_ok _ _ _ Hp) as [Hd| ->]; [|exfalso; exact (no_empty_alg _ Ha)].
  exists a, d, enc, x. repeat split; auto.
Qed.
Lemma validate_single_complete E r b : (forall a, 2 <= String.length (re_hash E a b))%nat -> matches E r b ->
  validate_single E r (calc E b) = Ok tt.
Proof.
  intros Hlen (a & d & enc & x & Hd & Em & Hx). rewrite validate_single_eq.
  destruct (parts_of_complete _ _ _ Hd) as (alg & -> & Ha). cbn [bind fst snd].
  eapply validate_hash_complete; eauto. exists enc, x. auto.
Qed.
(** the base64url digest is too short to be looked at *)
Definition short_digest (E : renv) (r : relres) : Prop :=
  exists a d x, digest_of r a d /\ re_mb E d = Some (true, x) /\ (String.length x < 2)%nat.
Lemma validate_single_panic E r h : validate_single E r h = Panic -> short_digest E r.
Proof.
  rewrite validate_single_eq. destruct (parts_of r) as [[d alg]|e|] eqn:Hp; [|discriminate|].
  2:{ unfold parts_of in Hp. destruct (negb _); [|destruct (negb _); discriminate].
      destruct (split_on "-" (rr_sri r)) as [|? [|? [|? ?]]]; discriminate. }
  cbn [bind fst snd]. unfold validate_hash. destruct (re_mb E d) as [[enc x]|] eqn:Em; [|discriminate].
  assert (Ho : forall o : res string, o <> Panic ->
            (let* raw := o in let* hd := has_header enc x in guard (String.eqb raw (if hd then drop2 x else x)) "hash mismatch") = Panic ->
            is_ok o = true /\ has_header enc x = Panic).
  { intros o Hno H. destruct o as [raw| |]; cbn [bind] in H; [split; [reflexivity|]|discriminate|contradiction].
    destruct (has_header enc x) as [hd| |]; cbn [bind] in H; [|discriminate|reflexivity].
    unfold guard in H. destruct (String.eqb raw _); discriminate. }
  intros H. apply Ho in H as [Hok Hh].
  2:{ destruct (String.eqb _ _); [discriminate|]. destruct (String.eqb _ _); [discriminate|]. destruct (String.eqb _ _); discriminate. }
  assert (Ha : exists a, alg_name alg a).
  { destruct (String.eqb_spec (to_lower alg) "sha256"); [exists SHA256; apply an_256; assumption|].
    destruct (String.eqb_spec (to_lower alg) "sha384"); [exists SHA384; apply an_384; assumption|].
    destruct (String.eqb_spec (to_lower alg) "sha512"); [exists SHA512; apply an_512; assumption|discriminate]. }
  apply has_header_panic in Hh as [-> Hl]. destruct Ha as [a Ha].
  destruct (parts_of_ok _ _ _ Hp) as [Hd| ->]; [|exfalso; exact (no_empty_alg _ Ha)].
  exists a, d, x. auto.
Qed.
Lemma short_digest_panics E r h : short_digest E r -> validate_single E r h = Panic
  \/ exists a d, digest_of r a d /\ exists c s, re_mb E d = Some (true, String c s) /\ N_of_ascii c <> 18%N.
Proof.
  intros (a & d & x & Hd & Em & Hl). rewrite validate_single_eq.
  destruct (parts_of_complete _ _ _ Hd) as (alg & -> & Ha). cbn [bind fst snd]. unfold validate_hash. rewrite Em.
  destruct x as [|c x].
  - left. destruct Ha as [s Hs|s Hs|s Hs]; rewrite Hs; reflexivity.
  - destruct (N.eqb_spec (N_of_ascii c) 18) as [Hc|Hc].
    + left. destruct x; [|cbn in Hl; lia].
      assert (Hh : has_header true (String c "") = Panic).
      { unfold has_header. cbn [negb]. rewrite Hc. reflexivity. }
      destruct Ha as [s Hs|s Hs|s Hs]; rewrite Hs; cbn [String.eqb Ascii.eqb Bool.eqb bind]; rewrite Hh; reflexivity.
    + right. exists a, d. split; [assumption|]. exists c, x. auto.
Qed.

(** *** Threads *)
Lemma set_nth_same {A} (l : list A) i x y : nth_error l i = Some y -> nth_error (firstn i l ++ x :: skipn (S i) l)%list i = Some x.
Proof.
  intros H. assert (i < List.length l)%nat by (apply nth_error_Some; congruence).
  rewrite nth_error_app2; rewrite firstn_length_le by lia; [|lia]. rewrite Nat.sub_diag. reflexivity.
Qed.
Lemma set_nth_other {A} (l : list A) i j x y : nth_error l i = Some y -> i <> j ->
  nth_error (firstn i l ++ x :: skipn (S i) l)%list j = nth_error l j.
Proof.
  revert i j. induction l as [|z l IH]; intros i j H Hij; [destruct i; discriminate|].
  destruct i as [|i]; destruct j as [|j]; cbn [firstn skipn nth_error app] in *; try contradiction; try reflexivity.
  specialize (IH i j H ltac:(congruence)). destruct l; [destruct i; discriminate|]. exact IH.
Qed.
Lemma set_nth_map {A B} (f : A -> B) (l : list A) i x y : nth_error l i = Some y -> f x = f y ->
  map f (firstn i l ++ x :: skipn (S i) l)%list = map f l.
Proof.
  revert i. induction l as [|z l IH]; intros i H Hf; [destruct i; discriminate|].
  destruct i as [|i]; cbn [firstn skipn nth_error app map] in *.
  - injection H as ->. rewrite Hf. reflexivity.
  - f_equal. destruct l; [destruct i; discriminate|]. apply IH; assumption.
Qed.
Definition total {A} (w : A -> nat) (l : list A) : nat := fold_right (fun x n => (w x + n)%nat) 0%nat l.
Lemma set_nth_total {A} (w : A -> nat) (l : list A) i x y : nth_error l i = Some y ->
  (total w (firstn i l ++ x :: skipn (S i) l)%list + w y = total w l + w x)%nat.
Proof.
  revert i. induction l as [|z l IH]; intros i H; [destruct i; discriminate|].
  destruct i as [|i]; cbn [firstn skipn nth_error app] in *.
  - injection H as ->. unfold total. cbn. lia.
  - destruct l as [|z' l]; [destruct i; discriminate|]. specialize (IH i H). unfold total in *. cbn [fold_right] in *.
    cbn [firstn skipn app fold_right] in *. lia.
Qed.
Lemma set_nth_len {A} (l : list A) i x y : nth_error l i = Some y ->
  List.length (firstn i l ++ x :: skipn (S i) l)%list = List.length l.
Proof. intros H. rewrite <- (map_length (fun _ => tt)). rewrite (set_nth_map (fun _ => tt) l i x y); [apply map_length|assumption|reflexivity]. Qed.

(** *** The invariant *)
Section Inv.
Context (E : renv) (serve : string -> answer -> Prop) (rs : list relres).
(** [h] are the hashes of what the server of [u] has answered *)
Definition genuine (u : string) (h : hashes) : Prop := exists a b, serve u a /\ received a b /\ h = calc E b.
Lemma body_received a b : body_of a = Ok b -> received a b.
Proof.
  destruct a as [|st [[d| |]|]]; cbn; try discriminate; intros H; apply bind_ok in H as (u & Hg & H); try discriminate;
    unfold guard in Hg; destruct (Z.eqb_spec st 200) as [->|]; try discriminate.
  destruct (String.eqb_spec d ""); [discriminate|]. injection H as ->. split; [reflexivity|assumption].
Qed.
Lemma received_body a b : received a b -> body_of a = Ok b.
Proof. intros [-> Hb]. cbn. destruct (String.eqb_spec b ""); [contradiction|reflexivity]. Qed.
Definition thread_ok (t : relres * tstate) : Prop :=
  match snd t with
  | TStart | TFetch => True
  | TAdd h | THas h => genuine (rr_id (fst t)) h
  | TDone (Ok _) => exists a b, serve (rr_id (fst t)) a /\ received a b /\ matches E (fst t) b
  | TDone _ => True
  end.
Definition weight (t : relres * tstate) : nat :=
  match snd t with TStart => 4 | TFetch => 3 | TAdd _ => 2 | THas _ => 1 | TDone _ => 0 end.
Definition measure (c : config) : nat :=
  if cf_crash c then 0%nat else (total weight (cf_threads c) + (List.length (cf_threads c) - cf_pos c))%nat.
Record inv (c : config) : Prop := {
  i_cache : forall u h, mget (cf_cache c) u = Some h -> genuine u h;
  i_threads : Forall thread_ok (cf_threads c);
  i_rs : map fst (cf_threads c) = rs;
  i_pos : (cf_pos c <= List.length (cf_threads c))%nat;
  i_done : forall j t, (j < cf_pos c)%nat -> nth_error (cf_threads c) j = Some t -> exists x, snd t = TDone x;
  i_err : cf_err c = true -> exists j r x, (j < cf_pos c)%nat /\ nth_error (cf_threads c) j = Some (r, TDone x) /\ x <> Ok tt;
  i_noerr : cf_err c = false -> forall j t, (j < cf_pos c)%nat -> nth_error (cf_threads c) j = Some t -> snd t = TDone (Ok tt)
}.
Lemma inv_set_thread c i r s s' : inv c -> nth_error (cf_threads c) i = Some (r, s) -> (forall x, s <> TDone x) ->
  thread_ok (r, s') -> inv (set_thread c i (r, s')).
Proof.
  intros [I1 I2 I3 I4 I5 I6 I7] Hi Hs Hok.
  assert (Hpi : (cf_pos c <= i)%nat).
  { destruct (le_lt_dec (cf_pos c) i) as [|Hlt]; [assumption|].
    destruct (I5 _ _ Hlt Hi) as [x Hx]. cbn in Hx. exfalso. exact (Hs _ Hx). }
  assert (Hold : forall j, (j < cf_pos c)%nat -> nth_error (cf_threads (set_thread c i (r, s'))) j = nth_error (cf_threads c) j).
  { intros j Hj. cbn [set_thread cf_threads]. eapply set_nth_other; [eassumption|lia]. }
  split; cbn [set_thread cf_cache cf_pos cf_err cf_crash].
  - assumption.
  - cbn [set_thread cf_threads]. apply Forall_forall. intros t Ht. apply In_nth_error in Ht as [j Hj].
    destruct (Nat.eq_dec i j) as [<-|Hij].
    + rewrite (set_nth_same _ _ _ _ Hi) in Hj. injection Hj as <-. assumption.
    + rewrite (set_nth_other _ _ _ _ _ Hi Hij) in Hj. apply nth_error_In in Hj.
      rewrite Forall_forall in I2. apply I2. assumption.
  - cbn [set_thread cf_threads]. rewrite (set_nth_map fst _ _ _ _ Hi); [assumption|reflexivity].
  - cbn [set_thread cf_threads]. rewrite (set_nth_len _ _ _ _ Hi). assumption.
  - intros j t Hj. rewrite (Hold j Hj). apply I5. assumption.
  - intros He. destruct (I6 He) as (j & r0 & x & Hj & Hn & Hx). exists j, r0, x. rewrite (Hold j Hj). auto.
  - intros He j t Hj. rewrite (Hold j Hj). apply I7; assumption.
Qed.
Lemma inv_set_cache c m : inv c -> (forall u h, mget m u = Some h -> genuine u h) -> inv (set_cache c m).
Proof. intros [I1 I2 I3 I4 I5 I6 I7] Hm. split; assumption. Qed.
Lemma thread_at c i t : inv c -> nth_error (cf_threads c) i = Some t -> thread_ok t.
Proof. intros I Hi. apply nth_error_In in Hi. pose proof (i_threads _ I) as H. rewrite Forall_forall in H. auto. Qed.
Lemma inv_step c d : inv c -> step E serve c d -> inv d.
Proof.
  intros I Hst.
  destruct Hst as [i r h Hc Hi Hm|i r Hc Hi Hm|i r a e Hc Hi Hs Hb|i r a b Hc Hi Hs Hb|i r h Hc Hi|i r h Hc Hi Hv|i r h Hc Hi Hv|r x Hc Hi].
  - eapply inv_set_thread; eauto; [discriminate|]. cbn. eapply i_cache; eassumption.
  - eapply inv_set_thread; eauto; [discriminate|]. exact Logic.I.
  - eapply inv_set_thread; eauto; [discriminate|]. exact Logic.I.
  - eapply inv_set_thread; eauto; [discriminate|]. cbn. exists a, b. split; [assumption|]. split; [apply body_received; assumption|reflexivity].
  - pose proof (thread_at _ _ _ I Hi) as Hg. cbn in Hg. apply inv_set_cache.
    + eapply inv_set_thread; eauto. discriminate.
    + intros u h'. rewrite mget_mset. destruct (String.eqb_spec u (rr_id r)) as [->|].
      * intros [= <-]. assumption.
      * apply (i_cache _ I).
  - pose proof (thread_at _ _ _ I Hi) as Hg. cbn in Hg. eapply inv_set_thread; eauto; [discriminate|].
    unfold thread_ok. cbn [fst snd]. destruct (validate_single E r h) as [[]| |] eqn:Ev; try exact Logic.I.
    destruct Hg as (a & b & Hs & Hr & ->). exists a, b. split; [assumption|]. split; [assumption|]. apply validate_single_sound. assumption.
  - destruct I as [I1 I2 I3 I4 I5 I6 I7]. split; assumption.
  - destruct I as [I1 I2 I3 I4 I5 I6 I7]. split; cbn [cf_cache cf_threads cf_pos cf_err]; try assumption.
    + change (cf_pos c < List.length (cf_threads c))%nat. apply nth_error_Some. rewrite Hi. discriminate.
    + intros j t Hj Hn. destruct (Nat.eq_dec j (cf_pos c)) as [->|]; [|apply (I5 j); [lia|assumption]].
      rewrite Hi in Hn. injection Hn as <-. exists x. reflexivity.
    + intros He. destruct (cf_err c) eqn:Hce.
      * destruct (I6 eq_refl) as (j & r0 & x0 & Hj & Hn & Hx). exists j, r0, x0. repeat split; [lia|assumption|assumption].
      * cbn [orb] in He. exists (cf_pos c), r, x. repeat split; [lia|assumption|]. intros ->. discriminate.
    + intros He j t Hj Hn. apply orb_false_iff in He as [He1 He2].
      destruct (Nat.eq_dec j (cf_pos c)) as [->|]; [|apply (I7 He1 j); [lia|assumption]].
      rewrite Hi in Hn. injection Hn as <-. cbn. destruct x as [[]| |]; [reflexivity|discriminate|discriminate].
Qed.
Lemma inv_others c d : inv c -> others_step E serve c d -> inv d.
Proof.
  intros I [m Hm|u a b Hs Hb]; (apply inv_set_cache; [assumption|]).
  - intros k h Hk. destruct (Hm k) as [Hn|He]; [congruence|]. rewrite He in Hk. exact (i_cache _ I _ _ Hk).
  - intros k h. rewrite mget_mset. destruct (String.eqb_spec k u) as [->|].
    + intros [= <-]. exists a, b. split; [assumption|]. split; [apply body_received; assumption|reflexivity].
    + apply (i_cache _ I).
Qed.
Lemma inv_start cache : (forall u h, mget cache u = Some h -> genuine u h) -> inv (start cache rs).
Proof.
  intros Hc. split; cbn [start cf_cache cf_threads cf_pos cf_err].
  - assumption.
  - apply Forall_forall. intros t Ht. apply in_map_iff in Ht as (r & <- & _). exact Logic.I.
  - rewrite map_map. cbn. apply map_id.
  - lia.
  - intros j t Hj. lia.
  - discriminate.
  - intros _ j t Hj. lia.
Qed.
Lemma inv_run c n d : inv c -> run E serve c n d -> inv d.
Proof. intros I H. induction H; [assumption|eapply inv_step; eassumption|eapply inv_others; eassumption]. Qed.

(** *** Termination *)
Lemma measure_step c d : inv c -> step E serve c d -> (measure d < measure c)%nat.
Proof.
  intros I Hst. unfold measure.
  destruct Hst as [i r h Hc Hi Hm|i r Hc Hi Hm|i r a e Hc Hi Hs Hb|i r a b Hc Hi Hs Hb|i r h Hc Hi|i r h Hc Hi Hv|i r h Hc Hi Hv|r x Hc Hi];
    cbn [set_cache set_thread cf_crash cf_threads cf_pos]; rewrite Hc; try rewrite (set_nth_len _ _ _ _ Hi).
  - pose proof (set_nth_total weight _ _ (r, THas h) _ Hi) as Ht. cbn [weight snd] in Ht. lia.
  - pose proof (set_nth_total weight _ _ (r, TFetch) _ Hi) as Ht. cbn [weight snd] in Ht. lia.
  - pose proof (set_nth_total weight _ _ (r, TDone (Err e)) _ Hi) as Ht. cbn [weight snd] in Ht. lia.
  - pose proof (set_nth_total weight _ _ (r, TAdd (calc E b)) _ Hi) as Ht. cbn [weight snd] in Ht. lia.
  - pose proof (set_nth_total weight _ _ (r, THas h) _ Hi) as Ht. cbn [weight snd] in Ht. lia.
  - pose proof (set_nth_total weight _ _ (r, TDone (validate_single E r h)) _ Hi) as Ht. cbn [weight snd] in Ht. lia.
  - pose proof (set_nth_total weight _ _ (r, TDone (Ok tt)) _ Hi) as Ht. cbn [weight snd] in Ht. lia.
  - assert (cf_pos c < List.length (cf_threads c))%nat by (apply nth_error_Some; congruence). lia.
Qed.
Lemma measure_others c d : others_step E serve c d -> measure d = measure c.
Proof. intros [m Hm|u a b Hs Hb]; reflexivity. Qed.
Lemma measure_run c n d : inv c -> run E serve c n d -> (n + measure d <= measure c)%nat.
Proof.
  intros I H. induction H as [|n d e H IH Hst|n d e H IH Hst].
  - lia.
  - pose proof (measure_step _ _ (inv_run _ _ _ I H) Hst). lia.
  - rewrite (measure_others _ _ Hst). assumption.
Qed.
Lemma measure_start cache : measure (start cache rs) = (5 * List.length rs)%nat.
Proof.
  unfold measure, start. cbn [cf_crash cf_threads cf_pos]. rewrite map_length.
  assert (Ht : total weight (map (fun r => (r, TStart)) rs) = (4 * List.length rs)%nat).
  { induction rs as [|x l IH]; [reflexivity|]. cbn [map total fold_right weight snd List.length].
    unfold total in IH. rewrite IH. lia. }
  rewrite Ht. lia.
Qed.
Lemma progress c : inv c -> (forall u, exists a, serve u a /\ body_of a <> Panic) ->
  cf_crash c = true \/ (exists r, returned c r) \/ exists d, step E serve c d.
Proof.
  intros I Hsrv. destruct (cf_crash c) eqn:Hc; [left; reflexivity|]. right.
  destruct (Nat.eq_dec (cf_pos c) (List.length (cf_threads c))) as [He|Hne].
  - left. eexists. split; [assumption|]. split; [assumption|reflexivity].
  - right. pose proof (i_pos _ I) as Hle.
    destruct (nth_error (cf_threads c) (cf_pos c)) as [[r t]|] eqn:Hn; [|apply nth_error_None in Hn; lia].
    destruct t as [| |h|h|x].
    + destruct (mget (cf_cache c) (rr_id r)) eqn:Hm; eexists; [eapply st_hit|eapply st_miss]; eassumption.
    + destruct (Hsrv (rr_id r)) as (a & Hs & Hp). destruct (body_of a) eqn:Hb; [|eexists; eapply st_fail; eassumption|contradiction].
      eexists; eapply st_got; eassumption.
    + eexists; eapply st_add; eassumption.
    + destruct (validate_single E r h) eqn:Hv; [| |eexists; eapply st_crash; eassumption];
        eexists; eapply st_check; try eassumption; congruence.
    + eexists; eapply st_recv; eassumption.
Qed.
Lemma no_crash c n d : inv c -> cf_crash c = false -> (forall r, In r rs -> ~ short_digest E r) -> run E serve c n d -> cf_crash d = false.
Proof.
  intros I Hc Hsd H. induction H as [|n d e H IH Hst|n d e H IH Hst]; [assumption| |].
  - pose proof (inv_run _ _ _ I H) as Id. destruct Hst; try assumption; try reflexivity.
    exfalso. apply validate_single_panic in H2. refine (Hsd r _ H2).
    rewrite <- (i_rs _ Id). apply in_map_iff. exists (r, THas h). split; [reflexivity|]. eapply nth_error_In; eassumption.
  - destruct Hst; assumption.
Qed.

(** *** What is returned *)
Lemma returned_sound c r : inv c -> returned c r -> r = Ok tt ->
  forall x, In x rs -> exists a b, serve (rr_id x) a /\ received a b /\ matches E x b.
Proof.
  intros I (Hc & Hp & Hr) -> x Hx. destruct (cf_err c) eqn:He; [discriminate|].
  rewrite <- (i_rs _ I) in Hx. apply in_map_iff in Hx as ([x' t] & Hx' & Hin). cbn in Hx'. subst x'.
  apply In_nth_error in Hin as [j Hj].
  assert (Hlt : (j < cf_pos c)%nat) by (rewrite Hp; apply nth_error_Some; congruence).
  pose proof (i_noerr _ I He _ _ Hlt Hj) as Ht. cbn in Ht. subst t.
  exact (thread_at _ _ _ I Hj).
Qed.
End Inv.

(** *** A server that always answers the same *)
Definition settled (E : renv) (srv : string -> answer) (t : relres * tstate) : Prop :=
  forall x, snd t = TDone x -> x <> Ok tt -> ~ exists b, received (srv (rr_id (fst t))) b /\ matches E (fst t) b.
Lemma settled_step E srv rs c d : (forall a b, 2 <= String.length (re_hash E a b))%nat ->
  inv E (fun u a => a = srv u) rs c -> Forall (settled E srv) (cf_threads c) ->
  step E (fun u a => a = srv u) c d -> Forall (settled E srv) (cf_threads d).
Proof.
  intros Hlen I Hs Hst.
  assert (Hset : forall i r s s', nth_error (cf_threads c) i = Some (r, s) -> settled E srv (r, s') ->
            Forall (settled E srv) (cf_threads (set_thread c i (r, s')))).
  { intros i r s s' Hi Hok. cbn [set_thread cf_threads]. apply Forall_forall. intros t Ht. apply In_nth_error in Ht as [j Hj].
    destruct (Nat.eq_dec i j) as [<-|Hij].
    - rewrite (set_nth_same _ _ _ _ Hi) in Hj. injection Hj as <-. assumption.
    - rewrite (set_nth_other _ _ _ _ _ Hi Hij) in Hj. apply nth_error_In in Hj. rewrite Forall_forall in Hs. auto. }
  destruct Hst as [i r h Hc Hi Hm|i r Hc Hi Hm|i r a e Hc Hi Ha Hb|i r a b Hc Hi Ha Hb|i r h Hc Hi|i r h Hc Hi Hv|i r h Hc Hi Hv|r x Hc Hi];
    try assumption; try (eapply Hset; [eassumption|]; intros ? HH; discriminate HH).
  - eapply Hset; [eassumption|]. intros x [= <-] _ (b & Hr & _). cbn [fst] in Hr. subst a. apply received_body in Hr. congruence.
  - eapply Hset; [eassumption|]. intros x [= <-] Hx (b & Hr & Hma). cbn [fst] in *.
    pose proof (thread_at _ _ _ _ _ _ I Hi) as (a & b' & -> & Hr' & ->). cbn [fst] in *.
    assert (b' = b) as -> by (destruct Hr as [Hr _], Hr' as [Hr' _]; congruence).
    apply Hx. apply validate_single_complete; auto.
Qed.
Lemma settled_run E srv rs c n d : (forall a b, 2 <= String.length (re_hash E a b))%nat ->
  inv E (fun u a => a = srv u) rs c -> Forall (settled E srv) (cf_threads c) ->
  run E (fun u a => a = srv u) c n d -> Forall (settled E srv) (cf_threads d).
Proof.
  intros Hlen I Hs H. induction H as [|n d e H IH Hst|n d e H IH Hst]; [assumption| |].
  - apply (settled_step E srv rs d e Hlen); try assumption. exact (inv_run _ _ _ _ _ _ I H).
  - destruct Hst; assumption.
Qed.
