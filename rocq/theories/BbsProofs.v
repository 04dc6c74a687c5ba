(** Lemmas for BBS+ selective disclosure. *)
From Coq Require Import Permutation.
From Verif Require Import GoBase Base64 StrLemmas JwtSpec DiSpec VcSpec JwtModel JwtProofs SdSpec SdModel SdParse DiModel VcModel VcJwt VcParse VcSign VpModel
  ResSpec ResModel VcView VcProps LdProofs SdIssueVc BbsModel BbsSpec.

Lemma has_suffix_ok suf s : has_suffix suf s = true <-> exists pre, s = pre ++ suf.
Proof.
  unfold has_suffix. split.
  - intros H. apply andb_prop in H as [_ H]. apply String.eqb_eq in H.
    exists (str_take (String.length s - String.length suf) s). rewrite <- H at 2. now rewrite str_take_drop.
  - intros [pre ->]. rewrite append_length. apply andb_true_intro. split; [apply Nat.leb_le; lia|].
    replace (String.length pre + String.length suf - String.length suf)%nat with (String.length pre) by lia. rewrite JwtProofs.str_drop_app. apply String.eqb_refl.
Qed.
Lemma is_bls_ok p : is_bls p = true <-> names_bbs p.
Proof.
  unfold is_bls, names_bbs. split.
  - destruct (mget p "type") as [[]|]; try discriminate. intros H. apply has_suffix_ok in H as [pre ->]. now exists pre.
  - intros [pre ->]. apply has_suffix_ok. now exists pre.
Qed.
Lemma filter_picks {A} (f : A -> bool) (P : A -> Prop) (Hf : forall x, f x = true <-> P x) l : picks P l (filter f l).
Proof.
  induction l as [|x l IH]; cbn [filter]; [constructor|]. destruct (f x) eqn:E.
  - apply picks_take; [now apply Hf|assumption].
  - apply picks_skip; [intros H; apply Hf in H; congruence|assumption].
Qed.
Lemma get_entries j ps : get_proofs j = Ok ps -> entries j ps.
Proof.
  destruct j; cbn [get_proofs]; try discriminate; intros H.
  - apply map_res_obj in H as ->. constructor.
  - injection H as <-. constructor.
Qed.
Lemma before_hash_split kid : before_hash kid (hd "" (split_on "#" kid)).
Proof.
  induction kid as [|a s IH]; [split; [intros []|now left]|]. cbn [split_on]. destruct (Ascii.eqb_spec a "#") as [->|Hne].
  - cbn [hd]. split; [intros []|]. right. now exists s.
  - destruct (split_on "#" s) as [|p ps] eqn:E; [now apply split_on_nonempty in E|]. cbn [hd] in *. destruct IH as [H1 H2]. split.
    + cbn. intros [H|H]; [congruence|contradiction].
    + destruct H2 as [->|[r ->]]; [now left|right; now exists r].
Qed.

(** *** Indexes *)
Lemma last_index_absent l s : forall i acc, ~ In s l -> last_index l s i acc = acc.
Proof.
  induction l as [|x l IH]; intros i acc H; cbn [last_index]; [reflexivity|]. cbn [In] in H.
  destruct (String.eqb_spec x s); [tauto|]. apply IH. tauto.
Qed.
Lemma last_index_in l s : forall i acc, In s l -> exists j, last_index l s i acc = (i + j)%nat /\ nth_error l j = Some s /\ ~ In s (skipn (S j) l).
Proof.
  induction l as [|x l IH]; intros i acc H; [destruct H|]. cbn [last_index].
  destruct (in_dec string_dec s l) as [Hin|Hnin].
  - destruct (IH (S i) (if String.eqb x s then i else acc) Hin) as (j & E & Hn & Hl). exists (S j). rewrite E. split; [lia|]. split; assumption.
  - rewrite last_index_absent by assumption. destruct H as [->|H]; [|contradiction]. rewrite String.eqb_refl. exists 0%nat.
    split; [lia|]. split; [reflexivity|assumption].
Qed.
Lemma statement_in l s : In s l -> nth_error l (statement_index l s) = Some s.
Proof. intros H. destruct (last_index_in l s 0 0 H) as (j & E & Hn & _). unfold statement_index. rewrite E. exact Hn. Qed.
Lemma statement_absent l s : ~ In s l -> statement_index l s = 0%nat.
Proof. intros H. unfold statement_index. now apply last_index_absent. Qed.

(** *** Structure of a disclosure *)
Lemma with_ctx p : with_context p (mset p "@context" (JStr security_context)).
Proof. intros k. rewrite mget_mset. destruct (String.eqb_spec k "@context"); reflexivity. Qed.
Lemma mget_filter {V} (m : gomap V) k0 k : mget (filter (fun kv => negb (String.eqb (fst kv) k0)) m) k = if String.eqb k k0 then None else mget m k.
Proof.
  induction m as [|[a v] m IH]; cbn [filter fst]; [now destruct (String.eqb k k0)|].
  destruct (String.eqb_spec a k0) as [->|Hne]; cbn [negb].
  - rewrite IH. cbn [mget]. destruct (String.eqb_spec k k0); reflexivity.
  - cbn [mget]. rewrite IH. destruct (String.eqb_spec k a) as [->|]; [destruct (String.eqb_spec a k0); [contradiction|reflexivity]|reflexivity].
Qed.
Lemma options_ok p : proof_options p (filter (fun kv => negb (String.eqb (fst kv) "proofValue")) (mset p "@context" (JStr security_context))).
Proof.
  split; [intros H; rewrite <- SdIssueVc.mdel_filter; now apply mdel_nodup, mset_nodup|].
  intros k. rewrite mget_filter, mget_mset. destruct (String.eqb_spec k "@context") as [->|]; [reflexivity|]. destruct (String.eqb_spec k "proofValue"); reflexivity.
Qed.
Lemma get_any_null p k : k <> "@context" -> get_any (mset p "@context" (JStr security_context)) k = or_null (mget p k).
Proof. intros H. unfold get_any. rewrite mget_mset. destruct (String.eqb_spec k "@context"); [contradiction|reflexivity]. Qed.
Lemma filter_map_ctx {A B} (g : A -> B) f l r (P : A -> B -> Prop) : Forall2 (fun y z => f y = Ok z) (map g l) r -> 
  (forall x z, f (g x) = Ok z -> P x z) -> Forall2 P l r.
Proof.
  intros H HP. revert r H. induction l as [|x l IH]; intros r H; inversion H; subst; constructor; auto.
Qed.

Record disclosed (L : bbslib) (c : bbscreator) (nonce : string) (doc reveal out : gomap json) (d framed : gomap json) (pj : json)
  (all bbs qs : list (gomap json)) (dt rt : string) : Prop := {
  ds_compact : bl_compact L doc = Ok d;
  ds_proof : mget d "proof" = Some pj;
  ds_entries : entries pj all;
  ds_bbs : picks names_bbs all bbs;
  ds_some : bbs <> [];
  ds_canon : bl_canon L (mdel d "proof") = Ok dt;
  ds_frame : bl_frame L (mdel d "proof") reveal = Ok framed;
  ds_rcanon : bl_canon L framed = Ok rt;
  ds_out : out = mset framed "proof" (JArr (map JObj qs));
  ds_each : Forall2 (fun p q => exists st x, made_from L c nonce p q st x /\ ca_msgs x = (st ++ split_lines dt)%list
     /\ ca_idx x = (seq 0 (List.length st) ++ map (Nat.add (List.length st)) (map (statement_index (map (bl_blank L) (split_lines dt))) (split_lines rt)))%list) bbs qs }.
Lemma disclosed_ok L cr doc reveal nonce out : bbs_disclose L cr doc reveal nonce = Ok out ->
  exists c d framed pj all bbs qs dt rt, cr = Some c /\ disclosed L c nonce doc reveal out d framed pj all bbs qs dt rt.
Proof.
  intros H. unfold bbs_disclose in H. apply bind_ok in H as ([d' pj] & Hp & H). cbn [fst snd] in H. unfold prepare_doc in Hp.
  apply bind_ok in Hp as (d & Hc & Hp). destruct (fld d "proof") as [pj'|] eqn:Ef; [|discriminate]. injection Hp as <- ->.
  apply bind_ok in H as (bs & Hb & H). unfold get_bls_proofs in Hb. apply bind_ok in Hb as (all & Hg & Hb). injection Hb as <-.
  destruct (filter is_bls all) as [|b0 bs0] eqn:Efl; [discriminate|]. rewrite <- Efl in H.
  assert (H' : (let* d0 := build_doc L (mdel d "proof") reveal in
      let* ps := map_res (fun p => let* v := build_verification L p d0 in derive_one L cr nonce p v) (map (fun p => mset p "@context" (JStr security_context)) (filter is_bls all)) in
      Ok (mset (dd_result d0) "proof" (JArr (map JObj ps)))) = Ok out).
  { rewrite Efl in H |- *. exact H. }
  clear H. apply bind_ok in H' as (dd & Hd & H). apply bind_ok in H as (qs & Hq & H). injection H as <-.
  unfold build_doc in Hd. apply bind_ok in Hd as (ds & Hds & Hd). apply bind_ok in Hd as (fr & Hfr & Hd). apply bind_ok in Hd as (rs & Hrs & Hd). injection Hd as <-.
  unfold doc_statements in Hds, Hrs. apply bind_ok in Hds as (dt & Hdt & Hds). injection Hds as <-. apply bind_ok in Hrs as (rt & Hrt & Hrs). injection Hrs as <-.
  cbn [dd_result] in *.
  destruct cr as [c|].
  2:{ exfalso. rewrite Efl in Hq. cbn [map map_res] in Hq. apply bind_ok in Hq as (y & Hy & _). apply bind_ok in Hy as (v & _ & Hy). discriminate. }
  exists c, d, fr, pj, all, (filter is_bls all), qs, dt, rt. split; [reflexivity|].
  apply LdProofs.fld_some in Ef as [Ef _].
  constructor; try assumption.
  - now apply get_entries.
  - apply filter_picks, is_bls_ok.
  - rewrite Efl. discriminate.
  - reflexivity.
  - apply map_res_forall2 in Hq. eapply (filter_map_ctx _ _ _ _ _ Hq). clear. cbn beta. intros p q H.
    apply bind_ok in H as (v & Hv & H). unfold build_verification in Hv. apply bind_ok in Hv as (st & Hst & Hv). injection Hv as <-.
    cbn [derive_one dd_reveal dd_statements] in H. apply bind_ok in H as ([pk sg] & Hk & H). apply bind_ok in H as (s & Hs & H). injection H as <-. cbn [fst snd] in *.
    unfold key_and_signature in Hk. apply bind_ok in Hk as ([rk sg'] & Hp & Hk). cbn [fst snd] in Hk. apply bind_ok in Hk as (kid & -> & Hk). apply bind_ok in Hk as (vm & Hvm & Hk). injection Hk as <- ->.
    unfold proof_statements, doc_statements in Hst. apply bind_ok in Hst as (t & Ht & Hst). injection Hst as <-.
    eexists (split_lines t), {| ca_msgs := _; ca_sig := sg; ca_nonce := nonce; ca_key := vm_value vm; ca_idx := _; ca_proof := s |}.
    split; [constructor|split; reflexivity].
    + unfold asked. cbn [ca_msgs ca_sig ca_nonce ca_key ca_idx ca_proof]. exact Hs.
    + reflexivity.
    + eexists _, t. split; [apply options_ok|]. split; [exact Ht|reflexivity].
    + eexists _, kid, _, vm. split; [apply with_ctx|]. split; [exact Hp|]. split; [apply before_hash_split|]. split; [exact Hvm|reflexivity].
    + cbn [ca_proof]. rewrite !get_any_null by discriminate. reflexivity.
Qed.

(** *** Lines *)
Lemma split_on_sep sep a b : split_on sep (a ++ String sep b) = (split_on sep a ++ split_on sep b)%list.
Proof.
  induction a as [|c a IH]; cbn [append split_on].
  - now rewrite Ascii.eqb_refl.
  - destruct (Ascii.eqb c sep); [now rewrite IH|]. rewrite IH. destruct (split_on sep a) as [|p ps] eqn:E; [now apply split_on_nonempty in E|]. reflexivity.
Qed.
Lemma split_lines_app a b : split_lines (a ++ String nl b) = (split_lines a ++ split_lines b)%list.
Proof. unfold split_lines. now rewrite split_on_sep, filter_app. Qed.
Lemma split_lines_nil : split_lines "" = [].
Proof. reflexivity. Qed.
Lemma lines_of_two a b : a = "" \/ (exists t, a = t ++ String nl "") -> split_lines (a ++ b) = (split_lines a ++ split_lines b)%list.
Proof.
  intros [->|[t ->]]; [reflexivity|]. rewrite append_assoc_s. cbn [append]. rewrite !split_lines_app, split_lines_nil, app_nil_r. reflexivity.
Qed.

(** *** Ascending indexes *)
From Coq Require Import Sorting.Sorted.
Lemma sorted_nth l : StronglySorted lt l -> forall i j, (i < j < List.length l)%nat -> (nth i l 0 < nth j l 0)%nat.
Proof.
  induction 1 as [|x l Hs IH Hf]; intros i j Hij; cbn [List.length] in Hij; [lia|].
  destruct j as [|j]; [lia|]. destruct i as [|i]; cbn [nth].
  - rewrite Forall_forall in Hf. apply Hf, nth_In. lia.
  - apply IH. lia.
Qed.
Lemma sorted_app l l' : StronglySorted lt l -> StronglySorted lt l' -> (forall x y, In x l -> In y l' -> (x < y)%nat) -> StronglySorted lt (l ++ l')%list.
Proof.
  induction 1 as [|x l Hs IH Hf]; intros H' H; cbn [app]; [assumption|]. constructor.
  - apply IH; [assumption|]. intros a b Ha Hb. apply H; [now right|assumption].
  - apply Forall_app. split; [assumption|]. apply Forall_forall. intros y Hy. apply H; [now left|assumption].
Qed.
Lemma sorted_seq n : forall a, StronglySorted lt (seq a n).
Proof.
  induction n as [|n IH]; intros a; cbn [seq]; constructor; [apply IH|]. apply Forall_forall. intros y Hy. apply in_seq in Hy. lia.
Qed.
Lemma sorted_shift n l : StronglySorted lt l -> StronglySorted lt (map (Nat.add n) l).
Proof.
  induction 1 as [|x l Hs IH Hf]; cbn [map]; constructor; [assumption|]. apply Forall_forall. intros y Hy. apply in_map_iff in Hy as (z & <- & Hz).
  rewrite Forall_forall in Hf. specialize (Hf z Hz). lia.
Qed.
Lemma nth_unique {A} (l : list A) i j x : NoDup l -> nth_error l i = Some x -> nth_error l j = Some x -> i = j.
Proof.
  intros Hn Hi Hj. rewrite NoDup_nth_error in Hn. apply Hn; [apply nth_error_Some; congruence|congruence].
Qed.
Lemma subseq_in {A} (a b : list A) : subseq a b -> forall x, In x a -> In x b.
Proof. induction 1 as [l|x a b H IH|x a b H IH]; intros y Hy; [destruct Hy|destruct Hy as [->|Hy]; [now left|right; auto]|right; auto]. Qed.
Lemma subseq_sorted rs l0 : subseq rs l0 -> forall pre, NoDup (pre ++ l0)%list ->
  StronglySorted lt (map (statement_index (pre ++ l0)%list) rs) /\ Forall (fun r => (List.length pre <= statement_index (pre ++ l0)%list r)%nat) rs.
Proof.
  induction 1 as [l|x rs l H IH|x rs l H IH]; intros pre Hn.
  - split; constructor.
  - assert (E : (pre ++ x :: l)%list = ((pre ++ [x]) ++ l)%list) by now rewrite <- app_assoc.
    assert (Hn' := Hn). rewrite E in Hn'. destruct (IH (pre ++ [x])%list Hn') as [Hs Hf]. rewrite <- E in Hs, Hf. rewrite app_length in Hf. cbn [List.length] in Hf.
    assert (Hx : statement_index (pre ++ x :: l)%list x = List.length pre).
    { eapply nth_unique; [exact Hn|apply statement_in, in_elt|]. rewrite nth_error_app2 by lia. now rewrite Nat.sub_diag. }
    split.
    + cbn [map]. constructor; [assumption|]. rewrite Hx. apply Forall_forall. intros y Hy. apply in_map_iff in Hy as (r & <- & Hr).
      rewrite Forall_forall in Hf. specialize (Hf r Hr). lia.
    + constructor; [lia|]. eapply Forall_impl; [|exact Hf]. cbn beta. intros; lia.
  - assert (E : (pre ++ x :: l)%list = ((pre ++ [x]) ++ l)%list) by now rewrite <- app_assoc.
    assert (Hn' := Hn). rewrite E in Hn'. destruct (IH (pre ++ [x])%list Hn') as [Hs Hf]. rewrite <- E in Hs, Hf. rewrite app_length in Hf. cbn [List.length] in Hf.
    split; [assumption|]. eapply Forall_impl; [|exact Hf]. cbn beta. intros; lia.
Qed.
Lemma idx_ascending n rs l : subseq rs l -> NoDup l -> forall i j,
  (i < j < List.length (seq 0 n ++ map (Nat.add n) (map (statement_index l) rs)))%nat ->
  (nth i (seq 0 n ++ map (Nat.add n) (map (statement_index l) rs))%list 0 < nth j (seq 0 n ++ map (Nat.add n) (map (statement_index l) rs))%list 0)%nat.
Proof.
  intros Hs Hn. apply sorted_nth, sorted_app; [apply sorted_seq|apply sorted_shift; exact (proj1 (subseq_sorted rs l Hs [] Hn))|].
  intros x y Hx Hy. apply in_seq in Hx. apply in_map_iff in Hy as (z & <- & _). lia.
Qed.

(** *** What is shown *)
Lemma shown_seq (st rest : list string) : Forall2 (fun i m => nth_error (st ++ rest)%list i = Some m) (seq 0 (List.length st)) st.
Proof.
  enough (H : forall pre st, Forall2 (fun i m => nth_error (pre ++ st ++ rest)%list i = Some m) (seq (List.length pre) (List.length st)) st) by exact (H [] st).
  clear st. intros pre st. revert pre. induction st as [|x st IH]; intros pre; cbn [List.length seq]; constructor.
  - rewrite nth_error_app2 by lia. now rewrite Nat.sub_diag.
  - specialize (IH (pre ++ [x])%list). rewrite app_length in IH. cbn [List.length] in IH. rewrite Nat.add_1_r, <- app_assoc in IH. exact IH.
Qed.
Lemma shown_rows (f : string -> string) (st ds rs : list string) : (forall r, In r rs -> In r (map f ds)) ->
  exists rows, Forall2 (fun i m => nth_error (st ++ ds)%list i = Some m) (map (Nat.add (List.length st)) (map (statement_index (map f ds)) rs)) rows
    /\ map f rows = rs /\ forall x, In x rows -> In x ds.
Proof.
  induction rs as [|r rs IH]; intros H; [exists []; split; [constructor|]; split; [reflexivity|intros x []]|].
  destruct IH as (rows & H1 & H2 & H3); [intros x Hx; apply H; now right|].
  assert (Hr : nth_error (map f ds) (statement_index (map f ds) r) = Some r) by (apply statement_in, H; now left).
  rewrite nth_error_map in Hr. destruct (nth_error ds (statement_index (map f ds) r)) as [row|] eqn:E; [|discriminate]. injection Hr as Hr.
  exists (row :: rows). split; [|split].
  - cbn [map]. constructor; [|exact H1]. rewrite nth_error_app2 by lia. replace (_ + _ - _)%nat with (statement_index (map f ds) r) by lia. exact E.
  - cbn [map]. now rewrite Hr, H2.
  - intros x [<-|Hx]; [eapply nth_error_In; exact E|auto].
Qed.

(** *** Uniqueness *)
Lemma map_jobj_inj (a b : list (gomap json)) : map JObj a = map JObj b -> a = b.
Proof. revert b. induction a as [|x a IH]; intros [|y b] H; try discriminate; [reflexivity|]. cbn [map] in H. injection H as -> H. f_equal. auto. Qed.
Lemma entries_det j a b : entries j a -> entries j b -> a = b.
Proof. intros H H'. inversion H; subst; inversion H'; subst; try reflexivity. symmetry. now apply map_jobj_inj. Qed.
Lemma picks_det {A} (P : A -> Prop) l a : picks P l a -> forall b, picks P l b -> a = b.
Proof. induction 1; intros b H'; inversion H'; subst; try contradiction; [reflexivity|f_equal; auto|auto]. Qed.

Lemma forall2_nth {A B} (P : A -> B -> Prop) l l' : Forall2 P l l' -> forall i x y, nth_error l i = Some x -> nth_error l' i = Some y -> P x y.
Proof. induction 1; intros [|i] a b; cbn [nth_error]; try discriminate; [congruence|eauto]. Qed.

Lemma names_bbs_derived p t : mget p "type" = Some (JStr t) -> t = "BbsBlsSignatureProof2020" -> ~ names_bbs p.
Proof. intros H -> Hb. apply is_bls_ok in Hb. unfold is_bls in Hb. rewrite H in Hb. vm_compute in Hb. discriminate. Qed.
Lemma picks_none {A} (P : A -> Prop) l : picks P l [] -> Forall (fun x => ~ P x) l.
Proof. remember [] as r. induction 1; try discriminate; constructor; auto. Qed.
Lemma map_res_same {A} (g : A -> res A) l : (forall x, In x l -> g x = Ok x) -> map_res g l = Ok l.
Proof. induction l as [|x l IH]; intros H; cbn [map_res]; [reflexivity|]. rewrite (H x) by now left. cbn [bind]. rewrite IH; [reflexivity|]. intros y Hy. apply H. now right. Qed.
