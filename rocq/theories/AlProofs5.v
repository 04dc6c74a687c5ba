(** Careful histories: one call, then all calls; what is untouched. *)
From Verif Require Import GoBase AlModel AlSpec AlProofs AlProofs2 AlProofs3 AlProofs4.
Local Open Scope nat_scope.

Definition allowed (gone : list nat) (x : op) : Prop :=
  match x with Parse r | Put r _ _ | Drop r _ => ~ In r gone | PutIn _ _ _ _ | DisplayMap _ => False | _ => True end.
Definition gone_after (gone : list nat) (x : op) : list nat := match x with Parse r => r :: gone | _ => gone end.
Lemma careful_cons : forall gone x l, careful gone (x :: l) -> allowed gone x /\ careful (gone_after gone x) l.
Proof. intros gone x l H. destruct x; cbn in *; tauto. Qed.

Section Step.
  Variables (T gone : list nat) (g : world go_store) (v : world value_store).
  Hypothesis HS : simT T gone g v.
  Lemma same : sim gone g v. Proof. exists T. exact HS. Qed.
  Lemma push_cred_sim : forall x y, newC T (w_mem g) x y -> sim gone (push_cred go_store g x) (push_cred value_store v y).
  Proof.
    intros x y H. destruct x as [[h2 c]| |], y as [[[] d]| |]; cbn in H; try contradiction; cbn [push_cred]; try apply same.
    destruct H as (h1 & ms & E & -> & L & A). exists (List.length h1 :: T). eapply new_cred_sim; eauto.
  Qed.
  Lemma push_map_sim : forall x y, newM T (w_mem g) x y -> sim gone (push_map go_store g x) (push_map value_store v y).
  Proof.
    intros x y H. destruct x as [[h2 c]| |], y as [[[] d]| |]; cbn in H; try contradiction; cbn [push_map]; try apply same.
    destruct H as (h1 & ms & E & -> & L & A). exists (List.length h1 :: T). eapply new_map_sim; eauto.
  Qed.
  Lemma put_cred_sim' : forall i c x y, nth_error (w_creds g) i = Some c -> putC T (c_json c) (w_mem g) x y -> sim gone (put_cred go_store g i x) (put_cred value_store v i y).
  Proof.
    intros i c x y N H. destruct (cred_T _ _ _ _ _ _ HS N) as (d0 & _ & Hin & _).
    destruct x as [[h2 c2]| |], y as [[[] d2]| |]; cbn in H; try contradiction; cbn [put_cred]; try apply same.
    destruct H as (h1 & ms & E & L & A & ->). exists T. eapply put_cred_sim; eauto.
  Qed.
  Lemma put_map_sim' : forall r o x y, ~ In r gone -> nth_error (w_maps g) r = Some o -> putM T o (w_mem g) x y -> sim gone (put_map go_store g r x) (put_map value_store v r y).
  Proof.
    intros r o x y G N H. destruct (map_T _ _ _ _ _ _ HS N) as (m0 & _ & Hm). destruct (Hm G) as [Hin _].
    destruct x as [[h2 c2]| |], y as [[[] d2]| |]; cbn in H; try contradiction; cbn [put_map]; try apply same.
    destruct H as (h1 & ms & E & -> & A & ->). exists T. eapply put_map_sim; eauto.
  Qed.
  Lemma on_cred_sim : forall i k k', (forall c d, nth_error (w_creds g) i = Some c -> cred_ok T (w_mem g) c d -> sim gone (k c) (k' d)) ->
    sim gone (on_cred go_store g i k) (on_cred value_store v i k').
  Proof.
    intros i k k' H. unfold on_cred. destruct (nth_error (w_creds g) i) as [c|] eqn:N.
    - destruct (cred_T _ _ _ _ _ _ HS N) as (d & -> & C). now apply H.
    - rewrite (cred_none _ _ _ _ _ HS N). apply same.
  Qed.
  Lemma on_map_sim : forall r k k', ~ In r gone -> (forall o m, nth_error (w_maps g) r = Some o -> map_ok T (w_mem g) o m -> sim gone (k o) (k' m)) ->
    sim gone (on_map go_store g r k) (on_map value_store v r k').
  Proof.
    intros r k k' G H. unfold on_map. destruct (nth_error (w_maps g) r) as [c|] eqn:N.
    - destruct (map_T _ _ _ _ _ _ HS N) as (d & -> & C). apply H; auto.
    - rewrite (map_none _ _ _ _ _ HS N). apply same.
  Qed.
  Lemma weaken : forall r, simT T (r :: gone) g v.
  Proof.
    intros r. destruct HS as [A B C D E F G]. constructor; auto.
    - intros s o m Hs. apply D. intros X. apply Hs. now right.
    - intros s s' o Hs Hs'. apply F; intros X; [apply Hs|apply Hs']; now right.
    - intros i s c o Hs. apply G. intros X. apply Hs. now right.
  Qed.
  Definition parsed (o : nat) (m : gomap json) (h : heap) (c : cred go_store) (d : cred value_store) : Prop :=
    c_json c = o /\ c_json d = m /\ mems_ok T h (c_cont c) (c_cont d) /\ vals_ok T h (c_proofs c) (c_proofs d) /\ c_env c = c_env d.
  Lemma parse_ok : forall h o m, below T h -> map_ok T h o m -> rel T (parsed o m) h (parse go_store o h) (parse value_store m tt).
  Proof.
    intros h o m B (Hin & ms & N & A). unfold parse.
    bnd_with (mems_ok T).
    { split; [apply ext_refl|]. cbn. now rewrite N. }
    intros h1 ms' m' E1 M1. assert (B1 : below T h1) by bel.
    bnd_with (vals_ok T); [now apply (proof_member_ok T)|]. intros h2 ps ps' E2 P. assert (B2 : below T h2) by bel.
    bnd_with (mems_ok T).
    { apply contents_of_ok; [assumption|]. now apply (mems_ok_ext T h1). }
    intros h3 cont cont' E3 C. apply rel_ret. repeat split; auto. now apply (vals_ok_ext T h2).
  Qed.
  Lemma parse_sim : forall r o m, ~ In r gone -> nth_error (w_maps g) r = Some o -> map_ok T (w_mem g) o m ->
    sim (r :: gone) (push_cred go_store g (parse go_store o (w_mem g))) (push_cred value_store v (parse value_store m tt)).
  Proof.
    intros r o m G N M. pose proof (parse_ok _ o m (si_below _ _ _ _ HS) M) as P.
    destruct (parse go_store o (w_mem g)) as [[h1 c]| |], (parse value_store m tt) as [[[] d]| |]; cbn in P; try contradiction; cbn [push_cred]; try (exists T; apply weaken).
    destruct P as [E (Lc & Ld & Cc & Pp & En)]. exists T. destruct M as (Hin & ms & No & A).
    constructor; cbn [w_mem w_creds w_maps].
    - intros l Hl. exact (below_ext T (w_mem g) h1 E (si_below _ _ _ _ HS) l Hl).
    - apply Forall2_app; [pose proof (si_creds _ _ _ _ HS) as F; revert F; apply F2_imp; intros a b _; now apply cred_ok_ext|]. constructor; [|constructor].
      split; [now rewrite Lc|]. exists ms. split; [rewrite Lc; now apply (ext_nth (w_mem g))|]. repeat split; auto. rewrite Ld. now apply (mems_ok_ext T (w_mem g)).
    - apply (si_len _ _ _ _ HS).
    - intros s x y Hs Nx Ny. eapply map_ok_ext; [exact E|]. apply (si_maps _ _ _ _ HS s); [|assumption|assumption]. intros X. apply Hs. now right.
    - intros i j x y Hi Hj Q. apply nth_snoc in Hi, Hj. destruct Hi as [Hi|[-> ->]], Hj as [Hj|[-> ->]]; [eapply si_cc; eauto| | |reflexivity]; exfalso.
      + eapply (si_cm _ _ _ _ HS); [exact G|exact Hi|exact N|congruence].
      + eapply (si_cm _ _ _ _ HS); [exact G|exact Hj|exact N|congruence].
    - intros s s' x Hs Hs'. apply (si_mm _ _ _ _ HS); intros X; [apply Hs|apply Hs']; now right.
    - intros i s x y Hs Hi Ny. assert (~ In s gone) by (intros X; apply Hs; now right). apply nth_snoc in Hi. destruct Hi as [Hi|[-> ->]]; [eapply si_cm; eauto|].
      rewrite Lc. intros <-. apply Hs. left. eapply (si_mm _ _ _ _ HS); eauto.
  Qed.
  Lemma rewrite_put : forall h o m f f', map_ok T h o m -> (forall ms js, mems_ok T h ms js -> mems_ok T h (f ms) (f' js)) ->
    putM T o h (rewrite_map go_store o f h) (rewrite_map value_store m f' tt).
  Proof. intros h o m f f' (Hin & ms & N & A) H. cbn. rewrite N. exists h, (f ms). repeat split; [apply ext_refl|]. now apply H. Qed.
  Lemma step_sim : forall x, allowed gone x -> sim (gone_after gone x) (step go_store g x) (step value_store v x).
  Proof.
    pose proof (si_below _ _ _ _ HS) as B. destruct v as [[] vc vm] eqn:Ev. rewrite <- Ev in *.
    assert (Hw : w_mem v = tt) by now rewrite Ev. clear Ev.
    intros x A. destruct x; cbn [allowed] in A; try contradiction; cbn [step gone_after]; rewrite ?Hw.
    - apply push_map_sim. eapply new_bnd; [apply load_members_ok, B|]. intros h1 ms js E F. now apply fresh_map_ok.
    - apply push_cred_sim. now apply create_ok.
    - unfold on_map. destruct (nth_error (w_maps g) r) as [o|] eqn:N.
      + destruct (map_T _ _ _ _ _ _ HS N) as (m & -> & M). eapply parse_sim; eauto.
      + rewrite (map_none _ _ _ _ _ HS N). exists T. apply weaken.
    - apply on_cred_sim. intros c d N C. apply push_cred_sim. now apply modify_ok.
    - apply on_cred_sim. intros c d N C. apply (put_cred_sim' i c); [assumption|]. eapply put_bnd; [apply load_ok, B|]. intros h1 u j E V.
      assert (C1 : cred_ok T h1 c d) by now apply (cred_ok_ext T (w_mem g)).
      apply write_json_ok; [assumption|assumption|]. destruct C1 as (_ & m & _ & _ & _ & P & _). exact P.
    - apply on_cred_sim. intros c d N C. apply (put_cred_sim' i c); [assumption|]. now apply reset_ok.
    - apply on_cred_sim. intros c d N C. apply (put_cred_sim' i c); [assumption|]. now apply add_ld_ok.
    - apply on_cred_sim. intros c d N C. apply (put_cred_sim' i c); [assumption|]. now apply add_di_ok.
    - apply on_cred_sim. intros c d N C. apply push_cred_sim. eapply new_bnd; [now apply to_raw_ok|]. intros h1 ms js E F.
      assert (C1 : cred_ok T h1 c d) by now apply (cred_ok_ext T (w_mem g)). destruct C1 as (_ & m & _ & _ & Cc & P & _). now apply new_cred_ok.
    - apply on_cred_sim. intros c d N C. apply push_cred_sim. eapply new_bnd; [now apply cred_json_ok|]. intros h1 ms js E F.
      assert (C1 : cred_ok T h1 c d) by now apply (cred_ok_ext T (w_mem g)). destruct C1 as (_ & m & _ & _ & Cc & P & _). now apply new_cred_ok.
    - apply on_cred_sim. intros c d N C. assert (Ee : c_env c = c_env d) by (destruct C as (_ & m & _ & _ & _ & _ & Q); exact Q). rewrite <- Ee.
      destruct (c_env c); try apply same. apply (put_cred_sim' i c); [assumption|]. apply same_cred; [assumption| |reflexivity]. destruct C as (_ & m & _ & _ & _ & P & _). exact P.
    - apply on_cred_sim. intros c d N C. apply push_map_sim. eapply new_bnd; [now apply to_raw_ok|]. intros h1 ms js E F. now apply fresh_map_ok.
    - apply on_map_sim; [assumption|]. intros o m N M. apply (put_map_sim' r o); [assumption|assumption|]. eapply put_bnd; [apply load_ok, B|]. intros h1 u j E V.
      apply rewrite_put; [now apply (map_ok_ext T (w_mem g))|]. intros. now apply mems_set.
    - apply on_map_sim; [assumption|]. intros o m N M. apply (put_map_sim' r o); [assumption|assumption|]. apply rewrite_put; [assumption|]. intros. now apply mems_del.
  Qed.
End Step.

Lemma start_sim : sim [] go_start value_start.
Proof.
  exists []. constructor; cbn; [intros l []|constructor|reflexivity|intros [|r]; discriminate|intros [|i] [|j]; discriminate| |].
  - intros [|r]; discriminate.
  - intros [|i] [|r]; discriminate.
Qed.
Lemma run_sim : forall l gone g v, sim gone g v -> careful gone l -> exists gone', sim gone' (run go_store g l) (run value_store v l) /\ (forall r, In r gone' -> In r gone \/ In r (given l)).
Proof.
  induction l as [|x l IH]; intros gone g v S C; [exists gone; split; auto|]. apply careful_cons in C as [A C]. destruct S as [T S].
  pose proof (step_sim T gone g v S x A) as S'. destruct (IH _ _ _ S' C) as (gone' & S2 & G). exists gone'. split; [exact S2|].
  intros r H. destruct (G r H) as [K|K].
  - destruct x; cbn in *; auto. destruct K as [->|K]; auto.
  - right. destruct x; cbn; auto.
Qed.
