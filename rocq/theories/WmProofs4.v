(** MatchSubmissionRequirement and the search behind CreateVP. *)
From Verif Require Import GoBase StatusModel StatusProofs PexSpec ReqSpec ReqModel ReqSearch PexModel PexProofs PexMerge VcModel VcView WmModel WmSpec WmProofs WmProofs2 WmProofs3.

Section Used.
  Variable pd : wdef.
  Variable M : wdesc -> list nat -> Prop.
  Notation descs := (wp_descs pd).
  Notation uses s d := (sreq_uses (sreq_of s) (idesc_of d)).
  Lemma uses_eq name purpose rule count mn mx from nested d : uses (WSR name purpose rule count mn mx from nested) d =
    if String.eqb from "" then existsb (fun n => uses n d) nested else str_in from (wd_group d).
  Proof. cbn [sreq_of sreq_uses]. destruct (String.eqb from ""); [|reflexivity]. induction nested as [|n ns IH]; [reflexivity|]. cbn [map existsb]. now rewrite IH. Qed.
  Lemma groups_eq name purpose rule count mn mx from nested : groups_exist (map idesc_of descs) (sreq_of (WSR name purpose rule count mn mx from nested)) =
    if String.eqb from "" then forallb (fun n => groups_exist (map idesc_of descs) (sreq_of n)) nested else existsb (fun d => str_in from (wd_group d)) descs.
  Proof.
    cbn [sreq_of groups_exist]. destruct (String.eqb from "").
    - induction nested as [|n ns IH]; [reflexivity|]. cbn [map forallb]. now rewrite IH.
    - induction descs as [|d ds IH]; [reflexivity|]. cbn [map existsb]. now rewrite IH.
  Qed.
  Lemma f2_in {X Y} (R : X -> Y -> Prop) l l' : Forall2 R l l' -> (forall x, In x l -> exists y, In y l' /\ R x y) /\ (forall y, In y l' -> exists x, In x l /\ R x y).
  Proof.
    induction 1 as [|x y l l' H _ [I1 I2]]; [split; intros ? []|]. split.
    - intros a [<-|Ha]; [exists y; split; [now left|assumption]|]. destruct (I1 a Ha) as (b & Hb & Hr). exists b. split; [now right|assumption].
    - intros a [<-|Ha]; [exists x; split; [now left|assumption]|]. destruct (I2 a Ha) as (b & Hb & Hr). exists b. split; [now right|assumption].
  Qed.
  Definition covers (s : wsreq) (m : mreq) : Prop :=
    (forall x, listed x m -> exists d, In d descs /\ uses s d = true /\ described M d x) /\
    (forall d, In d descs -> uses s d = true -> exists x, listed x m /\ described M d x) /\
    groups_exist (map idesc_of descs) (sreq_of s) = true.
  Definition covers_all (ss : list wsreq) (ms : list mreq) : Prop :=
    (forall x, listed_in ms x -> exists d, In d descs /\ existsb (fun s => uses s d) ss = true /\ described M d x) /\
    (forall d, In d descs -> existsb (fun s => uses s d) ss = true -> exists x, listed_in ms x /\ described M d x) /\
    forallb (fun s => groups_exist (map idesc_of descs) (sreq_of s)) ss = true.
  Lemma mirror_covers : (forall s m (_ : mirrors descs M s m), covers s m) /\ (forall ss ms (_ : mirror_all descs M ss ms), covers_all ss ms).
  Proof.
    apply (mirrors_mutind descs M (fun s m _ => covers s m) (fun ss ms _ => covers_all ss ms)).
    - intros name purpose rule count mn mx from nested ds l Hne Hs Hds Hl. destruct (f2_in _ _ _ Hl) as [F1 F2].
      assert (Ef : String.eqb from "" = false) by now apply String.eqb_neq. split; [|split].
      + intros x Hx. inversion Hx as [? ? ? ? ? ? ? ? Hin|? ? ? ? ? ? ? ? n Hin]; subst; [|destruct Hin]. destruct (F2 x Hin) as (d & Hd & Hr).
        destruct (selects_in _ _ _ Hs d Hd) as [Hd1 Hd2]. exists d. split; [assumption|]. split; [|assumption]. rewrite uses_eq, Ef. now apply str_in_In.
      + intros d Hd. rewrite uses_eq, Ef. intros Hu. apply str_in_In in Hu.
        assert (In d ds). { clear - Hs Hd Hu. induction Hs as [|y l l' Hy Hs IH|y l l' Hy Hs IH]; [assumption| |]; destruct Hd as [->|Hd]; [now left|right; auto|contradiction|auto]. }
        destruct (F1 d H) as (x & Hx & Hr). exists x. split; [now apply li_here|assumption].
      + rewrite groups_eq, Ef. destruct ds as [|d ds]; [contradiction|]. apply existsb_exists. exists d.
        destruct (selects_in _ _ _ Hs d (or_introl eq_refl)) as [H1 H2]. split; [assumption|now apply str_in_In].
    - intros name purpose rule count mn mx nested ns Hm (I1 & I2 & I3). split; [|split].
      + intros x Hx. inversion Hx as [? ? ? ? ? ? ? ? Hin|? ? ? ? ? ? ? ? n Hin Hl]; subst; [destruct Hin|]. rewrite <- (uses_eq name purpose rule count mn mx "" nested) in * || idtac.
        destruct (I1 x (ex_intro _ n (conj Hin Hl))) as (d & H1 & H2 & H3). exists d. split; [assumption|]. split; [|assumption]. now rewrite uses_eq.
      + intros d Hd. rewrite uses_eq. intros Hu. destruct (I2 d Hd Hu) as (x & (n & Hin & Hl) & Hr). exists x. split; [eapply li_in; eassumption|assumption].
      + rewrite groups_eq. exact I3.
    - split; [|split]; [intros x (t & [] & _)|intros d _; discriminate|reflexivity].
    - intros s ss m ms Hm (S1 & S2 & S3) Hms (I1 & I2 & I3). split; [|split].
      + intros x (t & [<-|Hin] & Hl).
        * destruct (S1 x Hl) as (d & H1 & H2 & H3). exists d. split; [assumption|]. split; [|assumption]. cbn [existsb]. now rewrite H2.
        * destruct (I1 x (ex_intro _ t (conj Hin Hl))) as (d & H1 & H2 & H3). exists d. split; [assumption|]. split; [|assumption]. cbn [existsb]. rewrite H2. apply orb_true_r.
      + intros d Hd Hu. cbn [existsb] in Hu. apply orb_true_iff in Hu as [Hu|Hu].
        * destruct (S2 d Hd Hu) as (x & Hl & Hr). exists x. split; [exists m; split; [now left|assumption]|assumption].
        * destruct (I2 d Hd Hu) as (x & (t & Hin & Hl) & Hr). exists x. split; [exists t; split; [now right|assumption]|assumption].
      + cbn [forallb]. now rewrite S3.
  Qed.
  Lemma uses_reqs l d : existsb (fun r => sreq_uses r (idesc_of d)) (map sreq_of l) = existsb (fun s => uses s d) l.
  Proof. induction l as [|s ss IH]; [reflexivity|]. cbn [map existsb]. now rewrite IH. Qed.
  Lemma groups_reqs l : forallb (groups_exist (map idesc_of descs)) (map sreq_of l) = forallb (fun s => groups_exist (map idesc_of descs) (sreq_of s)) l.
  Proof. induction l as [|s ss IH]; [reflexivity|]. cbn [map forallb]. now rewrite IH. Qed.
  Notation used d := (definition_uses (map sreq_of (wp_reqs pd)) (idesc_of d)).
  Lemma answers_used ts : answers pd M ts ->
    (forall x, listed_in ts x -> exists d, In d descs /\ used d = true /\ described M d x) /\
    (forall d, In d descs -> used d = true -> exists x, listed_in ts x /\ described M d x) /\
    forallb (groups_exist (map idesc_of descs)) (map sreq_of (wp_reqs pd)) = true.
  Proof.
    intros [(Er & l & Hl & ->)|(Er & Hm)].
    - rewrite Er. destruct (f2_in _ _ _ Hl) as [F1 F2]. split; [|split; [|reflexivity]].
      + intros x (t & [<-|[]] & Hx). inversion Hx as [? ? ? ? ? ? ? ? Hin|? ? ? ? ? ? ? ? n Hin]; subst; [|destruct Hin].
        destruct (F2 x Hin) as (d & Hd & Hr). exists d. auto.
      + intros d Hd _. destruct (F1 d Hd) as (x & Hx & Hr). exists x. split; [|assumption]. eexists. split; [now left|]. now apply li_here.
    - destruct (proj2 mirror_covers _ _ Hm) as (C1 & C2 & C3). rewrite groups_reqs.
      assert (U : forall d, used d = existsb (fun s => uses s d) (wp_reqs pd)).
      { intros d. rewrite <- uses_reqs. destruct (wp_reqs pd); [contradiction|reflexivity]. }
      split; [|split; [|exact C3]].
      + intros x Hx. destruct (C1 x Hx) as (d & H1 & H2 & H3). exists d. rewrite U. auto.
      + intros d Hd. rewrite U. apply C2; assumption.
  Qed.
End Used.
