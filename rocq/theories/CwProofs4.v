(** Nesting limits of the decoder. *)
From Coq Require Import Permutation Lia.
From Verif Require Import GoBase StrLemmas Base64 JwtSpec DiSpec VcSpec JwtModel JwtProofs SdSpec SdModel SdParse SdIssueV2 DiModel VcModel VcJwt VcParse VcSign CwModel CwSpec CwProofs CwProofs2 CwProofs3.

Fixpoint ilevels (i : item) : nat :=
  match i with
  | IArr l => S (fold_right (fun x a => Nat.max (ilevels x) a) 0%nat l)
  | IMap l => S (fold_right (fun (kv : item * item) a => let (k, v) := kv in Nat.max (Nat.max (ilevels k) (ilevels v)) a) 0%nat l)
  | ITag _ x => ilevels x
  | _ => 0
  end.
(** a decoder that may open one more level reads the same *)
Lemma dec_mono fuel :
  (forall tags d s x, dec fuel tags d s = Some x -> dec fuel tags (S d) s = Some x)
  /\ (forall tags d n s x, dec_seq fuel tags d n s = Some x -> dec_seq fuel tags (S d) n s = Some x)
  /\ (forall tags d n s x, dec_pairs fuel tags d n s = Some x -> dec_pairs fuel tags (S d) n s = Some x).
Proof.
  induction fuel as [|f (IH1 & IH2 & IH3)]; [repeat split; discriminate|]. split; [|split].
  - intros tags d s x H. destruct (dec_head s) as [[[[mt ai] n] s1]|] eqn:E; [|cbn [dec] in H; rewrite E in H; discriminate].
    rewrite (dec_step _ _ _ _ _ _ _ _ E) in H. rewrite (dec_step _ _ _ _ _ _ _ _ E).
    repeat match goal with
    | H : context[if (mt =? ?c)%N then _ else _] |- _ => destruct (mt =? c)%N; [try exact H|]
    end; try exact H.
    + destruct d as [|d]; [discriminate|]. destruct (max_elements <? n)%N; [discriminate|]. destruct (dec_seq f tags d n s1) as [[l r]|] eqn:El; [|discriminate].
      now rewrite (IH2 _ _ _ _ _ El).
    + destruct d as [|d]; [discriminate|]. destruct (max_elements <? n)%N; [discriminate|]. destruct (dec_pairs f tags d n s1) as [[l r]|] eqn:El; [|discriminate].
      now rewrite (IH3 _ _ _ _ _ El).
    + destruct tags; [|discriminate]. destruct (dec f true d s1) as [[y r]|] eqn:El; [|discriminate]. now rewrite (IH1 _ _ _ _ El).
  - intros tags d n s x H. cbn [dec_seq] in *. destruct (n =? 0)%N; [exact H|]. destruct (dec f tags d s) as [[y s1]|] eqn:E1; [|discriminate]. rewrite (IH1 _ _ _ _ E1).
    destruct (dec_seq f tags d (n - 1) s1) as [[l r]|] eqn:E2; [|discriminate]. now rewrite (IH2 _ _ _ _ _ E2).
  - intros tags d n s x H. cbn [dec_pairs] in *. destruct (n =? 0)%N; [exact H|]. destruct (dec f tags d s) as [[y s1]|] eqn:E1; [|discriminate]. rewrite (IH1 _ _ _ _ E1).
    destruct (dec f tags d s1) as [[z s2]|] eqn:E2; [|discriminate]. rewrite (IH1 _ _ _ _ E2).
    destruct (dec_pairs f tags d (n - 1) s2) as [[l r]|] eqn:E3; [|discriminate]. now rewrite (IH3 _ _ _ _ _ E3).
Qed.
Lemma dec_mono_le fuel tags d d' s x : (d <= d')%nat -> dec fuel tags d s = Some x -> dec fuel tags d' s = Some x.
Proof. intros L H. induction L as [|d' _ IH]; [assumption|]. now apply dec_mono. Qed.
(** what is read has no more levels than allowed *)
Lemma dec_levels fuel :
  (forall tags d s i r, dec fuel tags d s = Some (i, r) -> (ilevels i <= d)%nat)
  /\ (forall tags d n s l r, dec_seq fuel tags d n s = Some (l, r) -> Forall (fun i => (ilevels i <= d)%nat) l)
  /\ (forall tags d n s l r, dec_pairs fuel tags d n s = Some (l, r) -> Forall (fun kv => (ilevels (fst kv) <= d)%nat /\ (ilevels (snd kv) <= d)%nat) l).
Proof.
  induction fuel as [|f (IH1 & IH2 & IH3)]; [repeat split; discriminate|]. split; [|split].
  - intros tags d s i r H. destruct (dec_head s) as [[[[mt ai] n] s1]|] eqn:E; [|cbn [dec] in H; rewrite E in H; discriminate].
    rewrite (dec_step _ _ _ _ _ _ _ _ E) in H.
    destruct (mt =? 0)%N; [injection H as <- _; cbn; lia|]. destruct (mt =? 1)%N; [injection H as <- _; cbn; lia|].
    destruct (mt =? 2)%N; [destruct (cut n s1) as [[? ?]|]; [injection H as <- _; cbn; lia|discriminate]|].
    destruct (mt =? 3)%N; [destruct (cut n s1) as [[? ?]|]; [injection H as <- _; cbn; lia|discriminate]|].
    destruct (mt =? 4)%N.
    { destruct d as [|d]; [discriminate|]. destruct (max_elements <? n)%N; [discriminate|]. destruct (dec_seq f tags d n s1) as [[l r']|] eqn:El; [|discriminate].
      injection H as <- _. apply IH2 in El. cbn [ilevels]. clear - El. enough (fold_right (fun x a => Nat.max (ilevels x) a) 0 l <= d)%nat by lia.
      induction El; cbn [fold_right]; lia. }
    destruct (mt =? 5)%N.
    { destruct d as [|d]; [discriminate|]. destruct (max_elements <? n)%N; [discriminate|]. destruct (dec_pairs f tags d n s1) as [[l r']|] eqn:El; [|discriminate].
      injection H as <- _. apply IH3 in El. cbn [ilevels]. clear - El.
      enough (fold_right (fun (kv : item * item) a => let (k, v) := kv in Nat.max (Nat.max (ilevels k) (ilevels v)) a) 0 l <= d)%nat by lia.
      induction El as [|[k v] l [A B] _ IH]; cbn [fold_right fst snd] in *; lia. }
    destruct (mt =? 6)%N.
    { destruct tags; [|discriminate]. destruct (dec f true d s1) as [[y r']|] eqn:El; [|discriminate]. injection H as <- _. cbn. eapply IH1, El. }
    destruct (ai <? 24)%N; [injection H as <- _; cbn; lia|]. destruct (ai =? 24)%N; [destruct (n <? 32)%N; [discriminate|injection H as <- _; cbn; lia]|].
    destruct (ai =? 25)%N; [injection H as <- _; cbn; lia|]. destruct (ai =? 26)%N; injection H as <- _; cbn; lia.
  - intros tags d n s l r H. cbn [dec_seq] in H. destruct (n =? 0)%N; [injection H as <- _; constructor|]. destruct (dec f tags d s) as [[y s1]|] eqn:E1; [|discriminate].
    destruct (dec_seq f tags d (n - 1) s1) as [[l' r']|] eqn:E2; [|discriminate]. injection H as <- _. constructor; [eapply IH1, E1|eapply IH2, E2].
  - intros tags d n s l r H. cbn [dec_pairs] in H. destruct (n =? 0)%N; [injection H as <- _; constructor|]. destruct (dec f tags d s) as [[y s1]|] eqn:E1; [|discriminate].
    destruct (dec f tags d s1) as [[z s2]|] eqn:E2; [|discriminate].
    destruct (dec_pairs f tags d (n - 1) s2) as [[l' r']|] eqn:E3; [|discriminate]. injection H as <- _. constructor; [split; [eapply IH1, E1|eapply IH1, E2]|eapply IH3, E3].
Qed.
(** a text of too many levels is not read *)
Lemma too_deep tags d D i : fits tags D i -> (d < ilevels i)%nat -> dec_all tags d (enc i) = None.
Proof.
  intros Hf Hd. unfold dec_all, dec_item. destruct (dec (fuel_of (enc i)) tags d (enc i)) as [[x r]|] eqn:E; [|reflexivity]. exfalso.
  pose proof (proj1 (dec_levels _) _ _ _ _ _ E) as L.
  assert (Hi : dec (fuel_of (enc i)) tags (Nat.max d D) (enc i) = Some (i, "")).
  { apply dec_mono_le with (d := D); [lia|]. rewrite <- (append_nil_r (enc i)) at 2. apply dec_enc; [assumption|]. unfold fuel_of. pose proof (isize_le i). lia. }
  apply (dec_mono_le _ _ _ (Nat.max d D)) in E; [|lia]. rewrite E in Hi. injection Hi as -> _. lia.
Qed.
Lemma levels_item F j : ilevels (item_of F j) = levels j.
Proof.
  induction j as [|b|q|s|l IH|m IH] using json_ind'; try reflexivity; cbn [item_of ilevels levels]; f_equal.
  - induction IH as [|x l Hx _ IH']; [reflexivity|]. cbn [map fold_right]. now rewrite Hx, IH'.
  - induction IH as [|[k v] m Hx _ IH']; [reflexivity|]. cbn [map fold_right snd] in *. rewrite Hx, IH'. reflexivity.
Qed.
Lemma claims_levels F c k v : In (k, v) c -> (match v with JNum _ => False | _ => True end) -> (S (levels v) <= ilevels (claims_item F c))%nat.
Proof.
  intros Hin Hv. unfold claims_item. cbn [ilevels]. induction c as [|[k0 v0] c IH]; [contradiction|]. cbn [map fold_right fst snd]. destruct Hin as [[= -> ->]|Hin].
  - assert (E : ilevels (claim_item F v) = levels v) by (destruct v; try contradiction; apply (levels_item F)). cbn [ilevels]. rewrite E. lia.
  - specialize (IH Hin). lia.
Qed.
(** claims that are fine but for their depth *)
Definition plain_claim_at (F : Q -> string) (Fd : string -> option Q) (D : nat) (j : json) : Prop :=
  match j with JNum q => exists z, q = inject_Z z /\ int64 z | _ => plain F Fd D j end.
Lemma claims_fit F Fd D c : (N.of_nat (List.length c) <= max_elements)%N -> Forall (fun kv => plain_text (fst kv) /\ plain_claim_at F Fd D (snd kv)) c ->
  fits true (S D) (claims_item F c).
Proof.
  intros Hl H. unfold claims_item. cbn [fits]. rewrite map_length. split; [assumption|]. clear Hl. induction H as [|[k v] c [[_ Hk] Hv] _ IH]; [exact I|].
  cbn [map fold_right fst snd] in *. split; [split; [exact Hk|]|exact IH]. destruct v; try (now apply (json_of_item F Fd)). destruct Hv as (z & -> & Hz). now apply int_fits.
Qed.
