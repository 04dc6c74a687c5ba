(** Facts about Go string functions: split/join, decimal printing. *)
From Coq Require Import ZifyN ZifyNat.
From Verif Require Import GoBase StatusSpec StatusModel StatusProofs PexModel.

Definition free_of (sep : ascii) (s : string) : Prop := ~ char_in sep s.

Lemma free_of_cons sep c s : free_of sep (String c s) <-> c <> sep /\ free_of sep s.
Proof. unfold free_of, char_in. cbn. intuition congruence. Qed.
Lemma split_on_free sep s : free_of sep s -> split_on sep s = [s].
Proof.
  induction s as [|c s IH]; [reflexivity|]. intros H. apply free_of_cons in H as [H1 H2]. cbn.
  destruct (Ascii.eqb_spec c sep); [contradiction|]. now rewrite (IH H2).
Qed.
Lemma split_on_app sep a b : free_of sep a -> split_on sep (a ++ String sep b) = a :: split_on sep b.
Proof.
  induction a as [|c a IH]; intros H; cbn.
  - now rewrite Ascii.eqb_refl.
  - apply free_of_cons in H as [H1 H2]. destruct (Ascii.eqb_spec c sep); [contradiction|]. now rewrite (IH H2).
Qed.
Lemma concat_cons sep x y l : String.concat sep (x :: y :: l) = x ++ sep ++ String.concat sep (y :: l).
Proof. reflexivity. Qed.
Lemma split_on_concat sep l : l <> [] -> Forall (free_of sep) l -> split_on sep (String.concat (String sep "") l) = l.
Proof.
  intros Hne HF. induction HF as [|x l Hx HF IH]; [congruence|]. destruct l as [|y l].
  - cbn. now apply split_on_free.
  - rewrite concat_cons. change (String sep "" ++ String.concat (String sep "") (y :: l))
      with (String sep (String.concat (String sep "") (y :: l))).
    rewrite split_on_app by assumption. f_equal. apply IH. discriminate.
Qed.
Lemma split_on_parts sep s : Forall (free_of sep) (split_on sep s).
Proof.
  induction s as [|c s IH]; cbn; [constructor; [intros []|constructor]|].
  destruct (Ascii.eqb_spec c sep).
  - constructor; [intros []|assumption].
  - destruct (split_on sep s) as [|p ps]; inversion IH as [|? ? Hp Hps]; subst.
    + constructor; [|constructor]. apply free_of_cons. split; [assumption|intros []].
    + constructor; [|assumption]. apply free_of_cons. auto.
Qed.
Lemma concat_split_on sep s : String.concat (String sep "") (split_on sep s) = s.
Proof.
  induction s as [|c s IH]; [reflexivity|]. cbn [split_on]. destruct (Ascii.eqb_spec c sep) as [->|Hne].
  - pose proof (split_on_nonempty sep s). destruct (split_on sep s) as [|p ps]; [congruence|].
    rewrite concat_cons. cbn [append]. now rewrite IH.
  - pose proof (split_on_nonempty sep s). destruct (split_on sep s) as [|p [|q ps]]; [congruence| |].
    + cbn in *. now rewrite IH.
    + rewrite concat_cons in *. cbn [append]. cbn [append] in IH. now rewrite IH.
Qed.
Lemma concat_inj sep a b : Forall (free_of sep) a -> Forall (free_of sep) b -> a <> [] -> b <> [] ->
  String.concat (String sep "") a = String.concat (String sep "") b -> a = b.
Proof.
  intros Ha Hb Hna Hnb E. rewrite <- (split_on_concat sep a Hna Ha), E. now apply split_on_concat.
Qed.

(** ** Decimal printing *)
Lemma dec_digit_val n : (n < 10)%N -> digit_val (dec_digit n) = Some (Z.of_N n).
Proof.
  intros H. assert (E : (n = 0 \/ n = 1 \/ n = 2 \/ n = 3 \/ n = 4 \/ n = 5 \/ n = 6 \/ n = 7 \/ n = 8 \/ n = 9)%N) by lia.
  repeat (destruct E as [->|E]; [reflexivity|]). subst. reflexivity.
Qed.
Lemma itoa_fuel_val : forall fuel n acc a, (N.to_nat n < fuel)%nat ->
  exists k, 0 < k /\ digits_val a (itoa_fuel fuel n acc) = digits_val (a * 10 ^ k + Z.of_N n) acc.
Proof.
  induction fuel as [|f IH]; intros n acc a Hn; [lia|]. cbn [itoa_fuel].
  assert (Hm : (n mod 10 < 10)%N) by (apply N.mod_lt; discriminate).
  pose proof (N.div_mod n 10) as Hdm.
  destruct (N.eqb_spec (n / 10) 0) as [E|E].
  - exists 1. split; [lia|]. cbn [digits_val]. rewrite dec_digit_val by assumption. f_equal. lia.
  - destruct (IH (n / 10)%N (String (dec_digit (n mod 10)) acc) a) as (k & Hk & Hv).
    { assert (n / 10 < n)%N by (apply N.div_lt; lia). lia. }
    exists (k + 1). split; [lia|]. rewrite Hv. cbn [digits_val]. rewrite dec_digit_val by assumption. f_equal.
    rewrite Z.pow_add_r by lia. lia.
Qed.
Lemma itoa_val n : digits_val 0 (itoa n) = Some (Z.of_nat n).
Proof.
  unfold itoa. destruct (itoa_fuel_val (S n) (N.of_nat n) "" 0) as (k & Hk & H); [lia|]. rewrite H. cbn. f_equal. lia.
Qed.
Lemma itoa_inj a b : itoa a = itoa b -> a = b.
Proof. intros H. pose proof (itoa_val a) as Ha. rewrite H, itoa_val in Ha. injection Ha. lia. Qed.
Lemma itoa_nonempty n : itoa n <> "".
Proof.
  unfold itoa. assert (G : forall f m acc, itoa_fuel (S f) m acc <> "").
  { induction f as [|f IH]; intros m acc; cbn [itoa_fuel]; [destruct (_ =? _)%N; discriminate|].
    destruct (_ =? _)%N; [discriminate|]. apply IH. }
  apply G.
Qed.
Lemma digits_free s : forall a z c, digits_val a s = Some z -> digit_val c = None -> free_of c s.
Proof.
  induction s as [|d s IH]; intros a z c Hv Hc; [intros []|]. cbn in Hv.
  destruct (digit_val d) as [v|] eqn:E; [|discriminate]. apply free_of_cons. split; [congruence|]. eauto.
Qed.
Lemma itoa_free n c : digit_val c = None -> free_of c (itoa n).
Proof. apply (digits_free _ _ _ _ (itoa_val n)). Qed.
Lemma itoa_decimal n : decimal (itoa n) (Z.of_nat n).
Proof. apply decimal_iff. split; [apply itoa_nonempty|apply itoa_val]. Qed.
Lemma atoi_itoa n : Z.of_nat n < 2^63 -> atoi (itoa n) = Ok (Z.of_nat n).
Proof. intros H. apply atoi_iff. split; [constructor; apply itoa_decimal|]. unfold int64_range. lia. Qed.

Lemma append_assoc_s (a b c : string) : (a ++ b) ++ c = a ++ b ++ c.
Proof. induction a as [|x a IH]; cbn; [reflexivity|]. now rewrite IH. Qed.
Lemma append_nil_r (a : string) : a ++ "" = a.
Proof. induction a as [|x a IH]; cbn; [reflexivity|]. now rewrite IH. Qed.
Lemma append_inv_head (a b c : string) : a ++ b = a ++ c -> b = c.
Proof. induction a as [|x a IH]; cbn; [auto|]. intros [= H]. auto. Qed.
Lemma append_length (a b : string) : String.length (a ++ b) = (String.length a + String.length b)%nat.
Proof. induction a as [|x a IH]; cbn; [reflexivity|]. now rewrite IH. Qed.
