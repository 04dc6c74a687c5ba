(** Lemmas about the CBOR codec and COSE messages. *)
From Coq Require Import Permutation Lia.
From Verif Require Import GoBase StrLemmas Base64 JwtSpec DiSpec VcSpec JwtModel JwtProofs SdSpec SdModel SdParse DiModel VcModel VcJwt VcParse VcSign CwModel CwSpec.

(** ** Bytes *)
Lemma byte_lt a : (byte_n a < 256)%N.
Proof. unfold byte_n. apply N_ascii_bounded. Qed.
Lemma byte_mk n : (n < 256)%N -> byte_n (mk_byte n) = n.
Proof. intros. unfold byte_n, mk_byte. now apply N_ascii_embedding. Qed.
Lemma mk_byte_n a : mk_byte (byte_n a) = a.
Proof. apply ascii_N_embedding. Qed.
Lemma be_length k n : String.length (be k n) = k.
Proof. induction k; cbn; congruence. Qed.
Lemma pow_S k : (256 ^ N.of_nat (S k) = 256 ^ N.of_nat k * 256)%N.
Proof. rewrite Nat2N.inj_succ, N.pow_succ_r'. lia. Qed.
Lemma pow_pos k : (0 < 256 ^ N.of_nat k)%N.
Proof. apply N.neq_0_lt_0, N.pow_nonzero. discriminate. Qed.
Lemma be_read_be k : forall acc n r, be_read k acc (be k n ++ r) = Some ((acc * 256 ^ N.of_nat k + n mod 256 ^ N.of_nat k)%N, r).
Proof.
  induction k as [|k IH]; intros acc n r.
  - cbn. now rewrite N.mod_1_r, N.mul_1_r, N.add_0_r.
  - cbn [be be_read append]. rewrite IH. f_equal. f_equal. rewrite byte_mk by (apply N.mod_lt; discriminate). rewrite pow_S.
    pose proof (pow_pos k) as Hp. set (P := (256 ^ N.of_nat k)%N) in *.
    rewrite (N.mod_mul_r n P 256) by lia. lia.
Qed.
Lemma be_read_inv k : forall acc s v r, be_read k acc s = Some (v, r) ->
  s = be k v ++ r /\ (acc * 256 ^ N.of_nat k <= v < (acc + 1) * 256 ^ N.of_nat k)%N.
Proof.
  induction k as [|k IH]; intros acc s v r H.
  - cbn in H. injection H as <- <-. cbn. split; [reflexivity|lia].
  - cbn [be_read] in H. destruct s as [|a s]; [discriminate|]. apply IH in H as (-> & H). cbn [be append].
    pose proof (pow_pos k) as Hp. rewrite pow_S. set (P := (256 ^ N.of_nat k)%N) in *. pose proof (byte_lt a) as Ha.
    assert (E : (v / P = acc * 256 + byte_n a)%N).
    { symmetry. apply N.div_unique with (r := (v - P * (acc * 256 + byte_n a))%N); lia. }
    split; [|nia]. f_equal. rewrite E, N.add_comm, N.mod_add by discriminate. rewrite N.mod_small by assumption. now rewrite mk_byte_n.
Qed.
Lemma be_read_0 k s v r : be_read k 0 s = Some (v, r) -> s = be k v ++ r /\ (v < 256 ^ N.of_nat k)%N.
Proof. intros H. apply be_read_inv in H as [-> H]. split; [reflexivity|lia]. Qed.
Lemma be_read_be0 k n r : (n < 256 ^ N.of_nat k)%N -> be_read k 0 (be k n ++ r) = Some (n, r).
Proof. intros H. rewrite be_read_be, N.mod_small by assumption. now rewrite N.mul_0_l, N.add_0_l. Qed.

(** ** Heads *)
Lemma slen_app a b : slen (a ++ b) = (slen a + slen b)%N.
Proof. unfold slen. rewrite append_length. lia. Qed.
Definition ai_of (n : N) : N := (if n <? 24 then n else if n <? 256 then 24 else if n <? 65536 then 25 else if n <? 4294967296 then 26 else 27)%N.
Lemma head_byte mt x r : (mt < 8)%N -> (x < 32)%N ->
  byte_n (mk_byte (mt * 32 + x)) = (mt * 32 + x)%N /\ ((mt * 32 + x) / 32 = mt)%N /\ ((mt * 32 + x) mod 32 = x)%N /\ r = r :> string.
Proof.
  intros Hm Hx. split; [apply byte_mk; lia|]. split; [|split; [|reflexivity]].
  - rewrite N.div_add_l by discriminate. rewrite N.div_small by assumption. lia.
  - rewrite N.add_comm, N.mod_add by discriminate. now apply N.mod_small.
Qed.
Lemma dec_head_head mt n r : (mt < 8)%N -> (n < two64)%N -> dec_head (head mt n ++ r) = Some (mt, ai_of n, n, r).
Proof.
  intros Hm Hn. unfold head, ai_of, two64 in *.
  destruct (N.ltb_spec n 24) as [H1|H1]; [|destruct (N.ltb_spec n 256) as [H2|H2]; [|destruct (N.ltb_spec n 65536) as [H3|H3]; [|destruct (N.ltb_spec n 4294967296) as [H4|H4]]]];
    cbn [append dec_head].
  - destruct (head_byte mt n "" Hm ltac:(lia)) as (-> & -> & -> & _). destruct (N.ltb_spec n 24); [reflexivity|lia].
  - destruct (head_byte mt 24 "" Hm ltac:(lia)) as (-> & -> & -> & _). cbn [N.ltb N.compare Pos.compare Pos.compare_cont N.eqb Pos.eqb].
    rewrite be_read_be0 by (cbn; lia). reflexivity.
  - destruct (head_byte mt 25 "" Hm ltac:(lia)) as (-> & -> & -> & _). cbn [N.ltb N.compare Pos.compare Pos.compare_cont N.eqb Pos.eqb].
    rewrite be_read_be0 by (cbn; lia). reflexivity.
  - destruct (head_byte mt 26 "" Hm ltac:(lia)) as (-> & -> & -> & _). cbn [N.ltb N.compare Pos.compare Pos.compare_cont N.eqb Pos.eqb].
    rewrite be_read_be0 by (cbn; lia). reflexivity.
  - destruct (head_byte mt 27 "" Hm ltac:(lia)) as (-> & -> & -> & _). cbn [N.ltb N.compare Pos.compare Pos.compare_cont N.eqb Pos.eqb].
    rewrite be_read_be0 by (cbn; lia). reflexivity.
Qed.
(** what [dec_head] reads: a first byte and, after it, the value *)
Lemma dec_head_inv s mt ai n r : dec_head s = Some (mt, ai, n, r) ->
  (mt < 8)%N /\ (ai < 28)%N /\ exists k, s = String (mk_byte (mt * 32 + ai)) (be k n ++ r)
  /\ ((ai < 24)%N /\ n = ai /\ k = 0%nat \/ (24 <= ai)%N /\ (n < 256 ^ N.of_nat k)%N /\ (ai = 24 /\ k = 1%nat \/ ai = 25 /\ k = 2%nat \/ ai = 26 /\ k = 4%nat \/ ai = 27 /\ k = 8%nat)%N).
Proof.
  destruct s as [|a s]; [discriminate|]. cbn [dec_head]. pose proof (byte_lt a) as Ha.
  assert (Hm : (byte_n a / 32 < 8)%N) by (apply N.div_lt_upper_bound; lia).
  assert (Ea : (byte_n a / 32 * 32 + byte_n a mod 32 = byte_n a)%N) by (pose proof (N.div_mod (byte_n a) 32); lia).
  assert (Em : mk_byte (byte_n a / 32 * 32 + byte_n a mod 32) = a) by (rewrite Ea; apply mk_byte_n).
  destruct (N.ltb_spec (byte_n a mod 32) 24) as [H1|H1].
  { intros [= <- <- <- <-]. split; [assumption|]. split; [lia|]. exists 0%nat. rewrite Em. split; [reflexivity|]. left; auto. }
  assert (R : forall k, (match be_read k 0 s with Some (v, r) => Some (byte_n a / 32, byte_n a mod 32, v, r) | None => None end)%N = Some (mt, ai, n, r)
     -> mt = (byte_n a / 32)%N /\ ai = (byte_n a mod 32)%N /\ s = be k n ++ r /\ (n < 256 ^ N.of_nat k)%N).
  { intros k H. destruct (be_read k 0 s) as [[v r']|] eqn:E; [|discriminate]. injection H as <- <- <- <-. apply be_read_0 in E as []. auto. }
  destruct (N.eqb_spec (byte_n a mod 32) 24) as [E|_]; [intros H; apply R in H as (-> & -> & -> & Hn); split; [assumption|]; split; [lia|]; exists 1%nat; rewrite Em; split; [reflexivity|right; split; [assumption|split; [assumption|auto]]]|].
  destruct (N.eqb_spec (byte_n a mod 32) 25) as [E|_]; [intros H; apply R in H as (-> & -> & -> & Hn); split; [assumption|]; split; [lia|]; exists 2%nat; rewrite Em; split; [reflexivity|right; split; [assumption|split; [assumption|auto]]]|].
  destruct (N.eqb_spec (byte_n a mod 32) 26) as [E|_]; [intros H; apply R in H as (-> & -> & -> & Hn); split; [assumption|]; split; [lia|]; exists 4%nat; rewrite Em; split; [reflexivity|right; split; [assumption|split; [assumption|auto]]]|].
  destruct (N.eqb_spec (byte_n a mod 32) 27) as [E|_]; [intros H; apply R in H as (-> & -> & -> & Hn); split; [assumption|]; split; [lia|]; exists 8%nat; rewrite Em; split; [reflexivity|right; split; [assumption|split; [assumption|auto 6]]]|].
  discriminate.
Qed.
Lemma cut_app s r : cut (slen s) (s ++ r) = Some (s, r).
Proof.
  unfold cut. rewrite slen_app. destruct (N.ltb_spec (slen s + slen r) (slen s)); [lia|]. unfold slen. rewrite Nat2N.id.
  f_equal. f_equal; [apply JwtProofs.str_take_app|apply JwtProofs.str_drop_app].
Qed.
Lemma take_drop n : forall s, s = str_take n s ++ str_drop n s.
Proof. induction n as [|n IH]; intros [|a s]; cbn; try reflexivity. now rewrite <- IH. Qed.
Lemma take_length n : forall s, (n <= String.length s)%nat -> String.length (str_take n s) = n.
Proof. induction n as [|n IH]; intros [|a s] H; cbn in *; try lia. rewrite IH; lia. Qed.
Lemma cut_inv n s b r : cut n s = Some (b, r) -> s = b ++ r /\ n = slen b.
Proof.
  unfold cut, slen. destruct (N.ltb_spec (N.of_nat (String.length s)) n) as [|H]; [discriminate|]. intros [= <- <-]. split; [apply take_drop|].
  rewrite take_length by lia. lia.
Qed.

(** ** Induction over items *)
Section ItemInd.
  Variable P : item -> Prop.
  Hypothesis HU : forall n, P (IUint n).
  Hypothesis HN : forall n, P (INeg n).
  Hypothesis HB : forall s, P (IBytes s).
  Hypothesis HT : forall s, P (IText s).
  Hypothesis HA : forall l, Forall P l -> P (IArr l).
  Hypothesis HM : forall l, Forall (fun kv => P (fst kv) /\ P (snd kv)) l -> P (IMap l).
  Hypothesis HG : forall n x, P x -> P (ITag n x).
  Hypothesis HS : forall n, P (ISimple n).
  Hypothesis HF : forall b, P (IFloat b).
  Fixpoint item_ind' (i : item) : P i :=
    match i with
    | IUint n => HU n | INeg n => HN n | IBytes s => HB s | IText s => HT s
    | IArr l => HA l ((fix go l := match l return Forall P l with [] => Forall_nil _ | x :: l' => Forall_cons x (item_ind' x) (go l') end) l)
    | IMap l => HM l ((fix go l := match l return Forall (fun kv => P (fst kv) /\ P (snd kv)) l with
                                   | [] => Forall_nil _ | x :: l' => Forall_cons x (conj (item_ind' (fst x)) (item_ind' (snd x))) (go l') end) l)
    | ITag n x => HG n x (item_ind' x)
    | ISimple n => HS n
    | IFloat b => HF b
    end.
End ItemInd.

(** fuel that suffices *)
Fixpoint isize (i : item) : nat :=
  match i with
  | IArr l => S (S (fold_right (fun x a => S (isize x + a)) 0 l))
  | IMap l => S (S (fold_right (fun (kv : item * item) a => let (k, v) := kv in S (isize k + isize v + a)) 0 l))
  | ITag _ x => S (isize x)
  | _ => 1
  end%nat.
Lemma head_length mt n : (1 <= String.length (head mt n))%nat.
Proof. unfold head. repeat match goal with |- context[if ?c then _ else _] => destruct c end; cbn [String.length]; lia. Qed.
Lemma isize_le i : (isize i <= 3 * String.length (enc i) - 1)%nat /\ (1 <= String.length (enc i))%nat.
Proof.
  induction i as [n|n|s|s|l IH|l IH|n x IH|n|b] using item_ind'; cbn [isize enc]; rewrite ?append_length.
  1-4: match goal with |- context[head ?m ?n] => pose proof (head_length m n) end; lia.
  - pose proof (head_length 4 (N.of_nat (List.length l))).
    enough ((fold_right (fun x a => S (isize x + a)) 0 l <= 3 * String.length (fold_right (fun x a => enc x ++ a) "" l))%nat) by lia.
    clear H. induction IH as [|x l Hx _ IH']; [cbn; lia|]. cbn [fold_right]. rewrite append_length. lia.
  - pose proof (head_length 5 (N.of_nat (List.length l))).
    enough ((fold_right (fun (kv : item * item) a => let (k, v) := kv in S (isize k + isize v + a)) 0 l <= 3 * String.length (fold_right (fun (kv : item * item) a => let (k, v) := kv in enc k ++ enc v ++ a) "" l))%nat) by lia.
    clear H. induction IH as [|[k v] l Hx _ IH']; [cbn; lia|]. cbn [fold_right fst snd] in *. rewrite !append_length. lia.
  - pose proof (head_length 6 n). lia.
  - destruct (n <? 24)%N; cbn; lia.
  - cbn. lia.
Qed.
Lemma dec_step fuel tags depth s mt ai n s1 : dec_head s = Some (mt, ai, n, s1) ->
  dec (S fuel) tags depth s =
          if (mt =? 0)%N then Some (IUint n, s1)
          else if (mt =? 1)%N then Some (INeg n, s1)
          else if (mt =? 2)%N then match cut n s1 with Some (b, r) => Some (IBytes b, r) | None => None end
          else if (mt =? 3)%N then match cut n s1 with Some (b, r) => Some (IText b, r) | None => None end
          else if (mt =? 4)%N then
            match depth with
            | O => None
            | S d => if (max_elements <? n)%N then None
                     else match dec_seq fuel tags d n s1 with Some (l, r) => Some (IArr l, r) | None => None end
            end
          else if (mt =? 5)%N then
            match depth with
            | O => None
            | S d => if (max_elements <? n)%N then None
                     else match dec_pairs fuel tags d n s1 with Some (l, r) => Some (IMap l, r) | None => None end
            end
          else if (mt =? 6)%N then
            if tags then match dec fuel tags depth s1 with Some (x, r) => Some (ITag n x, r) | None => None end else None
          else if (ai <? 24)%N then Some (ISimple n, s1)
          else if (ai =? 24)%N then if (n <? 32)%N then None else Some (ISimple n, s1)
          else if (ai =? 25)%N then Some (IFloat (be 2 n), s1)
          else if (ai =? 26)%N then Some (IFloat (be 4 n), s1)
          else Some (IFloat (be 8 n), s1).
Proof. intros H. cbn [dec]. now rewrite H. Qed.
(** the bytes of a text are the big-endian form of their value *)
Lemma be_of_bytes : forall b acc, exists v, be_read (String.length b) acc b = Some (v, "").
Proof. induction b as [|a b IH]; intros acc; [eexists; reflexivity|]. cbn. apply IH. Qed.
Lemma dec_enc i : forall tags d fuel r, fits tags d i -> (isize i <= fuel)%nat -> dec fuel tags d (enc i ++ r) = Some (i, r).
Proof.
  induction i as [n|n|s|s|l IH|l IH|n x IH|n|b] using item_ind'; intros tags d fuel r Hf Hs;
    (destruct fuel as [|fuel]; [pose proof (isize_le (IUint 0)); cbn in Hs; lia|]); cbn [fits] in Hf; cbn [isize] in Hs; cbn [enc]; rewrite ?append_assoc_s.
  - erewrite dec_step by (apply dec_head_head; [lia|assumption]). reflexivity.
  - erewrite dec_step by (apply dec_head_head; [lia|assumption]). reflexivity.
  - erewrite dec_step by (apply dec_head_head; [lia|assumption]). cbn [N.eqb]. now rewrite cut_app.
  - erewrite dec_step by (apply dec_head_head; [lia|assumption]). cbn [N.eqb]. now rewrite cut_app.
  - destruct d as [|d]; [contradiction|]. destruct Hf as [Hc Hf].
    erewrite dec_step by (apply dec_head_head; [lia|unfold max_elements, two64 in *; lia]). cbn [N.eqb Pos.eqb].
    destruct (N.ltb_spec max_elements (N.of_nat (List.length l))); [lia|].
    enough (E : forall f, (S (fold_right (fun x a => S (isize x + a)) 0 l) <= f)%nat -> dec_seq f tags d (N.of_nat (List.length l)) (fold_right (fun x a => enc x ++ a) "" l ++ r) = Some (l, r))
      by (rewrite E by lia; reflexivity).
    clear Hs Hc H. induction IH as [|x l Hx _ IH']; intros f Hs; (destruct f as [|f]; [cbn in Hs; lia|]).
    + reflexivity.
    + cbn [fold_right] in Hf, Hs. destruct Hf as [Hfx Hf]. cbn [fold_right List.length dec_seq]. rewrite append_assoc_s.
      destruct (N.eqb_spec (N.of_nat (S (List.length l))) 0); [lia|]. rewrite Hx by (try assumption; lia).
      replace (N.of_nat (S (List.length l)) - 1)%N with (N.of_nat (List.length l)) by lia. rewrite IH' by (try assumption; lia). reflexivity.
  - destruct d as [|d]; [contradiction|]. destruct Hf as [Hc Hf].
    erewrite dec_step by (apply dec_head_head; [lia|unfold max_elements, two64 in *; lia]). cbn [N.eqb Pos.eqb].
    destruct (N.ltb_spec max_elements (N.of_nat (List.length l))); [lia|].
    enough (E : forall f, (S (fold_right (fun (kv : item * item) a => let (k, v) := kv in S (isize k + isize v + a)) 0 l) <= f)%nat ->
       dec_pairs f tags d (N.of_nat (List.length l)) (fold_right (fun (kv : item * item) a => let (k, v) := kv in enc k ++ enc v ++ a) "" l ++ r) = Some (l, r))
      by (rewrite E by lia; reflexivity).
    clear Hs Hc H. induction IH as [|[k v] l [Hk Hv] _ IH']; intros f Hs; (destruct f as [|f]; [cbn in Hs; lia|]).
    + reflexivity.
    + cbn [fold_right fst snd] in *. destruct Hf as [[Hfk Hfv] Hf]. cbn [List.length dec_pairs]. rewrite !append_assoc_s.
      destruct (N.eqb_spec (N.of_nat (S (List.length l))) 0); [lia|]. rewrite Hk by (try assumption; lia). rewrite Hv by (try assumption; lia).
      replace (N.of_nat (S (List.length l)) - 1)%N with (N.of_nat (List.length l)) by lia. rewrite IH' by (try assumption; lia). reflexivity.
  - destruct Hf as (-> & Hn & Hf). erewrite dec_step by (apply dec_head_head; [lia|assumption]). cbn [N.eqb Pos.eqb].
    rewrite IH by (try assumption; lia). reflexivity.
  - assert (Hb : forall x, (x < 32)%N -> byte_n (mk_byte (224 + x)) = (7 * 32 + x)%N) by (intros; apply byte_mk; lia).
    destruct (N.ltb_spec n 24) as [H|H].
    + assert (Hh : dec_head (String (mk_byte (224 + n)) "" ++ r) = Some (7%N, n, n, r)).
      { cbn [append dec_head]. rewrite Hb by lia. replace ((7 * 32 + n) / 32)%N with 7%N by (rewrite N.div_add_l, N.div_small by lia; lia).
        replace ((7 * 32 + n) mod 32)%N with n by (rewrite N.add_comm, N.mod_add, N.mod_small by lia; lia). destruct (N.ltb_spec n 24); [reflexivity|lia]. }
      erewrite dec_step by exact Hh. cbn [N.eqb Pos.eqb]. destruct (N.ltb_spec n 24); [reflexivity|lia].
    + destruct Hf as [Hf|Hf]; [lia|]. assert (Hh : dec_head (String (mk_byte 248) (String (mk_byte n) "") ++ r) = Some (7%N, 24%N, n, r)).
      { cbn [append dec_head]. change 248%N with (224 + 24)%N. rewrite Hb by lia. change ((7 * 32 + 24) / 32)%N with 7%N. change ((7 * 32 + 24) mod 32)%N with 24%N.
        cbn [N.ltb N.compare Pos.compare Pos.compare_cont N.eqb Pos.eqb be_read]. rewrite byte_mk by lia. now rewrite N.mul_0_l, N.add_0_l. }
      erewrite dec_step by exact Hh. cbn [N.eqb Pos.eqb N.ltb N.compare Pos.compare Pos.compare_cont]. fold (N.ltb n 32). destruct (N.ltb_spec n 32); [lia|reflexivity].
  - destruct (be_of_bytes b 0) as [v Hv]. pose proof (be_read_0 _ _ _ _ Hv) as [Hb Hv']. rewrite append_nil_r in Hb.
    assert (Hr : forall k r, String.length b = k -> be_read k 0 (b ++ r) = Some (v, r)).
    { intros k r0 <-. rewrite Hb at 2. apply be_read_be0. exact Hv'. }
    destruct Hf as [L|[L|L]]; rewrite L in Hb; cbn [append];
      rewrite L; cbn [Nat.eqb].
    + assert (Hh : dec_head (String (mk_byte 249) (b ++ r)) = Some (7%N, 25%N, v, r)).
      { cbn [dec_head]. rewrite byte_mk by lia. change (249 / 32)%N with 7%N. change (249 mod 32)%N with 25%N. cbn [N.ltb N.compare Pos.compare Pos.compare_cont N.eqb Pos.eqb].
        now rewrite (Hr 2%nat r L). }
      erewrite dec_step by exact Hh. cbn [N.eqb Pos.eqb N.ltb N.compare Pos.compare Pos.compare_cont]. now rewrite <- Hb.
    + assert (Hh : dec_head (String (mk_byte 250) (b ++ r)) = Some (7%N, 26%N, v, r)).
      { cbn [dec_head]. rewrite byte_mk by lia. change (250 / 32)%N with 7%N. change (250 mod 32)%N with 26%N. cbn [N.ltb N.compare Pos.compare Pos.compare_cont N.eqb Pos.eqb].
        now rewrite (Hr 4%nat r L). }
      erewrite dec_step by exact Hh. cbn [N.eqb Pos.eqb N.ltb N.compare Pos.compare Pos.compare_cont]. now rewrite <- Hb.
    + assert (Hh : dec_head (String (mk_byte 251) (b ++ r)) = Some (7%N, 27%N, v, r)).
      { cbn [dec_head]. rewrite byte_mk by lia. change (251 / 32)%N with 7%N. change (251 mod 32)%N with 27%N. cbn [N.ltb N.compare Pos.compare Pos.compare_cont N.eqb Pos.eqb].
        now rewrite (Hr 8%nat r L). }
      erewrite dec_step by exact Hh. cbn [N.eqb Pos.eqb N.ltb N.compare Pos.compare Pos.compare_cont]. now rewrite <- Hb.
Qed.
Lemma dec_item_enc tags d i r : fits tags d i -> dec_item tags d (enc i ++ r) = Some (i, r).
Proof.
  intros H. unfold dec_item. apply dec_enc; [assumption|]. unfold fuel_of. rewrite append_length. pose proof (isize_le i). lia.
Qed.
Lemma dec_all_enc tags d i : fits tags d i -> dec_all tags d (enc i) = Some i.
Proof. intros H. unfold dec_all. rewrite <- (append_nil_r (enc i)). now rewrite dec_item_enc. Qed.
Lemma enc_inj tags d i j : fits tags d i -> fits tags d j -> enc i = enc j -> i = j.
Proof. intros Hi Hj E. apply dec_all_enc in Hi, Hj. congruence. Qed.
