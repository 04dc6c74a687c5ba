(** What a decoder reads depends only on the bytes it consumes; the four parts of a message. *)
From Coq Require Import Permutation Lia.
From Verif Require Import GoBase StrLemmas Base64 JwtSpec DiSpec VcSpec JwtModel JwtProofs SdSpec SdModel SdParse SdIssueV2 DiModel VcModel VcJwt VcParse VcSign CwModel CwSpec CwProofs CwProofs2 CwProofs3 CwProofs4.

Lemma head_split s mt ai n s1 : dec_head s = Some (mt, ai, n, s1) ->
  exists h, s = h ++ s1 /\ (1 <= String.length h)%nat /\ forall t, dec_head (h ++ t) = Some (mt, ai, n, t).
Proof.
  intros H. apply dec_head_inv in H as (Hm & Ha & k & -> & Hk). exists (String (mk_byte (mt * 32 + ai)) (be k n)).
  split; [reflexivity|]. split; [cbn; lia|]. intros t. cbn [append].
  destruct (head_byte mt ai "" ltac:(lia) ltac:(lia)) as (F1 & F2 & F3 & _).
  cbn [dec_head]. rewrite F1, F2, F3. destruct Hk as [(Hl & -> & ->)|(Hl & Hn & Hk)].
  - destruct (N.ltb_spec ai 24); [|lia]. reflexivity.
  - destruct (N.ltb_spec ai 24); [lia|]. destruct Hk as [(-> & ->)|[(-> & ->)|[(-> & ->)|(-> & ->)]]]; cbn [N.eqb Pos.eqb]; now rewrite be_read_be0 by assumption.
Qed.
Lemma dec_split fuel :
  (forall tags d s i r, dec fuel tags d s = Some (i, r) -> exists w, s = w ++ r /\ (1 <= String.length w)%nat
     /\ forall r' f, (3 * String.length w - 1 <= f)%nat -> dec f tags d (w ++ r') = Some (i, r'))
  /\ (forall tags d n s l r, dec_seq fuel tags d n s = Some (l, r) -> exists w, s = w ++ r
     /\ forall r' f, (3 * String.length w + 1 <= f)%nat -> dec_seq f tags d n (w ++ r') = Some (l, r'))
  /\ (forall tags d n s l r, dec_pairs fuel tags d n s = Some (l, r) -> exists w, s = w ++ r
     /\ forall r' f, (3 * String.length w + 1 <= f)%nat -> dec_pairs f tags d n (w ++ r') = Some (l, r')).
Proof.
  induction fuel as [|f0 (IH1 & IH2 & IH3)]; [repeat split; discriminate|]. split; [|split].
  - intros tags d s i r H. destruct (dec_head s) as [[[[mt ai] n] s1]|] eqn:E; [|cbn [dec] in H; rewrite E in H; discriminate].
    rewrite (dec_step _ _ _ _ _ _ _ _ E) in H. apply head_split in E as (h & -> & Hh & E).
    assert (K0 : (i, r) = (i, s1) -> (forall f t, dec (S f) tags d (h ++ t) = Some (i, t)) -> exists w, h ++ s1 = w ++ r /\ (1 <= String.length w)%nat
        /\ forall r' f, (3 * String.length w - 1 <= f)%nat -> dec f tags d (w ++ r') = Some (i, r')).
    { intros [= ->] K. exists h. split; [reflexivity|]. split; [assumption|]. intros r' [|f] Hf; [lia|]. apply K. }
    assert (K1 : forall b, s1 = b ++ r -> (forall f t, (3 * String.length b + 1 <= f)%nat -> dec (S f) tags d (h ++ b ++ t) = Some (i, t)) ->
        exists w, h ++ s1 = w ++ r /\ (1 <= String.length w)%nat
        /\ forall r' f, (3 * String.length w - 1 <= f)%nat -> dec f tags d (w ++ r') = Some (i, r')).
    { intros b -> K. exists (h ++ b). rewrite append_assoc_s. split; [reflexivity|]. rewrite append_length. split; [lia|]. intros r' [|f] Hf; [lia|].
      rewrite append_assoc_s. apply K. lia. }
    destruct (mt =? 0)%N eqn:M0. { injection H as <- <-. apply K0; [reflexivity|]. intros f t. now rewrite (dec_step _ _ _ _ _ _ _ _ (E t)), M0. }
    destruct (mt =? 1)%N eqn:M1. { injection H as <- <-. apply K0; [reflexivity|]. intros f t. now rewrite (dec_step _ _ _ _ _ _ _ _ (E t)), M0, M1. }
    destruct (mt =? 2)%N eqn:M2.
    { destruct (cut n s1) as [[b r0]|] eqn:Ec; [|discriminate]. injection H as <- <-. apply cut_inv in Ec as [-> ->]. apply (K1 b eq_refl).
      intros f t _. rewrite (dec_step _ _ _ _ _ _ _ _ (E _)), M0, M1, M2. now rewrite cut_app. }
    destruct (mt =? 3)%N eqn:M3.
    { destruct (cut n s1) as [[b r0]|] eqn:Ec; [|discriminate]. injection H as <- <-. apply cut_inv in Ec as [-> ->]. apply (K1 b eq_refl).
      intros f t _. rewrite (dec_step _ _ _ _ _ _ _ _ (E _)), M0, M1, M2, M3. now rewrite cut_app. }
    destruct (mt =? 4)%N eqn:M4.
    { destruct d as [|d]; [discriminate|]. destruct (max_elements <? n)%N eqn:Mx; [discriminate|]. destruct (dec_seq f0 tags d n s1) as [[l r0]|] eqn:El; [|discriminate].
      injection H as <- <-. apply IH2 in El as (w & -> & K). apply (K1 w eq_refl). intros f t Hf.
      rewrite (dec_step _ _ _ _ _ _ _ _ (E _)), M0, M1, M2, M3, M4, Mx. now rewrite K by assumption. }
    destruct (mt =? 5)%N eqn:M5.
    { destruct d as [|d]; [discriminate|]. destruct (max_elements <? n)%N eqn:Mx; [discriminate|]. destruct (dec_pairs f0 tags d n s1) as [[l r0]|] eqn:El; [|discriminate].
      injection H as <- <-. apply IH3 in El as (w & -> & K). apply (K1 w eq_refl). intros f t Hf.
      rewrite (dec_step _ _ _ _ _ _ _ _ (E _)), M0, M1, M2, M3, M4, M5, Mx. now rewrite K by assumption. }
    destruct (mt =? 6)%N eqn:M6.
    { destruct tags; [|discriminate]. destruct (dec f0 true d s1) as [[x r0]|] eqn:El; [|discriminate].
      injection H as <- <-. apply IH1 in El as (w & -> & _ & K). apply (K1 w eq_refl). intros f t Hf.
      rewrite (dec_step _ _ _ _ _ _ _ _ (E _)), M0, M1, M2, M3, M4, M5, M6. now rewrite K by lia. }
    assert (K2 : (if (ai <? 24)%N then Some (ISimple n, s1)
          else if (ai =? 24)%N then if (n <? 32)%N then None else Some (ISimple n, s1)
          else if (ai =? 25)%N then Some (IFloat (be 2 n), s1)
          else if (ai =? 26)%N then Some (IFloat (be 4 n), s1)
          else Some (IFloat (be 8 n), s1)) = Some (i, r)) by exact H.
    clear H. assert (Hr : r = s1).
    { repeat match goal with H : (if ?c then _ else _) = _ |- _ => destruct c end; try discriminate; now injection K2. }
    subst r. apply K0; [reflexivity|]. intros f t. rewrite (dec_step _ _ _ _ _ _ _ _ (E t)), M0, M1, M2, M3, M4, M5, M6.
    repeat match goal with H : (if ?c then _ else _) = _ |- _ => destruct c end; try discriminate; injection K2 as <-; reflexivity.
  - intros tags d n s l r H. cbn [dec_seq] in H. destruct (n =? 0)%N eqn:En.
    { injection H as <- <-. exists "". split; [reflexivity|]. intros r' [|f] Hf; [cbn in Hf; lia|]. cbn [dec_seq append]. now rewrite En. }
    destruct (dec f0 tags d s) as [[x s1]|] eqn:Ex; [|discriminate]. destruct (dec_seq f0 tags d (n - 1) s1) as [[l' r0]|] eqn:El; [|discriminate].
    injection H as <- <-. apply IH1 in Ex as (w & -> & Hw & K). apply IH2 in El as (w' & -> & K'). exists (w ++ w'). rewrite append_assoc_s. split; [reflexivity|].
    intros r' [|f] Hf; [lia|]. rewrite append_length in Hf. rewrite append_assoc_s. cbn [dec_seq]. rewrite En, K by lia. now rewrite K' by lia.
  - intros tags d n s l r H. cbn [dec_pairs] in H. destruct (n =? 0)%N eqn:En.
    { injection H as <- <-. exists "". split; [reflexivity|]. intros r' [|f] Hf; [cbn in Hf; lia|]. cbn [dec_pairs append]. now rewrite En. }
    destruct (dec f0 tags d s) as [[x s1]|] eqn:Ex; [|discriminate]. destruct (dec f0 tags d s1) as [[y s2]|] eqn:Ey; [|discriminate].
    destruct (dec_pairs f0 tags d (n - 1) s2) as [[l' r0]|] eqn:El; [|discriminate].
    injection H as <- <-. apply IH1 in Ex as (w & -> & Hw & K). apply IH1 in Ey as (u & -> & Hu & Ku). apply IH3 in El as (w' & -> & K').
    exists (w ++ u ++ w'). rewrite !append_assoc_s. split; [reflexivity|].
    intros r' [|f] Hf; [lia|]. rewrite !append_length in Hf. rewrite !append_assoc_s. cbn [dec_pairs]. rewrite En, K by lia. rewrite Ku by lia. now rewrite K' by lia.
Qed.
Lemma item_split tags d s i r : dec_item tags d s = Some (i, r) -> exists w, s = w ++ r /\ dec_all tags d w = Some i /\ forall t, dec_item tags d (w ++ t) = Some (i, t).
Proof.
  intros H. apply (proj1 (dec_split _)) in H as (w & -> & _ & K). exists w. split; [reflexivity|]. split.
  - unfold dec_all, dec_item. rewrite <- (append_nil_r w) at 2. rewrite K; [reflexivity|]. unfold fuel_of. lia.
  - intros t. apply K. unfold fuel_of. rewrite append_length. lia.
Qed.
Lemma all_item tags d w i t : dec_all tags d w = Some i -> dec_item tags d (w ++ t) = Some (i, t).
Proof.
  intros H. apply dec_all_some in H. apply (proj1 (dec_split _)) in H as (w' & -> & _ & K). rewrite append_nil_r. apply K. unfold fuel_of. rewrite append_length. lia.
Qed.
(** reading a message: its four parts *)
Lemma parse_iff hok data m : parse_sign1 hok data = Some m <-> exists c u pl sg,
  data = String (mk_byte 210) (String (mk_byte 132) "") ++ s1_raw m ++ u ++ pl ++ sg
  /\ dec_all false 31 (s1_raw m) = Some (IBytes c) /\ protected_map (IBytes c) = Some (s1_prot m)
  /\ dec_all false 31 u = Some (IMap (s1_unprot m))
  /\ dec_all false 31 pl = Some (bytes_item (s1_payload m))
  /\ dec_all false 31 sg = Some (IBytes (s1_sig m)) /\ s1_sig m <> ""
  /\ hok (s1_prot m) (s1_unprot m) = true.
Proof.
  split.
  - unfold parse_sign1. change (max_depth - 1)%nat with 31%nat. destruct data as [|a [|b s1]]; try discriminate.
    destruct (N.eqb_spec (byte_n a) 210) as [Ea|]; [|discriminate]. destruct (N.eqb_spec (byte_n b) 132) as [Eb|]; [|discriminate]. cbn [andb negb].
    rewrite <- (mk_byte_n a), <- (mk_byte_n b), Ea, Eb.
    destruct (dec_item false 31 s1) as [[p s2]|] eqn:E1; [|discriminate].
    destruct (dec_item false 31 s2) as [[u s3]|] eqn:E2; [|discriminate].
    destruct (dec_item false 31 s3) as [[pl s4]|] eqn:E3; [|discriminate].
    destruct (dec_item false 31 s4) as [[sg [|]]|] eqn:E4; try discriminate.
    destruct (protected_map p) as [pm|] eqn:Ep; [|discriminate]. destruct u as [| | | | |um| | |]; try discriminate.
    destruct (opt_bytes pl) as [pb|] eqn:Epl; [|discriminate]. destruct (opt_bytes sg) as [[sb|]|] eqn:Esg; try discriminate.
    destruct (String.eqb_spec sb "") as [|Hsb]; [discriminate|]. cbn [orb]. destruct (hok pm um) eqn:Eh; [|discriminate]. cbn [negb].
    intros H. assert (Hm : m = {| s1_raw := str_take (String.length s1 - String.length s2) s1; s1_prot := pm; s1_unprot := um; s1_payload := pb; s1_sig := sb |}) by congruence.
    clear H. apply item_split in E1 as (w1 & -> & D1 & _). apply item_split in E2 as (w2 & -> & D2 & _). apply item_split in E3 as (w3 & -> & D3 & _).
    apply item_split in E4 as (w4 & -> & D4 & _). rewrite append_nil_r in Hm |- *. rewrite take_prefix in Hm.
    subst m. cbn [s1_raw s1_prot s1_unprot s1_payload s1_sig].
    destruct p as [| |c| | | | | |]; try discriminate. exists c, w2, w3, w4.
    split; [reflexivity|]. split; [assumption|]. split; [assumption|]. split; [assumption|]. split.
    { rewrite D3. destruct pl; try discriminate; [injection Epl as <-; reflexivity|]. cbn in Epl. destruct (N.eqb_spec n 22) as [->|]; [|discriminate]. injection Epl as <-. reflexivity. }
    split; [|auto]. rewrite D4. destruct sg; try discriminate; [injection Esg as <-; reflexivity|]. cbn in Esg. destruct (n =? 22)%N; discriminate.
  - intros (c & u & pl & sg & -> & D1 & Dp & D2 & D3 & D4 & Hs & Hh). cbn [append]. unfold parse_sign1.
    change (max_depth - 1)%nat with 31%nat. rewrite !byte_mk by lia. cbn [N.eqb Pos.eqb andb negb].
    rewrite (all_item _ _ _ _ _ D1), (all_item _ _ _ _ _ D2), (all_item _ _ _ _ _ D3). apply dec_all_some in D4. rewrite D4. rewrite Dp.
    destruct (String.eqb_spec (s1_sig m) ""); [contradiction|]. rewrite opt_bytes_item. cbn [opt_bytes]. destruct (String.eqb_spec (s1_sig m) ""); [contradiction|]. rewrite Hh. cbn [orb negb]. rewrite take_prefix. now destruct m.
Qed.
