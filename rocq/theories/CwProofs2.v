(** Lemmas about byte strings, proof values and COSE messages. *)
From Coq Require Import Permutation Lia.
From Verif Require Import GoBase StrLemmas Base64 JwtSpec DiSpec VcSpec JwtModel JwtProofs SdSpec SdModel SdParse DiModel VcModel VcJwt VcParse VcSign CwModel CwSpec CwProofs.

(** what reading one item that is a byte string amounts to *)
Lemma dec_bytes_inv f tags d s c r : dec f tags d s = Some (IBytes c, r) ->
  exists ai, dec_head s = Some (2%N, ai, slen c, c ++ r).
Proof.
  destruct f as [|f]; [discriminate|]. cbn [dec]. destruct (dec_head s) as [[[[mt ai] n] s1]|] eqn:E; [|discriminate].
  intros H. destruct (N.eqb_spec mt 0); [discriminate|]. destruct (N.eqb_spec mt 1); [discriminate|].
  destruct (N.eqb_spec mt 2) as [->|].
  - destruct (cut n s1) as [[b r0]|] eqn:Ec; [|discriminate]. injection H as -> ->. apply cut_inv in Ec as [-> ->]. now exists ai.
  - exfalso. destruct (mt =? 3)%N; [destruct (cut n s1) as [[? ?]|]; discriminate|].
    destruct (mt =? 4)%N; [destruct d; [discriminate|]; destruct (max_elements <? n)%N; [discriminate|]; destruct (dec_seq f tags d n s1) as [[? ?]|]; discriminate|].
    destruct (mt =? 5)%N; [destruct d; [discriminate|]; destruct (max_elements <? n)%N; [discriminate|]; destruct (dec_pairs f tags d n s1) as [[? ?]|]; discriminate|].
    destruct (mt =? 6)%N; [destruct tags; [destruct (dec f true d s1) as [[? ?]|]; discriminate|discriminate]|].
    destruct (ai <? 24)%N; [discriminate|]. destruct (ai =? 24)%N; [destruct (n <? 32)%N; discriminate|]. destruct (ai =? 25)%N; [discriminate|]. destruct (ai =? 26)%N; discriminate.
Qed.
Lemma dec_bytes f tags d s ai c r : dec_head s = Some (2%N, ai, slen c, c ++ r) -> dec (S f) tags d s = Some (IBytes c, r).
Proof. intros H. erewrite dec_step by exact H. cbn [N.eqb Pos.eqb]. now rewrite cut_app. Qed.
Lemma dec_all_some tags d s i : dec_all tags d s = Some i -> dec_item tags d s = Some (i, "").
Proof. unfold dec_all. destruct (dec_item tags d s) as [[x [|]]|]; congruence. Qed.
Lemma is_bstr_head raw c : is_bstr raw c <-> exists ai, dec_head raw = Some (2%N, ai, slen c, c).
Proof.
  unfold is_bstr. split.
  - intros H. apply dec_all_some in H. unfold dec_item in H. apply dec_bytes_inv in H as [ai H]. rewrite append_nil_r in H. now exists ai.
  - intros [ai H]. unfold dec_all, dec_item, fuel_of. rewrite (dec_bytes _ _ _ _ ai c ""); [reflexivity|]. rewrite append_nil_r. exact H.
Qed.
(** the heads of byte strings: the first byte tells how many bytes the length takes *)
Lemma bstr_shape raw c : is_bstr raw c -> exists ai k, raw = String (mk_byte (64 + ai)) (be k (slen c) ++ c) /\ (ai < 28)%N
  /\ ((ai < 24)%N /\ slen c = ai /\ k = 0%nat \/ (24 <= ai)%N /\ (slen c < 256 ^ N.of_nat k)%N /\ (ai = 24 /\ k = 1%nat \/ ai = 25 /\ k = 2%nat \/ ai = 26 /\ k = 4%nat \/ ai = 27 /\ k = 8%nat)%N).
Proof.
  intros H. apply is_bstr_head in H as [ai H]. apply dec_head_inv in H as (_ & Ha & k & -> & H). exists ai, k. auto.
Qed.
Lemma first_byte ai : (ai < 28)%N -> byte_n (mk_byte (64 + ai)) = (64 + ai)%N /\ ((64 + ai) / 32 = 2)%N /\ ((64 + ai) mod 32 = ai)%N.
Proof. intros H. destruct (head_byte 2 ai "" ltac:(lia) ltac:(lia)) as (A & B & C & _). auto. Qed.
Lemma get_be k n c i a s : (i < k)%nat -> String.get (S i) (String a (be k n ++ c) ++ s) = Some (mk_byte ((n / 256 ^ N.of_nat (k - 1 - i)) mod 256)).
Proof.
  revert i. induction k as [|k IH]; intros i H; [lia|]. cbn [append String.get be]. destruct i as [|i].
  - replace (S k - 1 - 0)%nat with k by lia. reflexivity.
  - replace (S k - 1 - S i)%nat with (k - 1 - i)%nat by lia. rewrite <- (IH i) by lia. reflexivity.
Qed.
Lemma byte_at_be k n c i a : (i < k)%nat -> byte_at (String a (be k n ++ c)) (S i) = Ok ((n / 256 ^ N.of_nat (k - 1 - i)) mod 256)%N.
Proof.
  intros H. unfold byte_at. pose proof (get_be k n c i a "" H) as E. rewrite append_nil_r in E. rewrite E. f_equal. apply byte_mk. apply N.mod_lt. discriminate.
Qed.
Lemma enc_bytes_short c : enc (IBytes c) = head 2 (slen c) ++ c.
Proof. reflexivity. Qed.
Lemma det_slow_ok raw c : is_bstr raw c -> det_slow raw = Ok (enc (IBytes c)).
Proof. intros H. unfold det_slow. unfold is_bstr in H. now rewrite H. Qed.
Lemma head_1 n : (24 <= n < 256)%N -> head 2 n = String (mk_byte 88) (be 1 n).
Proof. intros H. unfold head. destruct (N.ltb_spec n 24); [lia|]. destruct (N.ltb_spec n 256); [reflexivity|lia]. Qed.
Lemma head_2 n : (256 <= n < 65536)%N -> head 2 n = String (mk_byte 89) (be 2 n).
Proof. intros H. unfold head. destruct (N.ltb_spec n 24); [lia|]. destruct (N.ltb_spec n 256); [lia|]. destruct (N.ltb_spec n 65536); [reflexivity|lia]. Qed.
Lemma head_4 n : (65536 <= n < 4294967296)%N -> head 2 n = String (mk_byte 90) (be 4 n).
Proof. intros H. unfold head. destruct (N.ltb_spec n 24); [lia|]. destruct (N.ltb_spec n 256); [lia|]. destruct (N.ltb_spec n 65536); [lia|]. destruct (N.ltb_spec n 4294967296); [reflexivity|lia]. Qed.
Lemma head_8 n : (4294967296 <= n)%N -> head 2 n = String (mk_byte 91) (be 8 n).
Proof. intros H. unfold head. destruct (N.ltb_spec n 24); [lia|]. destruct (N.ltb_spec n 256); [lia|]. destruct (N.ltb_spec n 65536); [lia|]. destruct (N.ltb_spec n 4294967296); [lia|reflexivity]. Qed.
Lemma byte_nz n k : ((n / 256 ^ N.of_nat k) mod 256 <> 0)%N -> (256 ^ N.of_nat k <= n)%N.
Proof. intros H. destruct (N.lt_ge_cases n (256 ^ N.of_nat k)) as [L|]; [|assumption]. rewrite N.div_small in H by assumption. now destruct H. Qed.
Lemma det_bstr_ok raw c : is_bstr raw c -> det_bstr raw = Ok (enc (IBytes c)).
Proof.
  intros H. pose proof (det_slow_ok _ _ H) as Hsl. destruct (bstr_shape _ _ H) as (ai & k & E & Ha & Hk). unfold det_bstr. unfold is_bstr in H.
  destruct (first_byte ai Ha) as (F1 & F2 & F3). rewrite enc_bytes_short in *.
  rewrite E. rewrite F1, F2, F3. rewrite <- E. rewrite H. cbn [N.eqb Pos.eqb guard bind]. rewrite E in Hsl |- *.
  destruct Hk as [(Hl & Hn & ->)|(Hl & Hn & Hk)].
  - destruct (N.ltb_spec ai 24); [|lia]. cbn [be append]. f_equal. unfold head. rewrite Hn. destruct (N.ltb_spec ai 24); [reflexivity|lia].
  - destruct (N.ltb_spec ai 24); [lia|].
    destruct Hk as [(-> & ->)|[(-> & ->)|[(-> & ->)|(-> & ->)]]]; cbn [N.eqb Pos.eqb].
    + rewrite byte_at_be by lia. cbn [bind]. destruct (N.leb_spec 24 ((slen c / 256 ^ N.of_nat (1 - 1 - 0)) mod 256)) as [L|L]; [|exact Hsl].
      cbn in L, Hn. rewrite N.div_1_r in L. rewrite head_1; [reflexivity|]. rewrite N.mod_small in L by assumption. lia.
    + rewrite byte_at_be by lia. cbn [bind]. destruct (N.eqb_spec ((slen c / 256 ^ N.of_nat (2 - 1 - 0)) mod 256) 0) as [L|L]; cbn [negb]; [exact Hsl|].
      apply byte_nz in L. cbn in L, Hn. rewrite head_2; [reflexivity|lia].
    + rewrite byte_at_be by lia. cbn [bind]. destruct (N.eqb_spec ((slen c / 256 ^ N.of_nat (4 - 1 - 0)) mod 256) 0) as [L|L]; cbn [negb].
      * rewrite byte_at_be by lia. cbn [bind]. destruct (N.eqb_spec ((slen c / 256 ^ N.of_nat (4 - 1 - 1)) mod 256) 0) as [L'|L']; cbn [negb]; [exact Hsl|].
        apply byte_nz in L'. cbn in L', Hn. rewrite head_4; [reflexivity|lia].
      * apply byte_nz in L. cbn in L, Hn. rewrite head_4; [reflexivity|lia].
    + rewrite byte_at_be by lia. cbn [bind]. destruct (N.eqb_spec ((slen c / 256 ^ N.of_nat (8 - 1 - 0)) mod 256) 0) as [L|L]; cbn [negb].
      2:{ apply byte_nz in L. cbn in L, Hn. rewrite head_8; [reflexivity|lia]. }
      rewrite byte_at_be by lia. cbn [bind]. destruct (N.eqb_spec ((slen c / 256 ^ N.of_nat (8 - 1 - 1)) mod 256) 0) as [L1|L1]; cbn [negb].
      2:{ apply byte_nz in L1. cbn in L1, Hn. rewrite head_8; [reflexivity|lia]. }
      rewrite byte_at_be by lia. cbn [bind]. destruct (N.eqb_spec ((slen c / 256 ^ N.of_nat (8 - 1 - 2)) mod 256) 0) as [L2|L2]; cbn [negb].
      2:{ apply byte_nz in L2. cbn in L2, Hn. rewrite head_8; [reflexivity|lia]. }
      rewrite byte_at_be by lia. cbn [bind]. destruct (N.eqb_spec ((slen c / 256 ^ N.of_nat (8 - 1 - 3)) mod 256) 0) as [L3|L3]; cbn [negb]; [exact Hsl|].
      apply byte_nz in L3. cbn in L3, Hn. rewrite head_8; [reflexivity|lia].
Qed.
(** an item whose first byte has major type 2 is a byte string *)
Lemma dec_major2 tags d a s i r : (byte_n a / 32 = 2)%N -> dec_item tags d (String a s) = Some (i, r) -> exists c, i = IBytes c.
Proof.
  intros Ha H. unfold dec_item, fuel_of in H. destruct (dec_head (String a s)) as [[[[mt ai] n] s1]|] eqn:E.
  2:{ cbn [dec] in H. rewrite E in H. discriminate. }
  erewrite dec_step in H by exact E. cbn [dec_head] in E. rewrite Ha in E.
  assert (mt = 2%N) as ->.
  { repeat match goal with H : context[if ?c then _ else _] |- _ => destruct c | H : context[match ?c with Some _ => _ | None => _ end] |- _ => destruct c as [[? ?]|] end; try discriminate; now injection E. }
  cbn [N.eqb Pos.eqb] in H. destruct (cut n s1) as [[b r0]|]; [|discriminate]. injection H as <- _. now exists b.
Qed.
Lemma det_bstr_inv raw d : det_bstr raw = Ok d -> exists c, is_bstr raw c /\ d = enc (IBytes c).
Proof.
  intros H. assert (Hb : exists c, is_bstr raw c).
  { unfold det_bstr in H. destruct raw as [|a s]; [discriminate|]. apply bind_ok in H as (? & Hg & H). apply bind_ok in H as (? & Hv & _).
    destruct (N.eqb_spec (byte_n a / 32) 2) as [E|]; [|discriminate]. destruct (dec_all false max_depth (String a s)) as [i|] eqn:Ei; [|discriminate].
    pose proof (dec_all_some _ _ _ _ Ei) as Ed. destruct (dec_major2 _ _ _ _ _ _ E Ed) as [c ->]. now exists c. }
  destruct Hb as [c Hc]. exists c. split; [assumption|]. rewrite (det_bstr_ok _ _ Hc) in H. congruence.
Qed.
Lemma det_bstr_total raw : det_bstr raw <> Panic.
Proof.
  intros H. destruct raw as [|a s]; [discriminate|]. assert (Hb : exists c, is_bstr (String a s) c).
  { unfold det_bstr in H. destruct (N.eqb_spec (byte_n a / 32) 2) as [E|]; [|discriminate]. cbn [guard bind] in H.
    destruct (dec_all false max_depth (String a s)) as [i|] eqn:Ei; [|discriminate].
    pose proof (dec_all_some _ _ _ _ Ei) as Ed. destruct (dec_major2 _ _ _ _ _ _ E Ed) as [c ->]. now exists c. }
  destruct Hb as [c Hc]. rewrite (det_bstr_ok _ _ Hc) in H. discriminate.
Qed.
(** no form of a byte string is shorter *)
Lemma shortest raw c : is_bstr raw c -> (String.length (enc (IBytes c)) <= String.length raw)%nat.
Proof.
  intros H. destruct (bstr_shape _ _ H) as (ai & k & -> & Ha & Hk). rewrite enc_bytes_short. cbn [String.length]. rewrite !append_length, be_length.
  enough (String.length (head 2 (slen c)) <= S k)%nat by lia. unfold head.
  destruct Hk as [(Hl & Hn & ->)|(Hl & Hn & Hk)].
  - rewrite Hn. destruct (N.ltb_spec ai 24); [cbn; lia|lia].
  - destruct (N.ltb_spec (slen c) 24); [cbn; lia|].
    destruct Hk as [(-> & ->)|[(-> & ->)|[(-> & ->)|(-> & ->)]]]; cbn in Hn;
      destruct (N.ltb_spec (slen c) 256); cbn [String.length]; rewrite ?be_length; try lia;
      destruct (N.ltb_spec (slen c) 65536); cbn [String.length]; rewrite ?be_length; try lia;
      destruct (N.ltb_spec (slen c) 4294967296); cbn [String.length]; rewrite ?be_length; try lia.
Qed.
(** a byte string is below 2^64 bytes when one of its forms exists *)
Lemma bstr_bound raw c : is_bstr raw c -> (slen c < two64)%N.
Proof.
  intros H. destruct (bstr_shape _ _ H) as (ai & k & _ & Ha & [(Hl & Hn & _)|(Hl & Hn & [(_ & ->)|[(_ & ->)|[(_ & ->)|(_ & ->)]]])]);
  unfold two64; cbn in Hn; lia.
Qed.
Lemma enc_is_bstr c : (slen c < two64)%N -> is_bstr (enc (IBytes c)) c.
Proof. intros H. unfold is_bstr. now apply dec_all_enc. Qed.

(** ** Proof values *)
Lemma proof_value_ok m c : is_bstr (marshal_protected m) c -> get_proof_value m = Ok (sig_structure c (s1_payload m)).
Proof.
  intros H. unfold get_proof_value. rewrite (det_bstr_ok _ _ H). cbn [bind]. unfold sig_structure. cbn [enc fold_right List.length]. rewrite !append_nil_r.
  unfold bytes_item. destruct (s1_payload m); reflexivity.
Qed.
Lemma proof_value_inv m t : get_proof_value m = Ok t -> exists c, is_bstr (marshal_protected m) c /\ t = sig_structure c (s1_payload m).
Proof.
  intros H. assert (Hb : exists c, is_bstr (marshal_protected m) c).
  { unfold get_proof_value in H. apply bind_ok in H as (d & Hd & _). apply det_bstr_inv in Hd as (c & Hc & _). now exists c. }
  destruct Hb as [c Hc]. exists c. split; [assumption|]. rewrite (proof_value_ok _ _ Hc) in H. congruence.
Qed.
Definition payload_fits (p : option string) : Prop := match p with Some s => (slen s < two64)%N | None => True end.
Lemma sig_fits c p : (slen c < two64)%N -> payload_fits p ->
  fits false 32 (IArr [IText "Signature1"; IBytes c; IBytes ""; match p with Some s => IBytes s | None => ISimple 22 end]).
Proof.
  intros Hc Hp. cbn [fits fold_right List.length]. split; [unfold max_elements; cbn; lia|]. split; [unfold two64; cbn; lia|]. split; [exact Hc|].
  split; [unfold two64; cbn; lia|]. split; [|exact I]. destruct p as [s|]; [exact Hp|]. left. lia.
Qed.
Lemma sig_structure_inj c p c' p' : (slen c < two64)%N -> payload_fits p -> (slen c' < two64)%N -> payload_fits p' ->
  sig_structure c p = sig_structure c' p' -> c = c' /\ p = p'.
Proof.
  intros Hc Hp Hc' Hp' E. unfold sig_structure in E. apply (enc_inj false 32) in E; [|now apply sig_fits|now apply sig_fits].
  injection E as -> E. split; [reflexivity|]. destruct p, p'; try discriminate; congruence.
Qed.

(** ** Parsing *)
Lemma take_prefix a b : str_take (String.length (a ++ b) - String.length b) (a ++ b) = a.
Proof. rewrite append_length. replace (String.length a + String.length b - String.length b)%nat with (String.length a) by lia. apply JwtProofs.str_take_app. Qed.
(** the parts of a message that was read: the content of its protected header, its payload and signature *)
Record parsed (hok : list (item * item) -> list (item * item) -> bool) (m : sign1) (c : string) : Prop := {
  pa_raw : is_bstr (s1_raw m) c;
  pa_prot : protected_map (IBytes c) = Some (s1_prot m);
  pa_payload : payload_fits (s1_payload m);
  pa_sig : s1_sig m <> "";
  pa_ok : hok (s1_prot m) (s1_unprot m) = true }.
Lemma bytes_item_bound tags d s c r : dec_item tags d s = Some (IBytes c, r) -> (slen c < two64)%N.
Proof.
  intros H. apply dec_bytes_inv in H as [ai H]. apply dec_head_inv in H as (_ & Ha & k & _ & [(Hl & Hn & _)|(Hl & Hn & [(_ & ->)|[(_ & ->)|[(_ & ->)|(_ & ->)]]])]);
    unfold two64; cbn in Hn; lia.
Qed.
Lemma parse_inv hok data m : parse_sign1 hok data = Some m -> exists c, parsed hok m c.
Proof.
  unfold parse_sign1. destruct data as [|a [|b s1]]; try discriminate. destruct (negb _); [discriminate|].
  destruct (dec_item false (max_depth - 1) s1) as [[p s2]|] eqn:E1; [|discriminate].
  destruct (dec_item false (max_depth - 1) s2) as [[u s3]|] eqn:E2; [|discriminate].
  destruct (dec_item false (max_depth - 1) s3) as [[pl s4]|] eqn:E3; [|discriminate].
  destruct (dec_item false (max_depth - 1) s4) as [[sg [|]]|] eqn:E4; try discriminate.
  destruct (protected_map p) as [pm|] eqn:Ep; [|discriminate]. destruct u as [| | | | |um| | |]; try discriminate.
  destruct (opt_bytes pl) as [pb|] eqn:Epl; [|discriminate]. destruct (opt_bytes sg) as [[sb|]|] eqn:Esg; try discriminate.
  destruct (String.eqb_spec sb "") as [|Hsb]; [discriminate|]. cbn [orb]. destruct (hok pm um) eqn:Eh; [|discriminate]. cbn [negb].
  intros [= <-]. destruct p as [| |c| | | | | |]; try discriminate. exists c. constructor; cbn [s1_raw s1_prot s1_unprot s1_payload s1_sig]; try assumption.
  - pose proof E1 as E1'. unfold dec_item in E1'. apply dec_bytes_inv in E1' as [ai Hh].
    pose proof (dec_head_inv _ _ _ _ _ Hh) as (Hm & Ha & k & -> & Hk).
    assert (Es : String (mk_byte (2 * 32 + ai)) (be k (slen c) ++ c ++ s2) = String (mk_byte (2 * 32 + ai)) (be k (slen c) ++ c) ++ s2)
      by (cbn [append]; now rewrite append_assoc_s).
    rewrite Es, take_prefix. apply is_bstr_head. exists ai. destruct (head_byte 2 ai "" ltac:(lia) ltac:(lia)) as (F1 & F2 & F3 & _).
    cbn [dec_head]. rewrite F1, F2, F3. destruct Hk as [(Hl & Hn & ->)|(Hl & Hn & Hk)].
    + destruct (N.ltb_spec ai 24); [|lia]. cbn [be append]. now rewrite Hn.
    + destruct (N.ltb_spec ai 24); [lia|]. destruct Hk as [(-> & ->)|[(-> & ->)|[(-> & ->)|(-> & ->)]]]; cbn [N.eqb Pos.eqb]; now rewrite be_read_be0 by assumption.
  - destruct pl; try discriminate.
    + injection Epl as <-. eapply bytes_item_bound, E3.
    + cbn in Epl. destruct (n =? 22)%N; [|discriminate]. injection Epl as <-. exact I.
Qed.
Lemma parsed_protected hok m c : parsed hok m c -> marshal_protected m = s1_raw m.
Proof.
  intros H. unfold marshal_protected. destruct (String.eqb_spec (s1_raw m) "") as [E|]; [|reflexivity]. pose proof (pa_raw _ _ _ H) as R.
  unfold is_bstr in R. rewrite E in R. discriminate.
Qed.
Lemma parsed_value hok m c : parsed hok m c -> get_proof_value m = Ok (sig_structure c (s1_payload m)).
Proof. intros H. apply proof_value_ok. rewrite (parsed_protected _ _ _ H). apply H. Qed.
Lemma parsed_bound hok m c : parsed hok m c -> (slen c < two64)%N.
Proof. intros H. eapply bstr_bound, H. Qed.
(** signed bytes determine header and payload *)
Lemma parsed_same hok hok' m c m' c' : parsed hok m c -> parsed hok' m' c' -> get_proof_value m = get_proof_value m' ->
  s1_prot m = s1_prot m' /\ s1_payload m = s1_payload m' /\ c = c'.
Proof.
  intros H H' E. rewrite (parsed_value _ _ _ H), (parsed_value _ _ _ H') in E. assert (X : forall a b : string, Ok a = Ok b -> a = b) by (intros; congruence). apply X in E.
  apply sig_structure_inj in E as [-> Ep]; [|eapply parsed_bound, H|apply H|eapply parsed_bound, H'|apply H'].
  split; [|auto]. pose proof (pa_prot _ _ _ H). pose proof (pa_prot _ _ _ H'). congruence.
Qed.
