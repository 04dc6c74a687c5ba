From Coq Require Import ZifyN.
From Verif Require Import GoBase Base64 StatusSpec StatusModel.
Ltac Zify.zify_post_hook ::= Z.to_euclidean_division_equations.

(** ** BitAt *)
Lemma bits_lsb_length s : List.length (bits_lsb s) = (8 * String.length s)%nat.
Proof.
  induction s as [|[b0 b1 b2 b3 b4 b5 b6 b7] s IH]; [reflexivity|].
  cbn [bits_lsb byte_bits app List.length String.length]. rewrite IH. lia.
Qed.

Lemma nth_bits s : forall q r c, (r < 8)%nat -> String.get q s = Some c ->
  nth_error (bits_lsb s) (8 * q + r) = nth_error (byte_bits c) r.
Proof.
  induction s as [|d s IH]; intros q r c Hr Hg; [discriminate|].
  destruct q as [|q].
  - cbn in Hg. injection Hg as ->. rewrite Nat.mul_0_r, Nat.add_0_l. cbn [bits_lsb].
    apply nth_error_app1. destruct c; cbn. lia.
  - cbn [String.get] in Hg. cbn [bits_lsb].
    replace (8 * S q + r)%nat with (8 + (8 * q + r))%nat by lia.
    rewrite nth_error_app2; [|destruct d; cbn; lia].
    replace (List.length (byte_bits d)) with 8%nat by (destruct d; reflexivity).
    replace (8 + (8 * q + r) - 8)%nat with (8 * q + r)%nat by lia. now apply IH.
Qed.

Lemma mask_bit c r : (r < 8)%nat ->
  nth_error (byte_bits c) r = Some (negb (N.eqb (N.land (N_of_ascii c) (N.shiftl 1 (N.of_nat r))) 0)).
Proof.
  intros Hr.
  assert (H : forall c, forallb (fun r => match nth_error (byte_bits c) r with
     | Some b => Bool.eqb b (negb (N.eqb (N.land (N_of_ascii c) (N.shiftl 1 (N.of_nat r))) 0))
     | None => false end) (seq 0 8) = true).
  { intros [[] [] [] [] [] [] [] []]; vm_compute; reflexivity. }
  specialize (H c). rewrite forallb_forall in H. specialize (H r).
  assert (Hin : In r (seq 0 8)) by (apply in_seq; lia).
  specialize (H Hin). destruct (nth_error (byte_bits c) r); [|discriminate].
  apply Bool.eqb_prop in H. now subst.
Qed.

Lemma get_lt s : forall n, (n < String.length s)%nat -> exists c, String.get n s = Some c.
Proof.
  induction s as [|c s IH]; cbn; intros n Hn; [lia|].
  destruct n; [eauto|]. apply IH. lia.
Qed.

Lemma bit_at_in bs idx :
  0 <= idx < 8 * Z.of_nat (String.length bs) ->
  exists b, bit_at bs idx = Ok b /\ nth_error (bits_lsb bs) (Z.to_nat idx) = Some b.
Proof.
  intros Hr. unfold bit_at.
  destruct (idx <? 0) eqn:E1; [lia|]. cbn [orb].
  destruct (Z.of_nat (String.length bs) <=? idx ÷ 8) eqn:E2; [apply Z.leb_le in E2; lia|].
  destruct (get_lt bs (Z.to_nat (idx ÷ 8))) as [c Hc]; [lia|].
  rewrite Hc. eexists; split; [reflexivity|].
  replace (Z.to_nat idx) with (8 * Z.to_nat (idx ÷ 8) + Z.to_nat (Z.rem idx 8))%nat by lia.
  rewrite (nth_bits bs _ _ c); [|lia|exact Hc].
  rewrite mask_bit by lia. do 5 f_equal. lia.
Qed.

Lemma bit_at_out bs idx :
  ~ (0 <= idx < 8 * Z.of_nat (String.length bs)) -> bit_at bs idx = Err "position is invalid".
Proof.
  intros Hr. unfold bit_at. destruct (idx <? 0) eqn:E1; [reflexivity|]. cbn [orb].
  destruct (Z.of_nat (String.length bs) <=? idx ÷ 8) eqn:E2; [reflexivity|].
  apply Z.leb_gt in E2. lia.
Qed.

Lemma bit_at_ok_iff bs idx b :
  bit_at bs idx = Ok b <-> 0 <= idx /\ nth_error (bits_lsb bs) (Z.to_nat idx) = Some b.
Proof.
  destruct (Z_le_dec 0 idx) as [H0|H0]; [destruct (Z_lt_dec idx (8 * Z.of_nat (String.length bs))) as [H1|H1]|].
  - destruct (bit_at_in bs idx) as (b' & E1 & E2); [lia|]. rewrite E1, E2. intuition congruence.
  - rewrite bit_at_out by lia. split; [discriminate|]. intros [_ H].
    assert (Z.to_nat idx < List.length (bits_lsb bs))%nat by (apply nth_error_Some; congruence).
    rewrite bits_lsb_length in *. lia.
  - rewrite bit_at_out by lia. split; [discriminate|lia].
Qed.

(** ** Round trip *)
Lemma decode_encode gzip gunzip mb bits enc :
  gunzip (gzip bits) = Some bits ->
  bs_encode gzip bits = Ok enc -> bs_decode gunzip mb false enc = Ok bits.
Proof.
  intros Hz. unfold bs_encode, bs_decode. intros [= <-]. now rewrite b64_decode_encode, Hz.
Qed.
Lemma decode_encode_multibase gzip gunzip mb bits enc :
  gunzip (gzip bits) = Some bits ->
  bs_encode gzip bits = Ok enc -> bs_decode gunzip mb true (String "u" enc) = Ok bits.
Proof.
  intros Hz. unfold bs_encode, bs_decode, multibase_decode. intros [= <-]. cbn [Ascii.eqb Bool.eqb].
  now rewrite b64_decode_encode, Hz.
Qed.

(** ** Atoi *)
Lemma digit_val_iff c v : digit_val c = Some v <-> digit c v.
Proof.
  split.
  - destruct c as [[] [] [] [] [] [] [] []]; vm_compute; intros H; try discriminate;
      injection H as <-; constructor.
  - intros H; inversion H; subst; reflexivity.
Qed.

Lemma digits_val_snoc s : forall acc c,
  digits_val acc (s ++ String c "") =
  match digits_val acc s, digit_val c with Some z, Some d => Some (10 * z + d) | _, _ => None end.
Proof.
  induction s as [|d s IH]; intros acc c; cbn [append digits_val].
  - destruct (digit_val c); reflexivity.
  - destruct (digit_val d); [apply IH|reflexivity].
Qed.

Lemma string_snoc_ind (P : string -> Prop) :
  P "" -> (forall s c, P s -> P (s ++ String c "")) -> forall s, P s.
Proof.
  intros H0 HS s.
  assert (G : forall l, P (string_of_list_ascii l)).
  { induction l as [|c l IH] using rev_ind; [exact H0|].
    replace (string_of_list_ascii (l ++ [c])) with (string_of_list_ascii l ++ String c "").
    - now apply HS.
    - clear. induction l as [|d l IH]; cbn; [reflexivity|]. now rewrite IH. }
  rewrite <- (string_of_list_ascii_of_string s). apply G.
Qed.

Lemma append_snoc_not_empty s c : s ++ String c "" <> "".
Proof. destruct s; discriminate. Qed.

Lemma decimal_not_empty s z : decimal s z -> s <> "".
Proof. intros H; inversion H; subst; [discriminate|apply append_snoc_not_empty]. Qed.

Lemma decimal_iff s z : decimal s z <-> s <> "" /\ digits_val 0 s = Some z.
Proof.
  split.
  - intros H. split; [eapply decimal_not_empty; eassumption|].
    induction H as [c v Hd|s z c v Hs IH Hd].
    + cbn. apply digit_val_iff in Hd. rewrite Hd. f_equal; lia.
    + rewrite digits_val_snoc, IH. apply digit_val_iff in Hd. now rewrite Hd.
  - revert z. induction s as [|s c IH] using string_snoc_ind; intros z [Hne Hv]; [congruence|].
    rewrite digits_val_snoc in Hv.
    destruct (digits_val 0 s) as [w|] eqn:Ew; [|discriminate].
    destruct (digit_val c) as [d|] eqn:Ed; [|discriminate]. injection Hv as <-.
    apply digit_val_iff in Ed.
    destruct s as [|c0 s0].
    + cbn in Ew. injection Ew as <-. cbn. replace (10 * 0 + d) with d by lia. now constructor.
    + apply (dec_snoc _ w); [apply IH; split; [discriminate|reflexivity]|assumption].
Qed.

Lemma decimal_head s z : decimal s z -> exists c s', s = String c s' /\ c <> "-"%char /\ c <> "+"%char.
Proof.
  intros H. apply decimal_iff in H as [Hne Hv]. destruct s as [|c s]; [congruence|].
  exists c, s. split; [reflexivity|]. cbn in Hv.
  split; intros ->; vm_compute in Hv; discriminate.
Qed.

Lemma atoi_iff s z : atoi s = Ok z <-> denotes s z /\ int64_range z.
Proof.
  unfold int64_range. split.
  - unfold atoi. destruct s as [|c s]; [discriminate|].
    destruct (Ascii.eqb_spec c "-") as [->|Hm]; [|destruct (Ascii.eqb_spec c "+") as [->|Hp]].
    + destruct s as [|c1 s1]; [discriminate|].
      destruct (digits_val 0 (String c1 s1)) as [v|] eqn:E; [|discriminate].
      destruct ((_ <=? - v) && _)%bool eqn:R; [|discriminate]. intros [= <-].
      split; [|lia]. apply den_minus. apply decimal_iff. split; [discriminate|exact E].
    + destruct s as [|c1 s1]; [discriminate|].
      destruct (digits_val 0 (String c1 s1)) as [v|] eqn:E; [|discriminate].
      destruct ((_ <=? v) && _)%bool eqn:R; [|discriminate]. intros [= <-].
      split; [|lia]. apply den_plus. apply decimal_iff. split; [discriminate|exact E].
    + destruct (digits_val 0 (String c s)) as [v|] eqn:E; [|discriminate].
      destruct ((_ <=? v) && _)%bool eqn:R; [|discriminate]. intros [= <-].
      split; [|lia]. constructor. apply decimal_iff. split; [discriminate|exact E].
  - intros [Hd Hr]. inversion Hd as [s' z' Hdec|s' z' Hdec|s' z' Hdec]; subst; unfold atoi.
    + destruct (decimal_head _ _ Hdec) as (c & s' & -> & Hm & Hp).
      apply Ascii.eqb_neq in Hm, Hp. rewrite Hm, Hp.
      apply decimal_iff in Hdec as [_ ->].
      destruct ((_ <=? z) && _)%bool eqn:R; [reflexivity|lia].
    + cbn [Ascii.eqb Bool.eqb]. apply decimal_iff in Hdec as [Hne E].
      destruct s'; [congruence|]. rewrite E.
      destruct ((_ <=? z) && _)%bool eqn:R; [reflexivity|lia].
    + cbn [Ascii.eqb Bool.eqb]. apply decimal_iff in Hdec as [Hne E].
      destruct s'; [congruence|]. rewrite E.
      destruct ((_ <=? - z') && _)%bool eqn:R; [reflexivity|lia].
Qed.

Lemma atoi_no_panic s : atoi s <> Panic.
Proof.
  unfold atoi. destruct s as [|c s]; [discriminate|].
  destruct (Ascii.eqb c "-"); [|destruct (Ascii.eqb c "+")];
    try (destruct s; [discriminate|]);
    destruct (digits_val 0 _); try discriminate; cbv zeta;
    destruct ((_ <=? _) && _)%bool; discriminate.
Qed.

(** ** status size *)
Lemma shl1_minus1_ok n : 1 < n < 64 -> shl1_minus1 n = 2^n - 1.
Proof.
  intros Hn. unfold shl1_minus1. destruct (64 <=? n) eqn:E; [lia|].
  destruct (Z.eq_dec n 63) as [->|Hne]; [reflexivity|].
  assert (H1 : 2^n <= 2^62) by (apply Z.pow_le_mono_r; lia).
  assert (H2 : 2 <= 2^n) by (change 2 with (2^1) at 1; apply Z.pow_le_mono_r; lia).
  assert (W : forall z, 0 <= z < 2^63 -> wrap64 z = z).
  { intros z Hz. unfold wrap64. rewrite Z.mod_small; [|lia]. cbv zeta.
    destruct (z <? 2^63) eqn:E2; [reflexivity|lia]. }
  rewrite (W (2^n)); [apply W|]; change (2^63) with (2 * 2^62) in *; lia.
Qed.


Lemma int_of_float_pos q n : int_of_float q = n -> 0 < n -> n = Z.quot (Qnum q) (Zpos (Qden q)) /\ n < 2^63.
Proof.
  unfold int_of_float. cbv zeta. destruct ((_ <=? _) && _)%bool eqn:E; intros <- H.
  - apply andb_true_iff in E as [_ E]. apply Z.ltb_lt in E. auto.
  - exfalso. change (- 2^63) with (-9223372036854775808) in H. lia.
Qed.

Lemma check_status_size_sound e :
  check_status_size e = Ok tt -> size_ok e.
Proof.
  unfold check_status_size, size_ok. intros H _.
  destruct (mget (se_fields e) "statusSize") as [[| |q| | |]|]; auto; try discriminate.
  cbv zeta in *. destruct (int_of_float q <=? 0) eqn:E0; [discriminate|]. apply Z.leb_gt in E0.
  destruct (int_of_float_pos q _ eq_refl E0) as [En Hlt].
  destruct (int_of_float q =? 1) eqn:E1; [left; apply Z.eqb_eq in E1; congruence|].
  apply Z.eqb_neq in E1. right.
  destruct (mget (se_fields e) "statusMessage") as [[| | | |ms|]|]; try discriminate.
  destruct (Z.of_nat (List.length ms) =? shl1_minus1 (int_of_float q)) eqn:E2; [|discriminate].
  apply Z.eqb_eq in E2.
  set (n := Z.quot (Qnum q) (Z.pos (Qden q))) in *. split; [lia|].
  exists ms. split; [reflexivity|]. rewrite E2, En. apply shl1_minus1_ok.
  destruct (Z_lt_dec n 64); [lia|]. exfalso.
  unfold shl1_minus1 in E2. rewrite En in E2. destruct (64 <=? n) eqn:E3; [|lia]. lia.
Qed.

Lemma check_status_size_complete e :
  se_type e = "BitstringStatusListEntry" -> msgs_len_ok e ->
  size_ok e -> check_status_size e = Ok tt.
Proof.
  unfold check_status_size, size_ok. intros Ht Hm H. specialize (H Ht).
  destruct (mget (se_fields e) "statusSize") as [[| |q| | |]|]; auto; try contradiction.
  cbv zeta in *. set (n := Z.quot (Qnum q) (Z.pos (Qden q))) in *.
  assert (Ei : -2^63 <= n < 2^63 -> int_of_float q = n).
  { intros Hr. unfold int_of_float. fold n. cbv zeta.
    destruct ((_ <=? n) && _)%bool eqn:E; [reflexivity|lia]. }
  destruct H as [H|(Hr & ms & Hget & Hlen)].
  - rewrite Ei by lia. rewrite H. reflexivity.
  - rewrite Ei by lia.
    destruct (n <=? 0) eqn:E0; [lia|]. destruct (n =? 1) eqn:E1; [lia|].
    pose proof (Hm ms Hget) as Hb. rewrite Hget.
    assert (Hn : n < 64).
    { destruct (Z_lt_dec n 64); [assumption|]. exfalso.
      assert (2^64 <= 2^n) by (apply Z.pow_le_mono_r; lia). lia. }
    rewrite shl1_minus1_ok by lia. rewrite Hlen, Z.eqb_refl. reflexivity.
Qed.

(** Results that are neither a panic nor one of the two verdict errors. *)
Definition plain {A} (r : res A) : Prop := r <> Panic /\ r <> Err err_revoked /\ r <> Err err_suspended.
Lemma plain_ok {A} (a : A) : plain (Ok a). Proof. repeat split; discriminate. Qed.
Lemma plain_bind {A B} (r : res A) (f : A -> res B) : plain r -> (forall a, plain (f a)) -> plain (bind r f).
Proof. intros (H1 & H2 & H3) Hf. destruct r; cbn; [apply Hf| |congruence]. repeat split; congruence. Qed.
Ltac plain_err := repeat split; discriminate.
Lemma plain_field e f : plain (field_present e f).
Proof. unfold field_present. destruct (mget _ _) as [[]|]; plain_err. Qed.
Lemma plain_size e : plain (check_status_size e).
Proof.
  unfold check_status_size. destruct (mget _ "statusSize") as [[]|]; try plain_err. cbv zeta.
  destruct (_ <=? 0); [plain_err|]. destruct (_ =? 1); [plain_err|].
  destruct (mget _ "statusMessage") as [[]|]; try plain_err. destruct (_ =? _); plain_err.
Qed.
Lemma plain_validate v e : plain (validate_status v e).
Proof.
  unfold validate_status. apply plain_bind; [unfold guard; destruct (String.eqb _ _); plain_err|intros _].
  repeat (apply plain_bind; [apply plain_field|intros _]). destruct v; [apply plain_ok|apply plain_size].
Qed.
Lemma plain_index e : plain (get_status_list_index e).
Proof.
  unfold get_status_list_index. destruct (mget _ _) as [[| | |s| |]|]; try plain_err.
  unfold atoi. destruct s as [|c s]; [plain_err|].
  destruct (Ascii.eqb c "-"); [|destruct (Ascii.eqb c "+")]; try (destruct s; [plain_err|]);
    destruct (digits_val 0 _); try plain_err; cbv zeta; destruct ((_ <=? _) && _)%bool; plain_err.
Qed.
Lemma plain_validator t : plain (get_validator t).
Proof. unfold get_validator. repeat destruct (String.eqb _ _); plain_err. Qed.
Lemma plain_not {A} (r : res A) t : plain r -> t = err_revoked \/ t = err_suspended -> r <> Err t.
Proof. intros (_ & H1 & H2) [-> | ->]; assumption. Qed.

(** ** verify_entry *)
Section V.
  Variable gunzip : string -> option string.
  Variable multibase_other : ascii -> string -> option string.
  Variable resolve : string -> res list_vc.
  Variable iss : option string.

  Notation ventry := (verify_entry gunzip multibase_other resolve iss).
  Notation ebit := (entry_bit b64_decode multibase_other gunzip resolve iss).

  Lemma field_present_ok e f u : field_present e f = Ok u ->
    exists v, mget (se_fields e) f = Some v /\ v <> JNull.
  Proof.
    unfold field_present. destruct (mget (se_fields e) f) as [[]|]; intros H; try discriminate;
      eexists; (split; [reflexivity|discriminate]).
  Qed.

  Lemma field_present_intro e f v : mget (se_fields e) f = Some v -> v <> JNull -> field_present e f = Ok tt.
  Proof. unfold field_present. intros -> H. destruct v; congruence. Qed.

  Lemma get_validator_ok t v : get_validator t = Ok v -> t = validator_type v.
  Proof.
    unfold get_validator. destruct (String.eqb_spec t "StatusList2021Entry"); [intros [= <-]; assumption|].
    destruct (String.eqb_spec t "BitstringStatusListEntry"); [intros [= <-]; assumption|discriminate].
  Qed.
  Lemma get_validator_type v : get_validator (validator_type v) = Ok v.
  Proof. destruct v; reflexivity. Qed.

  Lemma unwrapped_decode v enc raw :
    unwrapped b64_decode multibase_other (validator_type v) enc raw <->
    (if multibase_encoding v then multibase_decode multibase_other enc else b64_decode enc) = Some raw.
  Proof.
    split.
    - intros H; inversion H as [? ? Hd Ht|? ? Hd Ht|? ? ? Hc Hd Ht]; subst; destruct v; try discriminate; cbn.
      + assumption.
      + assumption.
      + apply Ascii.eqb_neq in Hc. rewrite Hc. assumption.
    - destruct v; cbn.
      + intros H. now constructor.
      + destruct enc as [|c rest]; [discriminate|]. cbn.
        destruct (Ascii.eqb_spec c "u") as [->|Hc]; intros H; [now apply uw_bitstring_u|now apply uw_bitstring_o].
  Qed.

  (** What the purpose string turns a set bit into. *)
  Definition purpose_result (e : status_entry) : res unit :=
    let* purpose := get_status_purpose e in
    if String.eqb purpose "revocation" then Err err_revoked
    else if String.eqb purpose "suspension" then Err err_suspended
    else Err "unsupported status purpose".

  Lemma purpose_result_not_ok e u : purpose_result e <> Ok u.
  Proof.
    unfold purpose_result, get_status_purpose. destruct (mget _ _) as [[]|]; cbn; try discriminate.
    destruct (String.eqb _ _); [discriminate|]. destruct (String.eqb _ _); discriminate.
  Qed.

  Lemma verify_entry_bit e b : msgs_len_ok e -> ebit e b ->
    ventry e = if b then purpose_result e else Ok tt.
  Proof.
    intros Hm (url & idxs & idx & purpose & vc & i & subj & enc & raw & bits & Hurl & Hidx & Hp & Hpn & Hsz
      & Hden & Hrng & Hres & Hi1 & Hi2 & Hs & He & Hu & Hz & H0 & Hbit).
    unfold verify_entry.
    assert (Hv : exists v, se_type e = validator_type v).
    { inversion Hu; [exists V2021|exists VBitstring|exists VBitstring]; reflexivity. }
    destruct Hv as [v Hv]. rewrite Hv in *. rewrite get_validator_type. cbn [bind].
    assert (Ha : atoi idxs = Ok idx) by (apply atoi_iff; auto).
    assert (Hval : validate_status v e = Ok tt).
    { unfold validate_status, guard. rewrite Hv, String.eqb_refl. cbn [bind].
      rewrite (field_present_intro e _ (JStr url)), (field_present_intro e _ (JStr idxs)),
        (field_present_intro e _ purpose) by (assumption || discriminate). cbn [bind].
      destruct v; [reflexivity|]. apply check_status_size_complete; auto. }
    rewrite Hval. cbn [bind]. unfold get_status_list_index. rewrite Hidx, Ha. cbn [bind].
    unfold get_status_vc_uri. rewrite Hurl. cbn [bind]. rewrite Hres. cbn [bind].
    unfold issuer_matches, guard. rewrite Hi1, Hi2, String.eqb_refl. cbn [bind].
    destruct (lv_subjects vc) as [|s0 ss]; [discriminate|]. cbn in Hs. injection Hs as ->.
    rewrite He. unfold bs_decode. apply unwrapped_decode in Hu. rewrite Hu, Hz. cbn [bind].
    assert (Hb : bit_at bits idx = Ok b) by (apply bit_at_ok_iff; auto).
    rewrite Hb. cbn [bind]. destruct b; reflexivity.
  Qed.

  (** Everything up to the bit must have worked whenever the result is nil, revoked or suspended. *)
  Lemma verify_entry_ok_bit e u : ventry e = Ok u -> ebit e false.
  Proof.
    unfold verify_entry. intros H.
    apply bind_ok in H as (v & Hv & H). apply get_validator_ok in Hv.
    apply bind_ok in H as ([] & Hval & H).
    apply bind_ok in H as (idx & Hidx & H). apply bind_ok in H as (url & Hurl & H).
    apply bind_ok in H as (vc & Hres & H). apply bind_ok in H as ([] & Hiss & H).
    unfold get_status_list_index in Hidx.
    destruct (mget (se_fields e) "statusListIndex") as [[| | |idxs| |]|] eqn:Ei; try discriminate.
    unfold get_status_vc_uri in Hurl.
    destruct (mget (se_fields e) "statusListCredential") as [[| | |url0| |]|] eqn:Eu; try discriminate.
    injection Hurl as ->.
    unfold validate_status in Hval.
    apply bind_ok in Hval as (? & _ & Hval). apply bind_ok in Hval as (? & _ & Hval).
    apply bind_ok in Hval as (? & _ & Hval). apply bind_ok in Hval as (? & Hp & Hval).
    apply field_present_ok in Hp as (purpose & Hp & Hpn).
    unfold guard, issuer_matches in Hiss.
    destruct (lv_issuer vc) as [i1|] eqn:Ei1; [|discriminate].
    destruct iss as [i2|] eqn:Ei2; [|discriminate].
    destruct (String.eqb_spec i1 i2) as [->|]; [|discriminate].
    destruct (lv_subjects vc) as [|subj ss] eqn:Es; [discriminate|].
    destruct (mget subj "encodedList") as [[| | |enc| |]|] eqn:Ee; try discriminate.
    unfold bs_decode in H.
    destruct (if multibase_encoding v then multibase_decode multibase_other enc else b64_decode enc)
      as [raw|] eqn:Er; [|discriminate].
    destruct (gunzip raw) as [bits|] eqn:Ez; [|discriminate]. cbn [bind] in H.
    apply bind_ok in H as (b & Hb & H). destruct b; [exfalso; eapply purpose_result_not_ok; exact H|].
    apply bit_at_ok_iff in Hb as [H0 Hb]. apply atoi_iff in Hidx as [Hd Hr].
    exists url, idxs, idx, purpose, vc, i2, subj, enc, raw, bits.
    repeat (split; [solve [assumption|congruence
      |rewrite Es; reflexivity
      |rewrite Hv; apply unwrapped_decode; assumption
      |destruct v; [intros Hx; rewrite Hv in Hx; discriminate Hx|now apply check_status_size_sound]]|]).
    exact Hb.
  Qed.

  Lemma verify_entries_iff es : Forall msgs_len_ok es ->
    (verify_entries gunzip multibase_other resolve iss es = Ok tt <-> Forall (fun e => ebit e false) es).
  Proof.
    induction es as [|e es IH]; intros Hm; cbn [verify_entries]; [split; auto|].
    inversion Hm as [|? ? Hm1 Hm2]; subst. split.
    - intros H. apply bind_ok in H as ([] & H1 & H2). constructor; [eapply verify_entry_ok_bit; eassumption|].
      now apply IH.
    - intros H. inversion H; subst. rewrite (verify_entry_bit e false) by assumption. cbn. now apply IH.
  Qed.

  Lemma verify_status_iff es : Forall msgs_len_ok es ->
    (verify_status gunzip multibase_other resolve iss es = Ok tt <-> es <> [] /\ Forall (fun e => ebit e false) es).
  Proof.
    intros Hm. unfold verify_status. destruct es as [|e es]; [split; [discriminate|intros [H _]; congruence]|].
    rewrite verify_entries_iff by assumption. split; [intros H; split; [discriminate|assumption]|tauto].
  Qed.
  
  Lemma verify_status_sound es :
    verify_status gunzip multibase_other resolve iss es = Ok tt -> es <> [] /\ Forall (fun e => ebit e false) es.
  Proof.
    intros H. destruct es as [|e0 es0]; [discriminate H|]. split; [discriminate|].
    cbn [verify_status] in H. revert H. generalize (e0 :: es0) as es. clear.
    induction es as [|e es IH]; [constructor|]. cbn [verify_entries]. intros H.
    apply bind_ok in H as ([] & H1 & H2). constructor; [eapply verify_entry_ok_bit; eassumption|auto].
  Qed.

  Lemma verify_entries_prefix pre e post : Forall msgs_len_ok pre -> Forall (fun e => ebit e false) pre ->
    ventry e <> Ok tt ->
    verify_status gunzip multibase_other resolve iss (pre ++ e :: post) = ventry e.
  Proof.
    intros Hm Hp He.
    assert (G : verify_entries gunzip multibase_other resolve iss (pre ++ e :: post) = ventry e).
    { induction pre as [|p pre IH]; cbn [app verify_entries].
      - destruct (ventry e) as [[]| |]; [congruence|reflexivity|reflexivity].
      - inversion Hm; subst. inversion Hp; subst.
        rewrite (verify_entry_bit p false) by assumption. cbn. auto. }
    unfold verify_status. destruct pre; exact G.
  Qed.

  Lemma set_bit_reported pre e post :
    Forall msgs_len_ok pre -> msgs_len_ok e -> Forall (fun e => ebit e false) pre -> ebit e true ->
    verify_status gunzip multibase_other resolve iss (pre ++ e :: post) = purpose_result e.
  Proof.
    intros Hm1 Hm2 Hp He. pose proof (verify_entry_bit e true Hm2 He) as E. cbv iota in E.
    rewrite verify_entries_prefix; [exact E|assumption|assumption|].
    rewrite E. apply purpose_result_not_ok.
  Qed.

  (** A "revoked"/"suspended" verdict is never invented. *)
  Lemma verify_entry_verdict e t :
    (t = err_revoked \/ t = err_suspended) -> (forall u, resolve u <> Err t) ->
    ventry e = Err t ->
    ebit e true /\
    mget (se_fields e) "statusPurpose" = Some (JStr (if String.eqb t err_revoked then "revocation" else "suspension")).
  Proof.
    intros Ht Hnr. unfold verify_entry. intros H.
    destruct (get_validator (se_type e)) as [v|ev|] eqn:Hv; cbn [bind] in H.
    2:{ exfalso. injection H as ->. eapply plain_not; [apply plain_validator|eassumption|eassumption]. }
    2:{ discriminate. }
    apply get_validator_ok in Hv.
    destruct (validate_status v e) as [[]|ev|] eqn:Hval; cbn [bind] in H.
    2:{ exfalso. injection H as ->. eapply plain_not; [apply plain_validate|eassumption|eassumption]. }
    2:{ discriminate. }
    destruct (get_status_list_index e) as [idx|ev|] eqn:Hidx; cbn [bind] in H.
    2:{ exfalso. injection H as ->. eapply plain_not; [apply plain_index|eassumption|eassumption]. }
    2:{ discriminate. }
    unfold get_status_list_index in Hidx.
    destruct (mget (se_fields e) "statusListIndex") as [[| | |idxs| |]|] eqn:Ei; try discriminate.
    unfold get_status_vc_uri in H.
    destruct (mget (se_fields e) "statusListCredential") as [[| | |url0| |]|] eqn:Eu; cbn [bind] in H;
      try (exfalso; destruct Ht as [-> | ->]; discriminate).
    destruct (resolve url0) as [vc|er|] eqn:Hres; cbn [bind] in H; [|exfalso; apply (Hnr url0); congruence|discriminate].
    unfold validate_status in Hval.
    apply bind_ok in Hval as (? & _ & Hval). apply bind_ok in Hval as (? & _ & Hval).
    apply bind_ok in Hval as (? & _ & Hval). apply bind_ok in Hval as (? & Hp & Hval).
    apply field_present_ok in Hp as (purpose & Hp & Hpn).
    destruct (lv_issuer vc) as [i1|] eqn:Ei1; [|exfalso; destruct Ht as [-> | ->]; discriminate].
    destruct iss as [i2|] eqn:Ei2; [|exfalso; destruct Ht as [-> | ->]; discriminate].
    unfold guard, issuer_matches in H.
    destruct (String.eqb_spec i1 i2) as [->|]; [|exfalso; destruct Ht as [-> | ->]; discriminate]. cbn [bind] in H.
    destruct (lv_subjects vc) as [|subj ss] eqn:Es; [discriminate|].
    destruct (mget subj "encodedList") as [[| | |enc| |]|] eqn:Ee; try (exfalso; destruct Ht as [-> | ->]; discriminate).
    unfold bs_decode in H.
    destruct (if multibase_encoding v then multibase_decode multibase_other enc else b64_decode enc)
      as [raw|] eqn:Er; [|exfalso; destruct Ht as [-> | ->]; discriminate].
    destruct (gunzip raw) as [bits|] eqn:Ez; [|exfalso; destruct Ht as [-> | ->]; discriminate]. cbn [bind] in H.
    destruct (bit_at bits idx) as [b|eb|] eqn:Hb; cbn [bind] in H; [| |discriminate].
    2:{ exfalso. unfold bit_at in Hb. destruct (_ || _)%bool; [|destruct (String.get _ _); discriminate].
        injection Hb as <-. destruct Ht as [-> | ->]; discriminate. }
    destruct b; [|discriminate].
    assert (Hpp : mget (se_fields e) "statusPurpose" = Some (JStr (if String.eqb t err_revoked then "revocation" else "suspension"))).
    { unfold get_status_purpose in H.
      destruct (mget (se_fields e) "statusPurpose") as [[| | |p| |]|]; cbn [bind] in H;
        try (exfalso; destruct Ht as [-> | ->]; discriminate).
      destruct (String.eqb_spec p "revocation") as [->|]; [injection H as <-; reflexivity|].
      destruct (String.eqb_spec p "suspension") as [->|]; [injection H as <-; reflexivity|].
      exfalso; destruct Ht as [-> | ->]; discriminate. }
    split; [|exact Hpp].
    apply bit_at_ok_iff in Hb as [H0 Hb]. apply atoi_iff in Hidx as [Hd Hr].
    exists url0, idxs, idx, purpose, vc, i2, subj, enc, raw, bits.
    repeat (split; [solve [assumption|congruence
      |rewrite Es; reflexivity
      |rewrite Hv; apply unwrapped_decode; assumption
      |destruct v; [intros Hx; rewrite Hv in Hx; discriminate Hx|now apply check_status_size_sound]]|]).
    exact Hb.
  Qed.

  Lemma verify_status_verdict es t :
    (t = err_revoked \/ t = err_suspended) -> (forall u, resolve u <> Err t) ->
    verify_status gunzip multibase_other resolve iss es = Err t ->
    exists pre e post, es = (pre ++ e :: post)%list /\ Forall (fun e => ebit e false) pre /\ ebit e true /\
      mget (se_fields e) "statusPurpose" = Some (JStr (if String.eqb t err_revoked then "revocation" else "suspension")).
  Proof.
    intros Ht Hnr H.
    assert (G : verify_entries gunzip multibase_other resolve iss es = Err t).
    { destruct es; [exfalso; destruct Ht as [-> | ->]; discriminate|exact H]. }
    clear H. induction es as [|e es IH]; [discriminate|]. cbn [verify_entries] in G.
    destruct (ventry e) as [[]|ee|] eqn:E; cbn [bind] in G; [| |discriminate].
    - destruct (IH G) as (pre & e' & post & -> & Hpre & Hrest).
      exists (e :: pre), e', post. split; [reflexivity|]. split; [|exact Hrest].
      constructor; [eapply verify_entry_ok_bit; eassumption|assumption].
    - injection G as ->. exists [], e, es. split; [reflexivity|]. split; [constructor|].
      now apply verify_entry_verdict.
  Qed.

  Lemma verify_entry_panic e :
    ventry e = Panic -> exists url, resolve url = Panic \/ exists vc, resolve url = Ok vc /\ lv_subjects vc = [].
  Proof.
    unfold verify_entry. intros H.
    destruct (get_validator (se_type e)) as [v|ev|] eqn:Hv; cbn [bind] in H; [|discriminate|].
    2:{ exfalso. now apply (proj1 (plain_validator _)) in Hv. }
    destruct (validate_status v e) as [[]|ev|] eqn:Hval; cbn [bind] in H; [|discriminate|].
    2:{ exfalso. now apply (proj1 (plain_validate _ _)) in Hval. }
    destruct (get_status_list_index e) as [idx|ev|] eqn:Hidx; cbn [bind] in H; [|discriminate|].
    2:{ exfalso. now apply (proj1 (plain_index _)) in Hidx. }
    unfold get_status_vc_uri in H.
    destruct (mget (se_fields e) "statusListCredential") as [[| | |url| |]|] eqn:Eu; try discriminate.
    cbn [bind] in H. exists url.
    destruct (resolve url) as [vc|er|] eqn:Hres; cbn [bind] in H; [|discriminate|auto].
    right. exists vc. split; [reflexivity|].
    unfold guard in H. destruct (issuer_matches _ _); cbn [bind] in H; [|discriminate].
    destruct (lv_subjects vc) as [|subj ss] eqn:Es; [reflexivity|]. exfalso.
    destruct (mget subj "encodedList") as [[| | |enc| |]|] eqn:Ee; try discriminate.
    unfold bs_decode in H.
    destruct (if multibase_encoding v then _ else _) as [raw|] eqn:Er; [|discriminate].
    destruct (gunzip raw) as [bits|] eqn:Ez; [|discriminate]. cbn [bind] in H.
    destruct (bit_at bits idx) as [b|eb|] eqn:Hb; cbn [bind] in H; [|discriminate|].
    - destruct b; [|discriminate]. unfold get_status_purpose in H.
      destruct (mget (se_fields e) "statusPurpose") as [[]|]; cbn [bind] in H; try discriminate.
      destruct (String.eqb _ _); [discriminate|]. destruct (String.eqb _ _); discriminate.
    - destruct (Z_le_dec 0 idx) as [L|L]; [destruct (Z_lt_dec idx (8 * Z.of_nat (String.length bits))) as [L2|L2]|].
      + destruct (bit_at_in bits idx) as (b & Eb & _); [lia|congruence].
      + rewrite bit_at_out in Hb by lia. discriminate.
      + rewrite bit_at_out in Hb by lia. discriminate.
  Qed.
End V.
