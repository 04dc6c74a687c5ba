(** Go's [encoding/base64] RawURLEncoding, used by
    status/internal/bitstring/bitstring.go:44,90, sdjwt/common/common.go:197 (GetHash),
    sdjwt/common/verification.go:317 (getDisclosureClaim), sdjwt/issuer/v2.go:132,
    sdjwt/issuer/v5.go:330, jwt/jwt.go (isValidJSON).
    Model of the Go standard library (go/src/encoding/base64/base64.go), not of vc-go code. *)
From Coq Require Import ZifyN.
From Verif Require Import GoBase.
Local Open Scope N_scope.

Definition b64_alphabet : string :=
  "ABCDEFGHIJKLMNOPQRSTUVWXYZabcdefghijklmnopqrstuvwxyz0123456789-_".

(** encode table lookup; [n < 64] always holds at the call sites. *)
Definition b64_char (n : N) : ascii :=
  match String.get (N.to_nat n) b64_alphabet with Some c => c | None => "A"%char end.

Fixpoint index_of (c : ascii) (s : string) (i : N) : option N :=
  match s with
  | EmptyString => None
  | String d s' => if Ascii.eqb c d then Some i else index_of c s' (i + 1)
  end.
(** decodeMap *)
Definition b64_val (c : ascii) : option N := index_of c b64_alphabet 0.

(** Encode: 3 bytes -> 4 characters, the tail of 1 (2) bytes -> 2 (3) characters, no padding. *)
Fixpoint b64_encode (s : string) : string :=
  match s with
  | String a (String b (String c s')) =>
      let v := N.lor (N.lor (N.shiftl (N_of_ascii a) 16) (N.shiftl (N_of_ascii b) 8)) (N_of_ascii c) in
      String (b64_char (N.land (N.shiftr v 18) 63))
        (String (b64_char (N.land (N.shiftr v 12) 63))
          (String (b64_char (N.land (N.shiftr v 6) 63))
            (String (b64_char (N.land v 63)) (b64_encode s'))))
  | String a (String b EmptyString) =>
      let v := N.lor (N.shiftl (N_of_ascii a) 16) (N.shiftl (N_of_ascii b) 8) in
      String (b64_char (N.land (N.shiftr v 18) 63))
        (String (b64_char (N.land (N.shiftr v 12) 63))
          (String (b64_char (N.land (N.shiftr v 6) 63)) EmptyString))
  | String a EmptyString =>
      let v := N.shiftl (N_of_ascii a) 16 in
      String (b64_char (N.land (N.shiftr v 18) 63))
        (String (b64_char (N.land (N.shiftr v 12) 63)) EmptyString)
  | EmptyString => EmptyString
  end.

(** The Go decoder skips CR and LF anywhere. *)
Fixpoint strip_crlf (s : string) : string :=
  match s with
  | EmptyString => EmptyString
  | String c s' =>
      if (Ascii.eqb c "013" || Ascii.eqb c "010")%bool then strip_crlf s'
      else String c (strip_crlf s')
  end.

Definition byte_of (n : N) : ascii := ascii_of_N (N.land n 255).

(** decodeQuantum over the stripped input.  A final quantum of 1 character is an error;
    2 (3) characters give 1 (2) bytes and excess low bits are ignored (non-strict mode). *)
Fixpoint b64_quanta (s : string) : option string :=
  match s with
  | EmptyString => Some EmptyString
  | String a (String b (String c (String d s'))) =>
      match b64_val a, b64_val b, b64_val c, b64_val d, b64_quanta s' with
      | Some x, Some y, Some z, Some w, Some rest =>
          let v := N.lor (N.lor (N.shiftl x 18) (N.shiftl y 12)) (N.lor (N.shiftl z 6) w) in
          Some (String (byte_of (N.shiftr v 16)) (String (byte_of (N.shiftr v 8)) (String (byte_of v) rest)))
      | _, _, _, _, _ => None
      end
  | String a (String b (String c EmptyString)) =>
      match b64_val a, b64_val b, b64_val c with
      | Some x, Some y, Some z =>
          let v := N.lor (N.lor (N.shiftl x 18) (N.shiftl y 12)) (N.shiftl z 6) in
          Some (String (byte_of (N.shiftr v 16)) (String (byte_of (N.shiftr v 8)) EmptyString))
      | _, _, _ => None
      end
  | String a (String b EmptyString) =>
      match b64_val a, b64_val b with
      | Some x, Some y =>
          let v := N.lor (N.shiftl x 18) (N.shiftl y 12) in
          Some (String (byte_of (N.shiftr v 16)) EmptyString)
      | _, _ => None
      end
  | String a EmptyString => None
  end.

Definition b64_decode (s : string) : option string := b64_quanta (strip_crlf s).

(** ** Facts *)
Ltac Zify.zify_post_hook ::= Z.div_mod_to_equations.

Lemma b64_val_char n : n < 64 -> b64_val (b64_char n) = Some n.
Proof.
  intros H.
  assert (E : forallb (fun k => match b64_val (b64_char (N.of_nat k)) with
                                | Some m => N.eqb m (N.of_nat k) | None => false end) (seq 0 64) = true)
    by (vm_compute; reflexivity).
  rewrite forallb_forall in E. specialize (E (N.to_nat n)).
  rewrite N2Nat.id in E.
  assert (Hin : In (N.to_nat n) (seq 0 64)) by (apply in_seq; lia).
  specialize (E Hin). destruct (b64_val (b64_char n)) as [m|]; [|discriminate].
  apply N.eqb_eq in E. now subst.
Qed.

Lemma b64_char_no_crlf n : n < 64 ->
  (Ascii.eqb (b64_char n) "013" || Ascii.eqb (b64_char n) "010")%bool = false.
Proof.
  intros H.
  assert (E : forallb (fun k => negb (Ascii.eqb (b64_char (N.of_nat k)) "013" || Ascii.eqb (b64_char (N.of_nat k)) "010"))
                (seq 0 64) = true) by (vm_compute; reflexivity).
  rewrite forallb_forall in E. specialize (E (N.to_nat n)).
  rewrite N2Nat.id in E.
  assert (Hin : In (N.to_nat n) (seq 0 64)) by (apply in_seq; lia).
  specialize (E Hin). now apply negb_true_iff in E.
Qed.

Lemma b64_char_not_tilde_dot n : n < 64 -> b64_char n <> "~"%char /\ b64_char n <> "."%char.
Proof.
  intros H.
  assert (E : forallb (fun k => negb (Ascii.eqb (b64_char (N.of_nat k)) "~") && negb (Ascii.eqb (b64_char (N.of_nat k)) "."))%bool
                (seq 0 64) = true) by (vm_compute; reflexivity).
  rewrite forallb_forall in E. specialize (E (N.to_nat n)).
  rewrite N2Nat.id in E.
  assert (Hin : In (N.to_nat n) (seq 0 64)) by (apply in_seq; lia).
  specialize (E Hin). apply andb_true_iff in E as [E1 E2].
  apply negb_true_iff in E1, E2. apply Ascii.eqb_neq in E1, E2. auto.
Qed.

Lemma lor_shiftl_add a b k : b < 2 ^ k -> N.lor (N.shiftl a k) b = a * 2 ^ k + b.
Proof.
  intros H.
  rewrite <- N.shiftl_mul_pow2.
  assert (D : N.land (N.shiftl a k) b = 0).
  { apply N.bits_inj; intros i. rewrite N.land_spec, N.bits_0.
    destruct (N.lt_ge_cases i k) as [Hlt|Hge].
    - rewrite N.shiftl_spec_low by assumption. reflexivity.
    - destruct (N.eq_dec b 0) as [->|Hb]; [rewrite N.bits_0; apply andb_false_r|].
      rewrite (N.bits_above_log2 b i); [apply andb_false_r|].
      assert (N.log2 b < k) by (apply N.log2_lt_pow2; lia). lia. }
  rewrite N.add_nocarry_lxor by assumption.
  now rewrite N.lxor_lor by assumption.
Qed.

Lemma land63 n : N.land n 63 = n mod 64.
Proof. change 63 with (N.ones 6). now rewrite N.land_ones. Qed.
Lemma land255 n : N.land n 255 = n mod 256.
Proof. change 255 with (N.ones 8). now rewrite N.land_ones. Qed.

Lemma ascii_lt c : N_of_ascii c < 256.
Proof. apply N_ascii_bounded. Qed.

Lemma byte_of_ascii c n : n mod 256 = N_of_ascii c -> byte_of n = c.
Proof. intros H. unfold byte_of. rewrite land255, H. apply ascii_N_embedding. Qed.

Lemma mod64_lt n : n mod 64 < 64. Proof. apply N.mod_lt. lia. Qed.

Fixpoint string_ind3 (P : string -> Prop) (H0 : P "") (H1 : forall a, P (String a ""))
  (H2 : forall a b, P (String a (String b "")))
  (H3 : forall a b c s, P s -> P (String a (String b (String c s)))) (s : string) : P s :=
  match s with
  | EmptyString => H0
  | String a EmptyString => H1 a
  | String a (String b EmptyString) => H2 a b
  | String a (String b (String c s')) => H3 a b c s' (string_ind3 P H0 H1 H2 H3 s')
  end.

Lemma strip_encode s : strip_crlf (b64_encode s) = b64_encode s.
Proof.
  induction s as [|a|a b|a b c s IH] using string_ind3; cbn [b64_encode strip_crlf];
    rewrite ?land63, ?b64_char_no_crlf by apply mod64_lt; try reflexivity.
  now rewrite IH.
Qed.

Ltac pw := rewrite ?N.shiftr_div_pow2, ?N.shiftl_mul_pow2;
  change (2^6) with 64; change (2^8) with 256; change (2^12) with 4096;
  change (2^16) with 65536; change (2^18) with 262144.

Lemma b64_quanta_encode s : b64_quanta (b64_encode s) = Some s.
Proof.
  induction s as [|a|a b|a b c s IH] using string_ind3; [reflexivity| | |]; cbn [b64_encode b64_quanta].
  - pose proof (ascii_lt a).
    rewrite !land63, !b64_val_char by apply mod64_lt.
    set (x := _ mod 64). set (y := _ mod 64).
    assert (E : N.lor (N.shiftl x 18) (N.shiftl y 12) = x * 2^18 + y * 2^12).
    { rewrite lor_shiftl_add; [pw; lia|]. assert (y < 64) by apply mod64_lt. pw; lia. }
    rewrite E. clear E. subst x y. do 2 f_equal. apply byte_of_ascii. pw. lia.
  - pose proof (ascii_lt a); pose proof (ascii_lt b).
    rewrite (lor_shiftl_add _ _ 16) by (pw; lia).
    rewrite !land63, !b64_val_char by apply mod64_lt.
    set (x := _ mod 64). set (y := _ mod 64). set (z := _ mod 64).
    assert (E : N.lor (N.lor (N.shiftl x 18) (N.shiftl y 12)) (N.shiftl z 6) = x * 2^18 + (y * 2^12 + z * 2^6)).
    { assert (y < 64) by apply mod64_lt. assert (z < 64) by apply mod64_lt.
      rewrite <- N.lor_assoc. rewrite (lor_shiftl_add y _ 12) by (pw; lia).
      rewrite lor_shiftl_add; pw; lia. }
    rewrite E. clear E. subst x y z. f_equal. f_equal; [|f_equal]; apply byte_of_ascii; pw; lia.
  - pose proof (ascii_lt a); pose proof (ascii_lt b); pose proof (ascii_lt c).
    rewrite <- (N.lor_assoc (N.shiftl (N_of_ascii a) 16)).
    rewrite (lor_shiftl_add _ _ 8) by (pw; lia).
    rewrite (lor_shiftl_add _ _ 16) by (pw; lia).
    rewrite !land63, !b64_val_char by apply mod64_lt. rewrite IH.
    set (x := _ mod 64). set (y := _ mod 64). set (z := _ mod 64). set (w := _ mod 64).
    assert (E : N.lor (N.lor (N.shiftl x 18) (N.shiftl y 12)) (N.lor (N.shiftl z 6) w) = x * 2^18 + (y * 2^12 + (z * 2^6 + w))).
    { assert (y < 64) by apply mod64_lt. assert (z < 64) by apply mod64_lt. assert (w < 64) by apply mod64_lt.
      rewrite <- N.lor_assoc. rewrite (lor_shiftl_add z _ 6) by (pw; lia).
      rewrite (lor_shiftl_add y _ 12) by (pw; lia).
      rewrite lor_shiftl_add; pw; lia. }
    rewrite E. clear E. subst x y z w. f_equal. f_equal; [|f_equal; [|f_equal]]; apply byte_of_ascii; pw; lia.
Qed.

(** Decoding what was encoded gives the original bytes. *)
Lemma b64_decode_encode s : b64_decode (b64_encode s) = Some s.
Proof. unfold b64_decode. now rewrite strip_encode, b64_quanta_encode. Qed.

Lemma b64_encode_inj s t : b64_encode s = b64_encode t -> s = t.
Proof.
  intros H. assert (Some s = Some t) by (rewrite <- !b64_decode_encode; now rewrite H). congruence.
Qed.

(** The alphabet contains neither the SD-JWT separator nor the JWS dot. *)
Lemma b64_encode_chars s c : In c (list_ascii_of_string (b64_encode s)) -> c <> "~"%char /\ c <> "."%char.
Proof.
  induction s as [|a|a b|a b d s IH] using string_ind3; cbn [b64_encode list_ascii_of_string];
    rewrite ?land63; cbn [In]; intros Hin;
    repeat match goal with H : _ \/ _ |- _ => destruct H as [<-|H] end;
    try tauto; try (apply b64_char_not_tilde_dot, mod64_lt); auto.
Qed.
