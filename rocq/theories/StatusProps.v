(** Property theorems for credential status checking: C01-C06, C38-C41. *)
From Verif Require Import GoBase Base64 StatusSpec StatusModel StatusProofs.

(** ** C01: BitAt is the LSB-first bit array, total and error outside. *)
Theorem C01_bit_at : forall (bs : string) (i : Z),
  (0 <= i < 8 * Z.of_nat (String.length bs) ->
     exists b, nth_error (bits_lsb bs) (Z.to_nat i) = Some b /\ bit_at bs i = Ok b) /\
  (~ (0 <= i < 8 * Z.of_nat (String.length bs)) -> exists e, bit_at bs i = Err e).
Proof.
  intros bs i. split; intros H.
  - destruct (bit_at_in bs i H) as (b & H1 & H2). exists b. auto.
  - exists "position is invalid". now apply bit_at_out.
Qed.
Example C01_example : bit_at (String "004" (String "128" "")) 15 = Ok true /\
  bit_at (String "004" (String "128" "")) 2 = Ok true /\ is_err (bit_at (String "004" (String "128" "")) 16) = true /\
  is_err (bit_at (String "255" "") (-1)) = true.
Proof. repeat split; reflexivity. Qed.
Print Assumptions C01_bit_at.

(** ** C02: encode/decode round trip; every bit position is preserved. *)
Theorem C02_round_trip : forall gzip gunzip multibase_other,
  (forall x, gunzip (gzip x) = Some x) ->
  forall bits, exists enc, bs_encode gzip bits = Ok enc /\
    bs_decode gunzip multibase_other false enc = Ok bits /\
    bs_decode gunzip multibase_other true (String "u" enc) = Ok bits.
Proof.
  intros gzip gunzip mb Hz bits. exists (b64_encode (gzip bits)). split; [reflexivity|]. split.
  - eapply decode_encode; [apply Hz|reflexivity].
  - eapply decode_encode_multibase; [apply Hz|reflexivity].
Qed.
Theorem C02_bits_preserved : forall gzip gunzip multibase_other,
  (forall x, gunzip (gzip x) = Some x) ->
  forall bits enc got i b, bs_encode gzip bits = Ok enc ->
    bs_decode gunzip multibase_other false enc = Ok got ->
    0 <= i -> nth_error (bits_lsb bits) (Z.to_nat i) = Some b -> bit_at got i = Ok b.
Proof.
  intros gzip gunzip mb Hz bits enc got i b He Hd Hi Hb.
  rewrite (decode_encode gzip gunzip mb bits enc (Hz bits) He) in Hd. injection Hd as <-.
  apply bit_at_ok_iff. auto.
Qed.
Example C02_example : exists enc,
  bs_encode (fun x => "z" ++ x) (String "255" (String "016" "abc")) = Ok enc /\ enc = "ev8QYWJj" /\
  bs_decode (fun x => match x with String "z" y => Some y | _ => None end) (fun _ _ => None) false enc
   = Ok (String "255" (String "016" "abc")).
Proof. eexists. split; [reflexivity|]. split; vm_compute; reflexivity. Qed.
Print Assumptions C02_round_trip.
Print Assumptions C02_bits_preserved.

(** ** C03: acceptance implies every status bit is clear in a list by the same issuer. *)
Theorem C03_accept_sound : forall gunzip multibase_other resolve issuer entries,
  verify_status gunzip multibase_other resolve issuer entries = Ok tt ->
  entries <> [] /\
  Forall (fun e => entry_bit b64_decode multibase_other gunzip resolve issuer e false) entries.
Proof. exact verify_status_sound. Qed.
(** and conversely ([len(statusMessage)] is a Go int). *)
Theorem C03_accept_iff : forall gunzip multibase_other resolve issuer entries,
  Forall msgs_len_ok entries ->
  (verify_status gunzip multibase_other resolve issuer entries = Ok tt <->
   entries <> [] /\
   Forall (fun e => entry_bit b64_decode multibase_other gunzip resolve issuer e false) entries).
Proof. exact verify_status_iff. Qed.

Definition ex_entry (i purpose : string) : status_entry :=
  {| se_type := "BitstringStatusListEntry";
     se_fields := [("statusListCredential", JStr "https://l"); ("statusListIndex", JStr i);
                   ("statusPurpose", JStr purpose)] |}.
(* list bytes 0x04 0x80: bits 2 and 15 are set; the toy gzip is the identity *)
Definition ex_resolve (u : string) : res list_vc :=
  if String.eqb u "https://l" then
    Ok {| lv_issuer := Some "did:i"; lv_subjects := [[("encodedList", JStr "uBIA")]] |} else Err "404".
Definition ex_verify := verify_status Some (fun _ _ => None) ex_resolve (Some "did:i").
Example C03_example : ex_verify [ex_entry "0" "revocation"; ex_entry "14" "suspension"] = Ok tt /\
  Forall msgs_len_ok [ex_entry "0" "revocation"; ex_entry "14" "suspension"].
Proof.
  split; [vm_compute; reflexivity|]. repeat constructor; intros ms H; vm_compute in H; discriminate.
Qed.
Print Assumptions C03_accept_sound.
Print Assumptions C03_accept_iff.

(** ** C04: the first set bit is reported with its purpose. *)
Theorem C04_reported : forall gunzip multibase_other resolve issuer pre e post,
  Forall msgs_len_ok pre -> msgs_len_ok e ->
  Forall (fun x => entry_bit b64_decode multibase_other gunzip resolve issuer x false) pre ->
  entry_bit b64_decode multibase_other gunzip resolve issuer e true ->
  let r := verify_status gunzip multibase_other resolve issuer (pre ++ e :: post) in
  (r = Err "revoked" <-> mget (se_fields e) "statusPurpose" = Some (JStr "revocation")) /\
  (r = Err "suspended" <-> mget (se_fields e) "statusPurpose" = Some (JStr "suspension")) /\
  exists err, r = Err err.
Proof.
  intros gunzip mb resolve iss pre e post H1 H2 H3 H4 r. subst r.
  rewrite (set_bit_reported gunzip mb resolve iss pre e post H1 H2 H3 H4).
  unfold purpose_result, get_status_purpose.
  destruct (mget (se_fields e) "statusPurpose") as [[| | |p| |]|]; cbn [bind].
  4:{ destruct (String.eqb_spec p "revocation") as [->|N1].
      - split; [tauto|]. split; [split; discriminate|]. eauto.
      - destruct (String.eqb_spec p "suspension") as [->|N2].
        + split; [split; discriminate|]. split; [tauto|]. eauto.
        + split; [split; [discriminate|congruence]|]. split; [split; [discriminate|congruence]|]. eauto. }
  all: (split; [split; discriminate|]); (split; [split; discriminate|]); eauto.
Qed.
(** The verdicts are never invented (a resolver that does not itself answer with the sentinel errors). *)
Theorem C04_verdict_sound : forall gunzip multibase_other resolve issuer entries,
  (forall u, resolve u <> Err "revoked" /\ resolve u <> Err "suspended") ->
  (verify_status gunzip multibase_other resolve issuer entries = Err "revoked" ->
     exists e, In e entries /\ entry_bit b64_decode multibase_other gunzip resolve issuer e true /\
               mget (se_fields e) "statusPurpose" = Some (JStr "revocation")) /\
  (verify_status gunzip multibase_other resolve issuer entries = Err "suspended" ->
     exists e, In e entries /\ entry_bit b64_decode multibase_other gunzip resolve issuer e true /\
               mget (se_fields e) "statusPurpose" = Some (JStr "suspension")).
Proof.
  intros gunzip mb resolve iss es Hr. split; intros H.
  - destruct (verify_status_verdict gunzip mb resolve iss es "revoked") as (pre & e & post & -> & _ & He & Hp); auto.
    { intros u. apply Hr. }
    exists e. split; [apply in_or_app; right; left; reflexivity|]. auto.
  - destruct (verify_status_verdict gunzip mb resolve iss es "suspended") as (pre & e & post & -> & _ & He & Hp); auto.
    { intros u. apply Hr. }
    exists e. split; [apply in_or_app; right; left; reflexivity|]. auto.
Qed.
Example C04_example :
  ex_verify [ex_entry "0" "revocation"; ex_entry "15" "suspension"; ex_entry "2" "revocation"] = Err "suspended" /\
  ex_verify [ex_entry "0" "revocation"; ex_entry "+2" "revocation"] = Err "revoked" /\
  entry_bit b64_decode (fun _ _ => None) Some ex_resolve (Some "did:i") (ex_entry "15" "suspension") true /\
  (forall u, ex_resolve u <> Err "revoked" /\ ex_resolve u <> Err "suspended").
Proof.
  split; [vm_compute; reflexivity|]. split; [vm_compute; reflexivity|]. split.
  - apply (verify_entry_verdict _ _ _ _ _ "suspended"); [right; reflexivity| |vm_compute; reflexivity].
    intros u. unfold ex_resolve. destruct (String.eqb _ _); discriminate.
  - intros u. unfold ex_resolve. destruct (String.eqb _ _); split; discriminate.
Qed.
Print Assumptions C04_reported.
Print Assumptions C04_verdict_sound.

(** ** C05: the index string is parsed exactly. *)
Theorem C05_index_exact : forall fields s z typ,
  mget fields "statusListIndex" = Some (JStr s) ->
  (get_status_list_index {| se_type := typ; se_fields := fields |} = Ok z <-> denotes s z /\ int64_range z).
Proof.
  intros fields s z typ H. unfold get_status_list_index. cbn [se_fields]. rewrite H. apply atoi_iff.
Qed.
Theorem C05_denotation_unique : forall s z1 z2,
  denotes s z1 -> denotes s z2 -> int64_range z1 -> int64_range z2 -> z1 = z2.
Proof.
  intros s z1 z2 H1 H2 R1 R2.
  assert (E1 : atoi s = Ok z1) by (apply atoi_iff; auto).
  assert (E2 : atoi s = Ok z2) by (apply atoi_iff; auto). congruence.
Qed.
Theorem C05_otherwise_error : forall e s,
  mget (se_fields e) "statusListIndex" = Some (JStr s) ->
  (forall z, denotes s z -> ~ int64_range z) -> exists err, get_status_list_index e = Err err.
Proof.
  intros e s H Hn. unfold get_status_list_index. rewrite H.
  destruct (atoi s) as [z|err|] eqn:E; [|eauto|now apply atoi_no_panic in E].
  apply atoi_iff in E as [E1 E2]. now apply Hn in E1.
Qed.
Example C05_example : atoi "94567" = Ok 94567 /\ atoi "-12" = Ok (-12) /\ atoi "+007" = Ok 7 /\
  is_err (atoi "") = true /\ is_err (atoi "-") = true /\ is_err (atoi "1_000") = true /\ is_err (atoi " 1") = true /\
  is_err (atoi "9223372036854775808") = true /\ atoi "-9223372036854775808" = Ok (-9223372036854775808) /\
  denotes "10" 10.
Proof.
  repeat (split; [vm_compute; reflexivity|]). apply atoi_iff. vm_compute; reflexivity.
Qed.
Print Assumptions C05_index_exact.
Print Assumptions C05_denotation_unique.
Print Assumptions C05_otherwise_error.

(** ** C06: statusSize validation (positive part); the bit position ignores statusSize (refuted). *)
Theorem C06_size_validation : forall fields,
  let e := {| se_type := "BitstringStatusListEntry"; se_fields := fields |} in
  msgs_len_ok e ->
  (exists u p, mget fields "statusListCredential" = Some u /\ u <> JNull /\
     mget fields "statusPurpose" = Some p /\ p <> JNull /\
     exists i, mget fields "statusListIndex" = Some i /\ i <> JNull) ->
  (validate_status VBitstring e = Ok tt <-> size_ok e).
Proof.
  intros fields e Hm (u & p & Hu & Hun & Hp & Hpn & i & Hi & Hin).
  unfold validate_status, guard. subst e. cbn [se_type validator_type].
  rewrite String.eqb_refl. cbn [bind].
  rewrite (field_present_intro _ _ u), (field_present_intro _ _ i), (field_present_intro _ _ p) by assumption.
  cbn [bind]. split.
  - apply check_status_size_sound.
  - apply check_status_size_complete; [reflexivity|assumption].
Qed.
(** An entry of [n] bits at index [i] occupies bits [i*n .. i*n+n-1]: the code reads bit [i]. *)
Definition entry_value (bits : list bool) (n i : nat) : list bool := firstn n (skipn (i * n) bits).
Definition sized_entry (i : string) : status_entry :=
  {| se_type := "BitstringStatusListEntry";
     se_fields := [("statusListCredential", JStr "https://l"); ("statusListIndex", JStr i);
                   ("statusPurpose", JStr "revocation"); ("statusSize", jnum 2);
                   ("statusMessage", JArr [JStr "a"; JStr "b"; JStr "c"])] |}.
Theorem C58_position_refuted : exists bits,
  (* 2-bit entry number 1 has a non-zero status, yet the entry is accepted *)
  In true (entry_value (bits_lsb bits) 2 1) /\
  verify_status Some (fun _ _ => None)
    (fun _ => Ok {| lv_issuer := Some "did:i"; lv_subjects := [[("encodedList", JStr (String "u" (b64_encode bits)))]] |})
    (Some "did:i") [sized_entry "1"] = Ok tt.
Proof. exists (String "060" ""). split; [vm_compute; auto|vm_compute; reflexivity]. Qed.
Example C06_example : validate_status VBitstring (sized_entry "1") = Ok tt /\
  is_err (check_status_size {| se_type := "BitstringStatusListEntry";
     se_fields := [("statusSize", jnum 64); ("statusMessage", JArr [])] |}) = true /\
  is_err (check_status_size {| se_type := "BitstringStatusListEntry";
     se_fields := [("statusSize", jnum 63); ("statusMessage", JArr [])] |}) = true.
Proof. repeat split; vm_compute; reflexivity. Qed.
Print Assumptions C06_size_validation.
Print Assumptions C58_position_refuted.

(** ** C38: W3C bit order (bit 0 = most significant bit of byte 0).
    The lookup agrees with it exactly on palindromic bytes; refuted in general. *)
Theorem C38_w3c_order_refuted : exists bs i b,
  0 <= i /\ nth_error (bits_msb bs) (Z.to_nat i) = Some b /\ bit_at bs i <> Ok b.
Proof. exists (String "128" ""), 0, true. split; [lia|]. split; [reflexivity|vm_compute; discriminate]. Qed.
(** What does hold: the W3C bit [i] is the bit the code reads at the mirrored position of the same byte. *)
Theorem C38_w3c_mirror_partial : forall bs i b,
  0 <= i -> nth_error (bits_msb bs) (Z.to_nat i) = Some b -> bit_at bs (8 * (i / 8) + (7 - i mod 8)) = Ok b.
Proof.
  intros bs i b Hi Hb. apply bit_at_ok_iff. split; [pose proof (Z.mod_pos_bound i 8); pose proof (Z.div_pos i 8); lia|].
  assert (G : forall s q r, (r < 8)%nat -> nth_error (bits_msb s) (8 * q + r) = nth_error (bits_lsb s) (8 * q + (7 - r))).
  { clear. induction s as [|c s IH]; intros q r Hr; [destruct (8 * q + r)%nat, (8 * q + (7 - r))%nat; reflexivity|].
    cbn [bits_msb bits_lsb]. destruct q as [|q].
    - rewrite !nth_error_app1 by (rewrite ?rev_length; destruct c; cbn; lia).
      destruct c. do 8 (destruct r as [|r]; [reflexivity|]). lia.
    - rewrite !nth_error_app2 by (rewrite ?rev_length; destruct c; cbn; lia).
      replace (List.length (rev (byte_bits c))) with 8%nat by (rewrite rev_length; destruct c; reflexivity).
      replace (List.length (byte_bits c)) with 8%nat by (destruct c; reflexivity).
      replace (8 * S q + r - 8)%nat with (8 * q + r)%nat by lia.
      replace (8 * S q + (7 - r) - 8)%nat with (8 * q + (7 - r))%nat by lia. auto. }
  pose proof (Z.mod_pos_bound i 8 ltac:(lia)). pose proof (Z.div_pos i 8 Hi ltac:(lia)).
  replace (Z.to_nat i) with (8 * Z.to_nat (i / 8) + Z.to_nat (i mod 8))%nat in Hb
    by (rewrite (Z.div_mod i 8) at 3 by lia; lia).
  rewrite G in Hb by lia. rewrite <- Hb. f_equal. lia.
Qed.
Example C38_example : bit_at (String "128" "") (8 * (0 / 8) + (7 - 0 mod 8)) = Ok true.
Proof. reflexivity. Qed.
Print Assumptions C38_w3c_order_refuted.
Print Assumptions C38_w3c_mirror_partial.

(** ** C39: the purpose advertised by the status list itself is never consulted.
    Full property: the entry's purpose must be one the list VC declares ([credentialSubject.statusPurpose]).
    Refuted: a list published for suspension makes a credential "revoked". *)
Theorem C39_list_purpose_refuted : exists resolve entry subj,
  resolve "https://l" = Ok {| lv_issuer := Some "did:i"; lv_subjects := [subj] |} /\
  mget subj "statusPurpose" = Some (JStr "suspension") /\
  mget (se_fields entry) "statusPurpose" = Some (JStr "revocation") /\
  verify_status Some (fun _ _ => None) resolve (Some "did:i") [entry] = Err "revoked".
Proof.
  exists (fun _ => Ok {| lv_issuer := Some "did:i";
                         lv_subjects := [[("encodedList", JStr "uBIA"); ("statusPurpose", JStr "suspension")]] |}),
    (ex_entry "2" "revocation"), [("encodedList", JStr "uBIA"); ("statusPurpose", JStr "suspension")].
  repeat split; vm_compute; reflexivity.
Qed.
Print Assumptions C39_list_purpose_refuted.

(** ** C40: no panic on any entry, provided fetched lists carry a credentialSubject;
    refuted when the fetched credential has none ([credSubject[0]], status.go:96). *)
Theorem C40_no_panic : forall gunzip multibase_other resolve issuer entries,
  (forall u, resolve u <> Panic) ->
  (forall u vc, resolve u = Ok vc -> lv_subjects vc <> []) ->
  verify_status gunzip multibase_other resolve issuer entries <> Panic.
Proof.
  intros gunzip mb resolve iss es H1 H2.
  assert (G : verify_entries gunzip mb resolve iss es <> Panic).
  { induction es as [|e es IH]; cbn [verify_entries]; [discriminate|].
    destruct (verify_entry gunzip mb resolve iss e) eqn:E; cbn [bind]; [exact IH|discriminate|].
    apply verify_entry_panic in E as (url & [E|(vc & E & Es)]); [now apply H1 in E|now apply H2 in E]. }
  destruct es; [discriminate|exact G].
Qed.
Theorem C59_no_subject_refuted : exists resolve, 
  (forall u, resolve u <> Panic) /\
  verify_status Some (fun _ _ => None) resolve (Some "did:i") [ex_entry "0" "revocation"] = Panic.
Proof.
  exists (fun _ => Ok {| lv_issuer := Some "did:i"; lv_subjects := [] |}).
  split; [discriminate|vm_compute; reflexivity].
Qed.
Example C40_example : (forall u, ex_resolve u <> Panic) /\
  (forall u vc, ex_resolve u = Ok vc -> lv_subjects vc <> []).
Proof.
  split; intros u; unfold ex_resolve; destruct (String.eqb _ _); try discriminate.
  intros vc [= <-]. discriminate.
Qed.
Print Assumptions C40_no_panic.
Print Assumptions C59_no_subject_refuted.
