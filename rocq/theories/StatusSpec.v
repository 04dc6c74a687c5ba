(** Specification vocabulary for credential status checking (C01-C06, C38, C39).
    Independent of the model: only Coq's standard types. *)
From Verif Require Import GoBase.

(** The LSB-first bit array of a byte string ([Ascii b0 .. b7] lists bits from the least significant). *)
Definition byte_bits (c : ascii) : list bool :=
  match c with Ascii b0 b1 b2 b3 b4 b5 b6 b7 => [b0; b1; b2; b3; b4; b5; b6; b7] end.
Fixpoint bits_lsb (s : string) : list bool :=
  match s with EmptyString => [] | String c s' => (byte_bits c ++ bits_lsb s')%list end.
(** The W3C order: bit 0 is the left-most (most significant) bit of the first byte. *)
Fixpoint bits_msb (s : string) : list bool :=
  match s with EmptyString => [] | String c s' => (rev (byte_bits c) ++ bits_msb s')%list end.

(** Decimal numerals, least significant digit last. *)
Inductive digit : ascii -> Z -> Prop :=
| dig0 : digit "0" 0 | dig1 : digit "1" 1 | dig2 : digit "2" 2 | dig3 : digit "3" 3 | dig4 : digit "4" 4
| dig5 : digit "5" 5 | dig6 : digit "6" 6 | dig7 : digit "7" 7 | dig8 : digit "8" 8 | dig9 : digit "9" 9.
Inductive decimal : string -> Z -> Prop :=
| dec_one c v : digit c v -> decimal (String c "") v
| dec_snoc s z c v : decimal s z -> digit c v -> decimal (s ++ String c "") (10 * z + v).
(** Optionally signed decimal. *)
Inductive denotes : string -> Z -> Prop :=
| den_pos s z : decimal s z -> denotes s z
| den_plus s z : decimal s z -> denotes (String "+" s) z
| den_minus s z : decimal s z -> denotes (String "-" s) (- z).
Definition int64_range (z : Z) : Prop := - 2^63 <= z < 2^63.

(** What the client can see of a credential and of a fetched status list credential. *)
Record status_entry := { se_type : string; se_fields : gomap json }.
Record list_vc := { lv_issuer : option string; lv_subjects : list (gomap json) }.

(** Transport decoding of the list for each entry type, [unzip] and non-'u' multibase given. *)
Section Clear.
  Variable b64 : string -> option string.       (* unpadded URL-safe base64 *)
  Variable multibase_other : ascii -> string -> option string.
  Variable unzip : string -> option string.
  Variable resolve : string -> res list_vc.
  Variable cred_issuer : option string.

  Inductive unwrapped : string -> string -> string -> Prop :=
  | uw_2021 enc raw : b64 enc = Some raw -> unwrapped "StatusList2021Entry" enc raw
  | uw_bitstring_u rest raw : b64 rest = Some raw ->
      unwrapped "BitstringStatusListEntry" (String "u" rest) raw
  | uw_bitstring_o c rest raw : c <> "u"%char -> multibase_other c rest = Some raw ->
      unwrapped "BitstringStatusListEntry" (String c rest) raw.

  (** A status size is acceptable with its messages. *)
  Definition size_ok (e : status_entry) : Prop :=
    se_type e = "BitstringStatusListEntry" ->
    match mget (se_fields e) "statusSize" with
    | None | Some JNull => True
    | Some (JNum q) =>
        let n := Z.quot (Qnum q) (Zpos (Qden q)) in
        n = 1 \/ (1 < n < 2^63 /\ exists ms, mget (se_fields e) "statusMessage" = Some (JArr ms) /\
                        Z.of_nat (List.length ms) = 2^n - 1)
    | Some _ => False
    end.

  (** The entry is well formed, points at a list by the same issuer, and its bit there is [b]. *)
  Definition entry_bit (e : status_entry) (b : bool) : Prop :=
    exists url idxs idx purpose vc iss subj enc raw bits,
      mget (se_fields e) "statusListCredential" = Some (JStr url) /\
      mget (se_fields e) "statusListIndex" = Some (JStr idxs) /\
      mget (se_fields e) "statusPurpose" = Some purpose /\ purpose <> JNull /\
      size_ok e /\
      denotes idxs idx /\ int64_range idx /\
      resolve url = Ok vc /\ lv_issuer vc = Some iss /\ cred_issuer = Some iss /\
      hd_error (lv_subjects vc) = Some subj /\
      mget subj "encodedList" = Some (JStr enc) /\
      unwrapped (se_type e) enc raw /\ unzip raw = Some bits /\
      0 <= idx /\ nth_error (bits_lsb bits) (Z.to_nat idx) = Some b.
End Clear.

(** The message slice fits in Go's [int]. *)
Definition msgs_len_ok (e : status_entry) : Prop :=
  forall ms, mget (se_fields e) "statusMessage" = Some (JArr ms) -> Z.of_nat (List.length ms) < 2^63.
