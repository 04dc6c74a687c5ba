(** Model of credential status checking: status/status.go, status/internal/bitstring/bitstring.go,
    status/validator/validator.go, status/validator/statuslist2021/statuslist2021.go,
    status/validator/bitstringstatus/bitstringstatus.go. *)
From Verif Require Import GoBase Base64 StatusSpec.

(** 64-bit two's complement wrap of Go [int]. *)
Definition wrap64 (z : Z) : Z := let m := z mod 2^64 in if m <? 2^63 then m else m - 2^64.

(** ** bitstring *)

(** status/internal/bitstring/bitstring.go:65-77 BitAt.  Go's [/] and [%] truncate toward zero. *)
Definition bit_at (bs : string) (idx : Z) : res bool :=
  let nByte := Z.quot idx 8 in
  let nBit := Z.rem idx 8 in
  if ((idx <? 0) || (Z.of_nat (String.length bs) <=? nByte))%bool then Err "position is invalid"
  else match String.get (Z.to_nat nByte) bs with
       | None => Panic
       | Some c => Ok (negb (N.eqb (N.land (N_of_ascii c) (N.shiftl 1 (Z.to_N nBit))) 0))
       end.

Section Bitstring.
  (** compress/gzip: NewWriter/Write/Close and NewReader/ReadFrom, as total functions. *)
  Variable gzip : string -> string.
  Variable gunzip : string -> option string.
  (** go-multibase Decode for every prefix except 'u'. *)
  Variable multibase_other : ascii -> string -> option string.

  (** go-multibase Decode: the empty string is an error; prefix 'u' is unpadded URL-safe base64. *)
  Definition multibase_decode (s : string) : option string :=
    match s with
    | EmptyString => None
    | String c rest => if Ascii.eqb c "u" then b64_decode rest else multibase_other c rest
    end.

  (** status/internal/bitstring/bitstring.go:26-63 Decode *)
  Definition bs_decode (multibase : bool) (src : string) : res string :=
    match (if multibase then multibase_decode src else b64_decode src) with
    | None => Err "decode"
    | Some bytes => match gunzip bytes with None => Err "gzip" | Some bits => Ok bits end
    end.

  (** status/internal/bitstring/bitstring.go:79-93 Encode *)
  Definition bs_encode (bits : string) : res string := Ok (b64_encode (gzip bits)).

  (** ** validators *)

  (** strconv.Atoi: optional sign, at least one decimal digit, value in int64
      (accumulated without bound, then range-checked, which is what ParseUint's cutoff achieves). *)
  Definition digit_val (c : ascii) : option Z :=
    let n := Z.of_N (N_of_ascii c) in
    if ((48 <=? n) && (n <=? 57))%bool then Some (n - 48) else None.
  Fixpoint digits_val (acc : Z) (s : string) : option Z :=
    match s with
    | EmptyString => Some acc
    | String c s' => match digit_val c with None => None | Some d => digits_val (10 * acc + d) s' end
    end.
  Definition atoi (s : string) : res Z :=
    let '(neg, body) := match s with
                        | String c s' => if Ascii.eqb c "-" then (true, s')
                                         else if Ascii.eqb c "+" then (false, s') else (false, s)
                        | EmptyString => (false, s)
                        end in
    match body with
    | EmptyString => Err "invalid syntax"
    | _ => match digits_val 0 body with
           | None => Err "invalid syntax"
           | Some v => let v := if neg : bool then - v else v in
                       if ((- 2^63 <=? v) && (v <? 2^63))%bool then Ok v else Err "value out of range"
           end
    end.

  (** status/validator/bitstringstatus/bitstringstatus.go:73-79 and
      statuslist2021.go:63-69 isMissingField (absent key and JSON null are both nil). *)
  Definition field_present (e : status_entry) (f : string) : res unit :=
    match mget (se_fields e) f with
    | None | Some JNull => Err "missing field"
    | Some _ => Ok tt
    end.

  (** int(float64): truncation; out of int64 range gives math.MinInt64 on amd64. *)
  Definition int_of_float (q : Q) : Z :=
    let z := Z.quot (Qnum q) (Zpos (Qden q)) in
    if ((- 2^63 <=? z) && (z <? 2^63))%bool then z else - 2^63.

  (** [1<<n - 1] on int64, n > 0: shifts of 64 or more give 0. *)
  Definition shl1_minus1 (n : Z) : Z :=
    if 64 <=? n then -1 else wrap64 (wrap64 (2^n) - 1).

  (** status/validator/bitstringstatus/bitstringstatus.go:81-114 checkStatusSize *)
  Definition check_status_size (e : status_entry) : res unit :=
    match mget (se_fields e) "statusSize" with
    | None | Some JNull => Ok tt
    | Some (JNum q) =>
        let n := int_of_float q in
        if n <=? 0 then Err "statusSize must be greater than 0"
        else if n =? 1 then Ok tt
        else match mget (se_fields e) "statusMessage" with
             | Some (JArr ms) =>
                 if Z.of_nat (List.length ms) =? shl1_minus1 n then Ok tt else Err "statusMessage length"
             | _ => Err "statusMessage must be an array"
             end
    | Some _ => Err "statusSize must be an integer"
    end.

  Inductive validator := V2021 | VBitstring.

  (** status/validator/validator.go:20-29 GetValidator *)
  Definition get_validator (typ : string) : res validator :=
    if String.eqb typ "StatusList2021Entry" then Ok V2021
    else if String.eqb typ "BitstringStatusListEntry" then Ok VBitstring
    else Err "unsupported VCStatusListType".

  Definition validator_type (v : validator) : string :=
    match v with V2021 => "StatusList2021Entry" | VBitstring => "BitstringStatusListEntry" end.

  (** bitstringstatus.go:50-71, statuslist2021.go:45-61 ValidateStatus
      (the nil-pointer case is not modelled: entries of Contents().Status are non-nil). *)
  Definition validate_status (v : validator) (e : status_entry) : res unit :=
    let* _ := guard (String.eqb (se_type e) (validator_type v)) "vc status not supported" in
    let* _ := field_present e "statusListCredential" in
    let* _ := field_present e "statusListIndex" in
    let* _ := field_present e "statusPurpose" in
    match v with V2021 => Ok tt | VBitstring => check_status_size e end.

  (** bitstringstatus.go:117-124, statuslist2021.go:72-79 *)
  Definition get_status_vc_uri (e : status_entry) : res string :=
    match mget (se_fields e) "statusListCredential" with
    | Some (JStr s) => Ok s | _ => Err "failed to cast URI of statusListCredential" end.
  (** bitstringstatus.go:127-139, statuslist2021.go:82-94 *)
  Definition get_status_list_index (e : status_entry) : res Z :=
    match mget (se_fields e) "statusListIndex" with
    | Some (JStr s) => atoi s | _ => Err "statusListIndex must be a string" end.
  (** bitstringstatus.go:142-149, statuslist2021.go:97-104 *)
  Definition get_status_purpose (e : status_entry) : res string :=
    match mget (se_fields e) "statusPurpose" with
    | Some (JStr s) => Ok s | _ => Err "statusPurpose must be a string" end.
  (** bitstringstatus.go:153-155, statuslist2021.go:107-109 MultiBaseEncoding *)
  Definition multibase_encoding (v : validator) : bool := match v with V2021 => false | VBitstring => true end.

  (** ** client *)
  Variable resolve : string -> res list_vc.   (* api.StatusListVCURIResolver *)

  Definition err_revoked := "revoked".
  Definition err_suspended := "suspended".

  (** Issuer comparison, status/status.go:88-92 *)
  Definition issuer_matches (a b : option string) : bool :=
    match a, b with Some x, Some y => String.eqb x y | _, _ => false end.

  (** status/status.go:59-128 verifyStatus *)
  Definition verify_entry (cred_issuer : option string) (e : status_entry) : res unit :=
    let* v := get_validator (se_type e) in
    let* _ := validate_status v e in
    let* idx := get_status_list_index e in
    let* url := get_status_vc_uri e in
    let* vc := resolve url in
    let* _ := guard (issuer_matches (lv_issuer vc) cred_issuer) "issuer of the credential does not match" in
    match lv_subjects vc with
    | [] => Panic                                (* credSubject[0] *)
    | subj :: _ =>
        match mget subj "encodedList" with
        | Some (JStr enc) =>
            let* bits := bs_decode (multibase_encoding v) enc in
            let* set := bit_at bits idx in
            if set : bool then
              let* purpose := get_status_purpose e in
              if String.eqb purpose "revocation" then Err err_revoked
              else if String.eqb purpose "suspension" then Err err_suspended
              else Err "unsupported status purpose"
            else Ok tt
        | _ => Err "encodedList must be a string"
        end
    end.

  Fixpoint verify_entries (cred_issuer : option string) (es : list status_entry) : res unit :=
    match es with
    | [] => Ok tt
    | e :: es' => let* _ := verify_entry cred_issuer e in verify_entries cred_issuer es'
    end.

  (** status/status.go:44-57 Client.VerifyStatus *)
  Definition verify_status (cred_issuer : option string) (es : list status_entry) : res unit :=
    match es with
    | [] => Err "vc missing status list field"
    | _ => verify_entries cred_issuer es
    end.
End Bitstring.
