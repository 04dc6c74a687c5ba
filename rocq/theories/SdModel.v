(** Model of sdjwt/common: combined formats, disclosures, disclosure processing. *)
From Verif Require Import GoBase Base64 JwtSpec JwtModel SdSpec.

Definition tilde : ascii := "~"%char.

(** sdjwt/common/common.go:77-102 the two combined formats *)
Record cf_issuance := { ci_jwt : string; ci_discs : list string }.
Record cf_presentation := { cp_jwt : string; cp_discs : list string; cp_holder : string }.

(** common.go:84-91 CombinedFormatForIssuance.Serialize (loop as a fold) *)
Definition add_parts (s : string) (l : list string) : string :=
  fold_left (fun acc d => acc ++ "~" ++ d) l s.
Definition serialize_issuance (c : cf_issuance) : string := add_parts (ci_jwt c) (ci_discs c).
(** common.go:105-118 CombinedFormatForPresentation.Serialize *)
Definition serialize_presentation (c : cf_presentation) : string :=
  let p := add_parts (cp_jwt c) (cp_discs c) in
  let p := if negb (Nat.eqb (List.length (cp_discs c)) 0) || negb (String.eqb (cp_holder c) "") then p ++ "~" else p in
  p ++ cp_holder c.
(** common.go:151-162 ParseCombinedFormatForIssuance *)
Definition parse_issuance (s : string) : cf_issuance :=
  let parts := split_on tilde s in
  {| ci_jwt := hd "" parts; ci_discs := if (1 <? List.length parts)%nat then tl parts else [] |}.
(** common.go:165-181 ParseCombinedFormatForPresentation *)
Definition parse_presentation (s : string) : cf_presentation :=
  let parts := split_on tilde s in
  let n := List.length parts in
  {| cp_jwt := hd "" parts;
     cp_discs := if (2 <? n)%nat then removelast (tl parts) else [];
     cp_holder := if (1 <? n)%nat then last parts "" else "" |}.

(** common.go:64-76 DisclosureClaim (Type and Version, which nothing here reads, are omitted) *)
Record disc := { dc_str : string; dc_salt : string; dc_elems : nat; dc_name : string; dc_value : json; dc_parsed : bool }.

(** Oracles: the hash functions, and json.Unmarshal of a disclosure's text. *)
Record sdenv := { sd_sum : hashalg -> string -> string; sd_json : string -> option json }.

(** common.go:184-198 GetHash (the three hash functions are linked in, hence available) *)
Definition get_hash (E : sdenv) (h : hashalg) (s : string) : string := b64_encode (sd_sum E h s).

(** sdjwt/common/verification.go:317-364 getDisclosureClaim, 366-392 enrichWith... *)
Definition get_disclosure_claim (E : sdenv) (h : hashalg) (s : string) : res (string * disc) :=
  match b64_decode s with
  | None => Err "failed to decode disclosure"
  | Some b =>
      let* arr := match sd_json E b with
                  | Some (JArr l) => Ok l
                  | Some JNull => Ok []
                  | _ => Err "failed to unmarshal disclosure array"
                  end in
      match arr with
      | JStr salt :: rest =>
          let n := List.length arr in
          let mk name v := {| dc_str := s; dc_salt := salt; dc_elems := n; dc_name := name; dc_value := v; dc_parsed := false |} in
          match rest with
          | [] => Err "disclosure array size must be greater"
          | [v] => Ok (get_hash E h s, mk "" v)
          | [JStr name; v] => Ok (get_hash E h s, mk name v)
          | [_; _] => Err "disclosure name type must be string"
          | _ => Ok (get_hash E h s, mk "" JNull)
          end
      | _ :: _ :: _ => Err "disclosure salt type must be string"
      | _ => Err "disclosure array size must be greater"
      end
  end.
(** verification.go:301-314 getDisclosureClaims *)
Fixpoint get_disclosure_map (E : sdenv) (h : hashalg) (l : list string) (acc : gomap disc) : res (gomap disc) :=
  match l with
  | [] => Ok acc
  | s :: l' => let* kd := get_disclosure_claim E h s in get_disclosure_map E h l' (mset acc (fst kd) (snd kd))
  end.

(** common/types.go recursiveData: disclosures, nestedSD (cleanupDigestsClaims is the parameter [clean]) *)
Record rst := { rs_nested : list string; rs_discs : gomap disc }.
Definition push (d : string) (st : rst) : rst := {| rs_nested := (rs_nested st ++ [d])%list; rs_discs := rs_discs st |}.

(** common.go:390-415 stringArray on decoded JSON *)
Definition string_array (j : json) : res (list string) :=
  match j with
  | JNull => Ok []
  | JArr l => match all_strings l with Some r => Ok r | None => Err "entry item type is not a string" end
  | _ => Err "entry type is not an array"
  end.

Section Disclose.
  Variable clean : bool.
  (** setDisclosureClaimValue followed by reading the claim's value *)
  Variable setv : string -> disc -> rst -> res (json * rst).

  (** verification.go:158-216 the array case: one element *)
  Definition elem_step (v : json) (st : rst) : res (list json * rst) :=
    match digest_elem v with
    | None => Ok ([v], st)
    | Some (JStr d) =>
        if str_in d (rs_nested st) then Err "digest has been included in more than one place" else
        let st1 := push d st in
        match mget (rs_discs st1) d with
        | None => Ok (if clean then [] else [v], st1)
        | Some c =>
            if negb (Nat.eqb (dc_elems c) 2) then Err "invald disclosure associated with array element digest" else
            let* vs := setv d c st1 in
            Ok ([fst vs], snd vs)
        end
    | Some _ => Err "invalid array struct"
    end.
  Fixpoint elems_loop (l : list json) (st : rst) : res (list json * rst) :=
    match l with
    | [] => Ok ([], st)
    | v :: l' =>
        let* o := elem_step v st in
        let* os := elems_loop l' (snd o) in
        Ok ((fst o ++ fst os)%list, snd os)
    end.

  (** verification.go:220-265 the [_sd] digests of an object *)
  Fixpoint sds_loop (l : list string) (acc : gomap json) (missing : list string) (st : rst)
    : res (gomap json * list string * rst) :=
    match l with
    | [] => Ok (acc, missing, st)
    | d :: l' =>
        if str_in d (rs_nested st) then Err "digest has been included in more than one place" else
        let st1 := push d st in
        match mget (rs_discs st1) d with
        | None => sds_loop l' acc (missing ++ [d])%list st1
        | Some c =>
            if negb (Nat.eqb (dc_elems c) 3) then Err "invald disclosure associated with sd element digest" else
            let* vs := setv d c st1 in
            if mhas acc (dc_name c) then Err "claim name already exists at the same level" else
            sds_loop l' (mset acc (dc_name c) (fst vs)) missing (snd vs)
        end
    end.

  (** verification.go:267-291 the remaining members of an object; [f]: the recursive call *)
  Section Members.
    Variable f : json -> rst -> res (json * rst).
    Fixpoint members_loop (m : list (string * json)) (acc : gomap json) (st : rst) : res (json * rst) :=
      match m with
      | [] => Ok (JObj acc, st)
      | (k, v) :: m' =>
          if String.eqb k "_sd" then members_loop m' acc st else
          if String.eqb k "_sd_alg" && clean then members_loop m' acc st else
          let* vs := f v st in
          if mhas acc k then Err "claim name already exists at the same level" else
          members_loop m' (match fst vs with JNull => acc | v' => mset acc k v' end) (snd vs)
      end.
  End Members.
  (** verification.go:220-265 *)
  Definition sd_part (m : gomap json) (st : rst) : res (gomap json * rst) :=
    match mget m "_sd" with
    | None => Ok ([], st)
    | Some x =>
        let* sds := string_array x in
        let* r := sds_loop sds [] [] st in
        let '(acc, missing, st1) := r in
        Ok (if negb clean && negb (Nat.eqb (List.length missing) 0)
            then mset acc "_sd" (JArr (map JStr missing)) else acc, st1)
    end.

  (** verification.go:156-297 discloseClaimValue *)
  Fixpoint dcv (j : json) (st : rst) {struct j} : res (json * rst) :=
    match j with
    | JArr l => let* os := elems_loop l st in Ok (arr_or_null (fst os), snd os)
    | JObj m => let* a := sd_part m st in members_loop dcv m (fst a) (snd a)
    | _ => Ok (j, st)
    end.
End Disclose.

(** verification.go:139-153 setDisclosureClaimValue *)
Definition set_value (rec : json -> rst -> res (json * rst)) (d : string) (c : disc) (st : rst) : res (json * rst) :=
  if dc_parsed c then Ok (dc_value c, st) else
  let* vs := rec (dc_value c) st in
  let c' := {| dc_str := dc_str c; dc_salt := dc_salt c; dc_elems := dc_elems c; dc_name := dc_name c;
               dc_value := fst vs; dc_parsed := true |} in
  Ok (fst vs, {| rs_nested := rs_nested (snd vs); rs_discs := mset (rs_discs (snd vs)) d c' |}).

(** discloseClaimValue and setDisclosureClaimValue call each other; [fuel] bounds that mutual depth *)
Definition fuel_error : string := "out of fuel".
Fixpoint disclose (clean : bool) (fuel : nat) (j : json) (st : rst) {struct fuel} : res (json * rst) :=
  match fuel with
  | O => Err fuel_error
  | S f => dcv clean (set_value (disclose clean f)) j st
  end.
Definition disclose_top (clean : bool) (j : json) (st : rst) : res (json * rst) :=
  disclose clean (S (List.length (rs_discs st))) j st.

(** common.go:215-235 ParseCryptoHashAlg *)
Definition parse_hash_alg (s : string) : res hashalg :=
  let u := to_upper s in
  if String.eqb u "SHA-256" then Ok SHA256 else
  if String.eqb u "SHA-384" then Ok SHA384 else
  if String.eqb u "SHA-512" then Ok SHA512 else Err "_sd_alg not supported".
(** common.go:273-294 GetKeyFromVC *)
Definition get_key_from_vc (key : string) (m : gomap json) : option json :=
  match mget m key with
  | Some o => Some o
  | None => match mget m "vc" with Some (JObj vc) => mget vc key | _ => None end
  end.
(** common.go:252-270 GetSDAlg, 201-212 GetCryptoHashFromClaims *)
Definition get_crypto_hash (claims : gomap json) : res hashalg :=
  match get_key_from_vc "_sd_alg" claims with
  | None => Err "_sd_alg must be present in SD-JWT"
  | Some (JStr s) => parse_hash_alg s
  | Some _ => Err "_sd_alg must be a string"
  end.

(** verification.go:103-137 VerifyDisclosuresInSDJWT *)
Definition verify_disclosures (E : sdenv) (ds : list string) (payload : gomap json) : res unit :=
  let* h := get_crypto_hash payload in
  let* m := get_disclosure_map E h ds [] in
  let* r := disclose_top false (JObj payload) {| rs_nested := []; rs_discs := m |} in
  guard (forallb (fun kc => dc_parsed (snd kc)) (rs_discs (snd r)))
    "disclosure digest not found in SD-JWT disclosure digests".

(** common.go:121-148 GetDisclosureClaims: the loop over the map; [order]: the iteration order Go picks.
    Returns the final map (the result slice lists its values). *)
Fixpoint set_all (fuel : nat) (order : list string) (st : rst) : res rst :=
  match order with
  | [] => Ok st
  | d :: o =>
      match mget (rs_discs st) d with
      | None => set_all fuel o st
      | Some c => let* vs := set_value (disclose true fuel) d c st in set_all fuel o (snd vs)
      end
  end.
Definition get_disclosure_claims (E : sdenv) (h : hashalg) (ds : list string) (order : gomap disc -> list string)
  : res (gomap disc) :=
  let* m := get_disclosure_map E h ds [] in
  let* st := set_all (S (List.length m)) (order m) {| rs_nested := []; rs_discs := m |} in
  Ok (rs_discs st).

(** common.go:354-382 GetDisclosedClaims ([m]: the claims by digest) *)
Definition get_disclosed_claims (m : gomap disc) (claims : gomap json) : res (gomap json) :=
  let* _ := get_crypto_hash claims in
  let* r := disclose_top true (JObj claims) {| rs_nested := []; rs_discs := m |} in
  match fst r with JObj o => Ok o | _ => Err "unexpected output type" end.
