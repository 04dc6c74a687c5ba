(** Model of verifiable/cwt/cbor.go, verifiable/cwt/cwt.go, cwt/cwt.go, verifiable/cose.go and the CBOR side of
    verifiable/credential_parser.go, on bytes.  The parts of fxamacker/cbor v2.5.0 and veraison/go-cose used by them are
    modelled from their documented behaviour: definite-length items only (go-cose forbids the others; an indefinite-length
    payload is not modelled), at most 32 nested arrays and maps, at most 131072 elements or pairs. *)
From Verif Require Import GoBase Base64 JwtSpec DiSpec VcSpec JwtModel SdSpec SdModel SdParse DiModel VcModel VcJwt VcParse VcSign.
From Coq Require DecimalString.

(** ** CBOR (RFC 8949) *)
Inductive item : Type :=
| IUint (n : N)                      (* major type 0 *)
| INeg (n : N)                       (* major type 1: the number -1-n *)
| IBytes (s : string)
| IText (s : string)
| IArr (l : list item)
| IMap (l : list (item * item))
| ITag (n : N) (x : item)
| ISimple (n : N)                    (* false 20, true 21, null 22, undefined 23 *)
| IFloat (bits : string).            (* 2, 4 or 8 bytes *)

Definition byte_n (a : ascii) : N := N_of_ascii a.
Definition mk_byte (n : N) : ascii := ascii_of_N n.
(** big-endian, k bytes *)
Fixpoint be (k : nat) (n : N) : string :=
  match k with O => "" | S k' => String (mk_byte ((n / 256 ^ N.of_nat k') mod 256)) (be k' n) end.
Fixpoint be_read (k : nat) (acc : N) (s : string) : option (N * string) :=
  match k with
  | O => Some (acc, s)
  | S k' => match s with "" => None | String a s' => be_read k' (acc * 256 + byte_n a) s' end
  end.
(** cbor.Marshal: the shortest head *)
Definition head (mt n : N) : string :=
  (if n <? 24 then String (mk_byte (mt * 32 + n)) ""
   else if n <? 256 then String (mk_byte (mt * 32 + 24)) (be 1 n)
   else if n <? 65536 then String (mk_byte (mt * 32 + 25)) (be 2 n)
   else if n <? 4294967296 then String (mk_byte (mt * 32 + 26)) (be 4 n)
   else String (mk_byte (mt * 32 + 27)) (be 8 n))%N.
Definition slen (s : string) : N := N.of_nat (String.length s).
(** cbor.Marshal of a value with this content (map pairs in the order given) *)
Fixpoint enc (i : item) : string :=
  match i with
  | IUint n => head 0 n
  | INeg n => head 1 n
  | IBytes s => head 2 (slen s) ++ s
  | IText s => head 3 (slen s) ++ s
  | IArr l => head 4 (N.of_nat (List.length l)) ++ fold_right (fun x a => enc x ++ a) "" l
  | IMap l => head 5 (N.of_nat (List.length l)) ++ fold_right (fun (kv : item * item) a => let (k, v) := kv in enc k ++ enc v ++ a) "" l
  | ITag n x => head 6 n ++ enc x
  | ISimple n => if (n <? 24)%N then String (mk_byte (224 + n)) "" else String (mk_byte 248) (String (mk_byte n) "")
  | IFloat bits => String (mk_byte (if (String.length bits =? 2)%nat then 249 else if (String.length bits =? 4)%nat then 250 else 251)) bits
  end.
(** the head of an item: major type, additional information, value *)
Definition dec_head (s : string) : option (N * N * N * string) :=
  match s with
  | "" => None
  | String a s1 =>
      let mt := (byte_n a / 32)%N in
      let ai := (byte_n a mod 32)%N in
      let rd k := match be_read k 0 s1 with Some (v, r) => Some (mt, ai, v, r) | None => None end in
      if (ai <? 24)%N then Some (mt, ai, ai, s1)
      else if (ai =? 24)%N then rd 1%nat
      else if (ai =? 25)%N then rd 2%nat
      else if (ai =? 26)%N then rd 4%nat
      else if (ai =? 27)%N then rd 8%nat
      else None
  end.
(** [n] bytes from [s] *)
Definition cut (n : N) (s : string) : option (string * string) :=
  if (slen s <? n)%N then None else Some (str_take (N.to_nat n) s, str_drop (N.to_nat n) s).
Definition max_elements : N := 131072.
(** one well-formed item from the front of [s]; [depth]: how many arrays and maps may still be opened.
    (Nested tags count as levels too in the library, not here.) *)
Fixpoint dec (fuel : nat) (tags : bool) (depth : nat) (s : string) {struct fuel} : option (item * string) :=
  match fuel with
  | O => None
  | S f =>
      match dec_head s with
      | None => None
      | Some (mt, ai, n, s1) =>
          if (mt =? 0)%N then Some (IUint n, s1)
          else if (mt =? 1)%N then Some (INeg n, s1)
          else if (mt =? 2)%N then match cut n s1 with Some (b, r) => Some (IBytes b, r) | None => None end
          else if (mt =? 3)%N then match cut n s1 with Some (b, r) => Some (IText b, r) | None => None end
          else if (mt =? 4)%N then
            match depth with
            | O => None
            | S d => if (max_elements <? n)%N then None
                     else match dec_seq f tags d n s1 with Some (l, r) => Some (IArr l, r) | None => None end
            end
          else if (mt =? 5)%N then
            match depth with
            | O => None
            | S d => if (max_elements <? n)%N then None
                     else match dec_pairs f tags d n s1 with Some (l, r) => Some (IMap l, r) | None => None end
            end
          else if (mt =? 6)%N then
            if tags then match dec f tags depth s1 with Some (x, r) => Some (ITag n x, r) | None => None end else None
          else if (ai <? 24)%N then Some (ISimple n, s1)
          else if (ai =? 24)%N then if (n <? 32)%N then None else Some (ISimple n, s1)
          else if (ai =? 25)%N then Some (IFloat (be 2 n), s1)
          else if (ai =? 26)%N then Some (IFloat (be 4 n), s1)
          else Some (IFloat (be 8 n), s1)
      end
  end
with dec_seq (fuel : nat) (tags : bool) (depth : nat) (n : N) (s : string) {struct fuel} : option (list item * string) :=
  match fuel with
  | O => None
  | S f =>
      if (n =? 0)%N then Some ([], s)
      else match dec f tags depth s with
           | None => None
           | Some (x, s1) => match dec_seq f tags depth (n - 1) s1 with Some (l, r) => Some (x :: l, r) | None => None end
           end
  end
with dec_pairs (fuel : nat) (tags : bool) (depth : nat) (n : N) (s : string) {struct fuel} : option (list (item * item) * string) :=
  match fuel with
  | O => None
  | S f =>
      if (n =? 0)%N then Some ([], s)
      else match dec f tags depth s with
           | None => None
           | Some (k, s1) =>
               match dec f tags depth s1 with
               | None => None
               | Some (v, s2) => match dec_pairs f tags depth (n - 1) s2 with Some (l, r) => Some ((k, v) :: l, r) | None => None end
               end
           end
  end.
(** the fuel never runs out: every item has at least one byte *)
Definition fuel_of (s : string) : nat := S (3 * String.length s).
Definition dec_item (tags : bool) (depth : nat) (s : string) : option (item * string) := dec (fuel_of s) tags depth s.
(** a text that is exactly one item: DecMode.Valid and Unmarshal refuse extraneous data *)
Definition dec_all (tags : bool) (depth : nat) (s : string) : option item :=
  match dec_item tags depth s with Some (x, "") => Some x | _ => None end.
Definition max_depth : nat := 32.

(** ** verifiable/cwt/cbor.go:53-101 deterministicBinaryString; an index outside the slice panics *)
Definition byte_at (s : string) (i : nat) : res N := match String.get i s with Some a => Ok (byte_n a) | None => Panic end.
Definition det_slow (data : string) : res string :=
  match dec_all false max_depth data with
  | Some (IBytes s) => Ok (enc (IBytes s))
  | _ => Err "cbor: cannot unmarshal"
  end.
Definition det_bstr (data : string) : res string :=
  match data with
  | "" => Err "EOF"
  | String a _ =>
      let* _ := guard (byte_n a / 32 =? 2)%N "cbor: require bstr type" in
      let* _ := guard (match dec_all false max_depth data with Some _ => true | None => false end) "cbor: not well-formed" in
      let ai := (byte_n a mod 32)%N in
      if (ai <? 24)%N then Ok data
      else if (ai =? 24)%N then
        let* b1 := byte_at data 1 in if (24 <=? b1)%N then Ok data else det_slow data
      else if (ai =? 25)%N then
        let* b1 := byte_at data 1 in if negb (b1 =? 0)%N then Ok data else det_slow data
      else if (ai =? 26)%N then
        let* b1 := byte_at data 1 in
        if negb (b1 =? 0)%N then Ok data
        else let* b2 := byte_at data 2 in if negb (b2 =? 0)%N then Ok data else det_slow data
      else if (ai =? 27)%N then
        let* b1 := byte_at data 1 in
        if negb (b1 =? 0)%N then Ok data
        else let* b2 := byte_at data 2 in
             if negb (b2 =? 0)%N then Ok data
             else let* b3 := byte_at data 3 in
                  if negb (b3 =? 0)%N then Ok data
                  else let* b4 := byte_at data 4 in if negb (b4 =? 0)%N then Ok data else det_slow data
      else det_slow data
  end.

(** ** go-cose: COSE_Sign1 messages *)
(** Headers.Protected and RawProtected, Unprotected; the payload is nil when detached *)
Record sign1 := { s1_raw : string; s1_prot : list (item * item); s1_unprot : list (item * item);
                  s1_payload : option string; s1_sig : string }.
(** encMode with SortCoreDeterministic: pairs sorted by their encoded keys, bytewise *)
Fixpoint insert_pair (kv : item * item) (l : list (item * item)) : list (item * item) :=
  match l with
  | [] => [kv]
  | x :: l' => if String.ltb (enc (fst x)) (enc (fst kv)) then x :: insert_pair kv l' else kv :: x :: l'
  end.
Definition sort_pairs (l : list (item * item)) : list (item * item) := fold_right insert_pair [] l.
(** Headers.MarshalProtected; an empty header is the empty byte string *)
Definition marshal_protected (m : sign1) : string :=
  if negb (String.eqb (s1_raw m) "") then s1_raw m
  else match s1_prot m with [] => enc (IBytes "") | l => enc (IBytes (enc (IMap (sort_pairs l)))) end.
(** cbor.Marshal of a []byte *)
Definition bytes_item (p : option string) : item := match p with Some s => IBytes s | None => ISimple 22 end.
(** verifiable/cwt/cwt.go:15-41 GetProofValue (header validation of MarshalProtected is part of [hok], below); the third
    element is an empty byte string, the second the raw message *)
Definition get_proof_value (m : sign1) : res string :=
  let* d := det_bstr (marshal_protected m) in
  Ok (head 4 4 ++ enc (IText "Signature1") ++ d ++ enc (IBytes "") ++ enc (bytes_item (s1_payload m))).
(** the protected header: a byte string with the encoding of a map, or empty *)
Definition protected_map (i : item) : option (list (item * item)) :=
  match i with
  | IBytes "" => Some []
  | IBytes c => match dec_all true max_depth c with Some (IMap l) => Some l | _ => None end
  | _ => None
  end.
Definition opt_bytes (i : item) : option (option string) :=
  match i with
  | IBytes s => Some (Some s)
  | ISimple n => if (n =? 22)%N then Some None else None
  | _ => None
  end.
(** Sign1Message.UnmarshalCBOR: the prefix 0xd2 0x84 (tag 18, array of four), no tags inside, a signature that is not empty;
    [hok]: Headers.UnmarshalFromRaw's checks of labels, values and their combination (duplicates are refused) *)
Definition parse_sign1 (hok : list (item * item) -> list (item * item) -> bool) (data : string) : option sign1 :=
  match data with
  | String a (String b s1) =>
      if negb ((byte_n a =? 210)%N && (byte_n b =? 132)%N) then None
      else
      match dec_item false (max_depth - 1) s1 with
      | None => None
      | Some (p, s2) =>
      match dec_item false (max_depth - 1) s2 with
      | None => None
      | Some (u, s3) =>
      match dec_item false (max_depth - 1) s3 with
      | None => None
      | Some (pl, s4) =>
      match dec_item false (max_depth - 1) s4 with
      | Some (sg, "") =>
          match protected_map p, u, opt_bytes pl, opt_bytes sg with
          | Some pm, IMap um, Some pb, Some (Some sb) =>
              if String.eqb sb "" || negb (hok pm um) then None
              else Some {| s1_raw := str_take (String.length s1 - String.length s2) s1; s1_prot := pm; s1_unprot := um;
                           s1_payload := pb; s1_sig := sb |}
          | _, _, _, _ => None
          end
      | _ => None
      end end end end
  | _ => None
  end.
(** Protected[label] *)
Fixpoint label_n (l : list (item * item)) (n : N) : option item :=
  match l with
  | [] => None
  | (IUint k, v) :: l' => if (k =? n)%N then Some v else label_n l' n
  | _ :: l' => label_n l' n
  end.
Fixpoint label_s (l : list (item * item)) (s : string) : option item :=
  match l with
  | [] => None
  | (IText k, v) :: l' => if String.eqb k s then Some v else label_s l' s
  | _ :: l' => label_s l' s
  end.
(** ProtectedHeader.Algorithm *)
Definition int_item (z : Z) : item := if (z <? 0)%Z then INeg (Z.to_N (-1 - z)) else IUint (Z.to_N z).
Definition item_int (i : item) : option Z :=
  match i with IUint n => Some (Z.of_N n) | INeg n => Some (-1 - Z.of_N n)%Z | _ => None end.
Definition header_alg (l : list (item * item)) : res Z :=
  match label_n l 1 with
  | None => Err "algorithm not found"
  | Some i => match item_int i with Some z => Ok z | None => Err "unknown algorithm value" end
  end.
(** cwt/cwt.go:106-112: the key material and key id of the protected header, empty when missing or of another type *)
Definition header_key (l : list (item * item)) : string := match label_s l "COSE_Key" with Some (IText s) => s | _ => "" end.
Definition header_kid (l : list (item * item)) : string := match label_n l 4 with Some (IBytes s) => s | _ => "" end.
(** what the rest of the code reads of a message *)
Definition coset_of (m : sign1) : coset :=
  {| co_alg := header_alg (s1_prot m); co_key := header_key (s1_prot m); co_kid := header_kid (s1_prot m);
     co_payload := match s1_payload m with Some s => s | None => "" end; co_sig := s1_sig m; co_tbs := get_proof_value m |}.

(** ** cwt/cwt.go *)
(** 81-88 Parse *)
Definition cwt_parse (hok : list (item * item) -> list (item * item) -> bool) (data : string) : res sign1 :=
  match parse_sign1 hok data with Some m => Ok m | None => Err "cbor" end.
(** 43-58: cbor.Unmarshal of the payload into a map[int]interface{}, its claim 1, which must be a string (the last of several);
    [any]: the value decodes into an interface{} *)
Definition payload_issuer (any : item -> bool) (payload : string) : res string :=
  match dec_all true max_depth payload with
  | Some (IMap l) =>
      if forallb (fun kv => match item_int (fst kv) with Some _ => any (snd kv) | None => false end) l then
        match label_n (rev l) 1 with
        | Some (IText s) => Ok s
        | Some _ => Err "check cwt failure: iss claim is not a string"
        | None => Err "check cwt failure: iss claim is required"
        end
      else Err "cbor: cannot unmarshal"
  | Some (ISimple 22%N) => Err "check cwt failure: iss claim is required"
  | _ => Err "cbor: cannot unmarshal"
  end.
(** 31-78 ParseAndCheckProof; [issuer]: [payload_issuer], or any other way to read the payload *)
Definition has_text_label (l : list (item * item)) (s : string) : bool :=
  match label_s l s with Some (IText _) => true | _ => false end.
Definition parse_and_check (hok : list (item * item) -> list (item * item) -> bool) (issuer : string -> res string)
  (chk : cwt_checker) (check_issuer : bool) (data : string) : res (sign1 * string) :=
  let* m := cwt_parse hok data in
  let c := coset_of m in
  let* expected := if check_issuer then issuer (co_payload c) else Ok "" in
  let* _ := guard (has_text_label (s1_prot m) "COSE_Key") "check cwt failure: COSE_Key header is required" in
  let* tbs := get_proof_value m in
  let* _ := cwt_check_proof chk expected c tbs in
  Ok (m, co_payload c).

(** ** verifiable/cose.go:21-66 marshalCOSE; [sign alg kid tbs]: signer.SignCWT; the payload is already encoded *)
Definition header_typ : string := "application/vc+ld+json+cose".
Definition cose_message (payload : string) (alg : Z) (kid sig : string) : sign1 :=
  {| s1_raw := ""; s1_prot := [(IUint 1, int_item alg); (IUint 4, IBytes kid)]; s1_unprot := [(IUint 16, IText header_typ)];
     s1_payload := Some payload; s1_sig := sig |}.
(** Sign1Message.MarshalCBOR *)
Definition marshal_sign1 (hok : list (item * item) -> list (item * item) -> bool) (m : sign1) : res string :=
  let* _ := guard (negb (String.eqb (s1_sig m) "")) "empty signature" in
  let* _ := guard (hok (s1_prot m) (s1_unprot m)) "invalid headers" in
  Ok (head 6 18 ++ head 4 4 ++ marshal_protected m ++ enc (IMap (sort_pairs (s1_unprot m))) ++ enc (bytes_item (s1_payload m)) ++ enc (IBytes (s1_sig m))).
Definition marshal_cose (hok : list (item * item) -> list (item * item) -> bool) (sign : Z -> string -> string -> res string)
  (payload : string) (alg : Z) (kid : string) : res (string * sign1) :=
  let* tbs := get_proof_value (cose_message payload alg kid "") in
  let* s := sign alg kid tbs in
  let m := cose_message payload alg kid s in
  let* raw := marshal_sign1 hok m in
  Ok (raw, m).

(** ** Claims *)
(** cbor.Marshal of JSON values as Go holds them: numbers are float64, written with 8 bytes ([F]: their bits) *)
Fixpoint item_of (F : Q -> string) (j : json) : item :=
  match j with
  | JNull => ISimple 22
  | JBool b => ISimple (if b then 21 else 20)
  | JNum q => IFloat (F q)
  | JStr s => IText s
  | JArr l => IArr (map (item_of F) l)
  | JObj m => IMap (map (fun kv : string * json => let (k, v) := kv in (IText k, item_of F v)) m)
  end.
(** the claims of a CWT: the only numbers among them are dates, Go integers *)
Definition claim_item (F : Q -> string) (j : json) : item :=
  match j with JNum q => int_item (Qnum q) | _ => item_of F j end.
Definition claims_item (F : Q -> string) (c : gomap json) : item :=
  IMap (map (fun kv => (IText (fst kv), claim_item F (snd kv))) c).
(** utf8.Valid *)
Definition in_range (lo hi : N) (a : ascii) : bool := (lo <=? byte_n a)%N && (byte_n a <=? hi)%N.
Fixpoint utf8_valid (s : string) : bool :=
  match s with
  | "" => true
  | String a s1 =>
      if in_range 0 127 a then utf8_valid s1
      else if in_range 194 223 a then match s1 with String b s2 => in_range 128 191 b && utf8_valid s2 | _ => false end
      else if in_range 224 239 a then
        match s1 with
        | String b (String c s2) =>
            in_range (if (byte_n a =? 224)%N then 160 else 128) (if (byte_n a =? 237)%N then 159 else 191) b
            && in_range 128 191 c && utf8_valid s2
        | _ => false
        end
      else if in_range 240 244 a then
        match s1 with
        | String b (String c (String d s2)) =>
            in_range (if (byte_n a =? 240)%N then 144 else 128) (if (byte_n a =? 244)%N then 143 else 191) b
            && in_range 128 191 c && in_range 128 191 d && utf8_valid s2
        | _ => false
        end
      else false
  end.
(** credential_parser.go:116-128 convertToStringMap: fmt.Sprintf("%v", key).  Other kinds of keys are not modelled. *)
Definition dec_text (n : N) : string := DecimalString.NilEmpty.string_of_uint (N.to_uint n).
Definition key_text (i : item) : option string :=
  match i with
  | IText s => if utf8_valid s then Some s else None
  | IUint n => Some (dec_text n)
  | INeg n => Some ("-" ++ dec_text (n + 1))
  | ISimple n => if (n =? 20)%N then Some "false" else if (n =? 21)%N then Some "true" else None
  | _ => None
  end.
(** the entries of a decoded map, in the order in which Go visits them, copied to a map with text keys *)
Definition string_map (l : list (string * json)) : gomap json := fold_left (fun m kv => mset m (fst kv) (snd kv)) l [].
Fixpoint all_some {A} (l : list (option A)) : option (list A) :=
  match l with
  | [] => Some []
  | None :: _ => None
  | Some x :: l' => match all_some l' with Some r => Some (x :: r) | None => None end
  end.
(** credential_parser.go:116-143 convertToStringMap, convertElement on a decoded value, maps visited in the order of the
    bytes; [Fd]: the number with these float bits.  Byte strings, tags and other values that have no JSON form: not modelled. *)
Fixpoint json_of (Fd : string -> option Q) (i : item) : option json :=
  match i with
  | IUint n => Some (jnum (Z.of_N n))
  | INeg n => if (n <? 9223372036854775808)%N then Some (jnum (-1 - Z.of_N n)) else None
  | IText s => if utf8_valid s then Some (JStr s) else None
  | IArr l => match all_some (map (json_of Fd) l) with Some r => Some (JArr r) | None => None end
  | IMap l =>
      match all_some (map (fun kv : item * item => let (k, v) := kv in
               match key_text k, json_of Fd v with Some a, Some b => Some (a, b) | _, _ => None end) l) with
      | Some r => Some (JObj (string_map r))
      | None => None
      end
  | ISimple n => if (n =? 20)%N then Some (JBool false) else if (n =? 21)%N then Some (JBool true)
                 else if ((n =? 22) || (n =? 23))%N then Some JNull else None
  | IFloat b => match Fd b with Some q => Some (JNum q) | None => None end
  | _ => None
  end.
(** credential_parser.go:183-186 cbor.Unmarshal of the payload into a map[string]interface{}: text keys only *)
Definition cbor_claims (Fd : string -> option Q) (payload : string) : option (gomap json) :=
  match dec_all true max_depth payload with
  | Some (IMap l) =>
      match all_some (map (fun kv => match fst kv with
                                     | IText s => if utf8_valid s then match json_of Fd (snd kv) with Some v => Some (s, v) | None => None end else None
                                     | _ => None
                                     end) l) with
      | Some r => Some (string_map r)
      | None => None
      end
  | _ => None
  end.
(** encoding/hex *)
Definition hex_digit (n : N) : ascii := mk_byte (if (n <? 10)%N then 48 + n else 87 + n).
Fixpoint hex_encode (s : string) : string :=
  match s with "" => "" | String a s' => String (hex_digit (byte_n a / 16)) (String (hex_digit (byte_n a mod 16)) (hex_encode s')) end.
Definition hex_value (a : ascii) : option N :=
  if in_range 48 57 a then Some (byte_n a - 48)%N
  else if in_range 97 102 a then Some (byte_n a - 87)%N
  else if in_range 65 70 a then Some (byte_n a - 55)%N else None.
Fixpoint hex_decode (s : string) : option string :=
  match s with
  | "" => Some ""
  | String a (String b s') =>
      match hex_value a, hex_value b, hex_decode s' with
      | Some x, Some y, Some r => Some (String (mk_byte (x * 16 + y)) r)
      | _, _, _ => None
      end
  | _ => None
  end.
