(** Vocabulary for CWT and COSE. *)
From Coq Require Import Permutation.
From Verif Require Import GoBase Base64 JwtSpec DiSpec VcSpec JwtModel SdSpec SdModel SdParse DiModel VcModel VcJwt VcParse VcSign CwModel.

(** the bytes to be signed (RFC 9052, section 4.4): the array ["Signature1", protected header, h'', payload] in shortest form *)
Definition sig_structure (protected : string) (payload : option string) : string :=
  enc (IArr [IText "Signature1"; IBytes protected; IBytes ""; match payload with Some s => IBytes s | None => ISimple 22 end]).
(** a text that is one byte string with content [c], in whatever form of its length *)
Definition is_bstr (raw c : string) : Prop := dec_all false max_depth raw = Some (IBytes c).
(** [data] is a tagged COSE_Sign1 array of a protected header (the text [raw] of a byte string with content [c]), an
    unprotected header, a payload (or null) and a signature *)
Definition cose_parts (data raw c : string) (u : list (item * item)) (payload : option string) (sig : string) : Prop :=
  exists ut pt st, data = String "210" (String "132" "") ++ raw ++ ut ++ pt ++ st
  /\ is_bstr raw c
  /\ dec_all false 31 ut = Some (IMap u)
  /\ dec_all false 31 pt = Some match payload with Some s => IBytes s | None => ISimple 22 end
  /\ is_bstr st sig.
(** the header map a protected header contains *)
Definition header_map_of (c : string) (l : list (item * item)) : Prop :=
  (c = "" /\ l = []) \/ (c <> "" /\ dec_all true max_depth c = Some (IMap l)).
(** the value of the first entry of a header with this label *)
Definition labelled (l : list (item * item)) (label v : item) : Prop :=
  exists l1 l2, l = (l1 ++ (label, v) :: l2)%list /\ ~ In label (map fst l1).
(** the algorithm number (label 1) and the key id (label 4; empty when there is none, or when it is not a byte string) of a header *)
Definition algorithm_of (l : list (item * item)) (alg : Z) : Prop :=
  (exists n, labelled l (IUint 1) (IUint n) /\ alg = Z.of_N n) \/ (exists n, labelled l (IUint 1) (INeg n) /\ alg = (-1 - Z.of_N n)%Z).
Definition key_id_of (l : list (item * item)) (kid : string) : Prop :=
  labelled l (IUint 4) (IBytes kid) \/ (kid = "" /\ forall s, ~ labelled l (IUint 4) (IBytes s)).
(** the issuer of a payload: a CBOR map of integer claims, whose last claim 1 is this text; [any]: a claim's value decodes into a Go value *)
Definition issuer_claim (any : item -> bool) (payload iss : string) : Prop :=
  exists l l1 l2, dec_all true max_depth payload = Some (IMap l)
    /\ Forall (fun kv => ((exists n, fst kv = IUint n) \/ (exists n, fst kv = INeg n)) /\ any (snd kv) = true) l
    /\ l = (l1 ++ (IUint 1, IText iss) :: l2)%list /\ ~ In (IUint 1) (map fst l2).
(** what a value needs so that a decoder with its limits reads it back: numbers and lengths below 2^64, at most 131072
    elements, at most [d] levels of arrays and maps, no tags unless allowed *)
Definition two64 : N := 18446744073709551616.
Fixpoint fits (tags : bool) (d : nat) (i : item) {struct i} : Prop :=
  match i with
  | IUint n | INeg n => (n < two64)%N
  | IBytes s | IText s => (slen s < two64)%N
  | IArr l => match d with O => False | S d' => (N.of_nat (List.length l) <= max_elements)%N
                /\ fold_right (fun x a => fits tags d' x /\ a) True l end
  | IMap l => match d with O => False | S d' => (N.of_nat (List.length l) <= max_elements)%N
                /\ fold_right (fun (kv : item * item) a => (let (k, v) := kv in fits tags d' k /\ fits tags d' v) /\ a) True l end
  | ITag n x => tags = true /\ (n < two64)%N /\ fits tags d x
  | ISimple n => (n < 24 \/ 32 <= n < 256)%N
  | IFloat b => String.length b = 2%nat \/ String.length b = 4%nat \/ String.length b = 8%nat
  end.
(** JSON values a CBOR decoder reads back: texts are UTF-8, member names distinct, numbers survive as float64, at most [d]
    levels of arrays and objects, of at most 131072 elements *)
Definition plain_text (s : string) : Prop := utf8_valid s = true /\ (slen s < two64)%N.
Fixpoint plain (F : Q -> string) (Fd : string -> option Q) (d : nat) (j : json) {struct j} : Prop :=
  match j with
  | JNum q => String.length (F q) = 8%nat /\ Fd (F q) = Some q
  | JStr s => plain_text s
  | JArr l => match d with O => False | S d' => (N.of_nat (List.length l) <= max_elements)%N
                /\ fold_right (fun x a => plain F Fd d' x /\ a) True l end
  | JObj m => match d with O => False | S d' => (N.of_nat (List.length m) <= max_elements)%N /\ NoDup (map fst m)
                /\ fold_right (fun (kv : string * json) a => (let (k, v) := kv in plain_text k /\ plain F Fd d' v) /\ a) True m end
  | _ => True
  end.
(** claims: distinct names, dates within 64 bits *)
Definition int64 (z : Z) : Prop := (-9223372036854775808 <= z < 9223372036854775808)%Z.
Definition plain_claim (F : Q -> string) (Fd : string -> option Q) (j : json) : Prop :=
  match j with JNum q => exists z, q = inject_Z z /\ int64 z | _ => plain F Fd 31 j end.
Definition plain_claims (F : Q -> string) (Fd : string -> option Q) (c : gomap json) : Prop :=
  (N.of_nat (List.length c) <= max_elements)%N /\ NoDup (map fst c) /\ Forall (fun kv => plain_text (fst kv) /\ plain_claim F Fd (snd kv)) c.
(** levels of arrays and objects *)
Fixpoint levels (j : json) : nat :=
  match j with
  | JArr l => S (fold_right (fun x a => Nat.max (levels x) a) 0%nat l)
  | JObj m => S (fold_right (fun (kv : string * json) a => let (_, v) := kv in Nat.max (levels v) a) 0%nat m)
  | _ => 0
  end.
(** lengths that fit Go's int *)
Definition sized (s : string) : Prop := (slen s < 9223372036854775808)%N.
(** Go visits the entries of a decoded map in any order: the maps convertToStringMap may return for a map with these entries *)
Definition entry_json (Fd : string -> option Q) (kv : item * item) : option (string * json) :=
  match key_text (fst kv), json_of Fd (snd kv) with Some a, Some b => Some (a, b) | _, _ => None end.
Definition converted (Fd : string -> option Q) (l : list (item * item)) (m : gomap json) : Prop :=
  exists l' r, Permutation l l' /\ all_some (map (entry_json Fd) l') = Some r /\ m = string_map r.
(** the signer and the verifier use this CBOR; [sign]: SignCWT of the proof creator *)
Record uses_cbor (hok : list (item * item) -> list (item * item) -> bool) (sign : Z -> string -> string -> res string)
  (F : Q -> string) (Fd : string -> option Q) (E : venv) (S : senv) : Prop := {
  uc_cose : forall s, ve_cose E s = option_map coset_of (parse_sign1 hok s);
  uc_cbor : forall s, ve_cbor E s = cbor_claims Fd s;
  uc_hex : forall s, ve_hex E s = hex_decode s;
  uc_sign : forall c a k, se_cose S c a k = rmap (fun rm => (fst rm, coset_of (snd rm))) (marshal_cose hok sign (enc (claims_item F c)) a k);
  uc_enc : forall s, se_hex S s = hex_encode s;
  uc_json : forall s, ve_members E (hex_encode s) = None }.    (* hex digits are not a JSON object *)
