(** Vocabulary and specification for related resources (verifiable/related_resource.go). *)
From Verif Require Import GoBase Base64 JwtSpec StrLemmas VcSpec.

(** Hash functions and multibase.Decode (result: the encoding is "base64url without padding", the bytes). *)
Record renv := { re_hash : hashalg -> string -> string; re_mb : string -> option (bool * string) }.

(** What a server answers to one GET: nothing usable (no request could be made, or no answer), or a status and a body
    (None: nil; Err: reading it fails). *)
Inductive answer := NoAnswer | Answer (status : Z) (body : option (res string)).
(** The bytes that were received, when that went well. *)
Definition received (a : answer) (b : string) : Prop := a = Answer 200 (Some (Ok b)) /\ b <> "".

(** *** What a digest claims *)
Inductive alg_name : string -> hashalg -> Prop :=
| an_256 s : to_lower s = "sha256" -> alg_name s SHA256
| an_384 s : to_lower s = "sha384" -> alg_name s SHA384
| an_512 s : to_lower s = "sha512" -> alg_name s SHA512.
(** the text of the digest and its algorithm: "alg-digest" in digestSRI, else SHA-256 in digestMultibase *)
Inductive digest_of (r : relres) : hashalg -> string -> Prop :=
| do_sri a n d : rr_sri r = n ++ String "-" d -> free_of "-" n -> free_of "-" d -> alg_name n a -> digest_of r a d
| do_mb : rr_sri r = "" -> rr_mb r <> "" -> digest_of r SHA256 (rr_mb r).
Definition mh_header : string := String (ascii_of_N 18) (String (ascii_of_N 32) "").   (* 0x12 0x20 *)
(** the digest text decodes to the hash of the bytes; in base64url it carries the header 0x12 0x20 *)
Definition matches (E : renv) (r : relres) (b : string) : Prop :=
  exists a d enc x, digest_of r a d /\ re_mb E d = Some (enc, x)
    /\ ((enc = true /\ x = mh_header ++ re_hash E a b) \/ (x = re_hash E a b /\ (enc = true -> forall y, x <> mh_header ++ y))).
