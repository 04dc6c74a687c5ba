(** Model of the algorithm tables of verifiable/common.go: which signature algorithm is used with a key. *)
From Verif Require Import GoBase JwtSpec JwtModel.
Local Open Scope Z_scope.

(** common.go:30-56 the JWSAlgorithm constants (iota) *)
Definition RS256 : Z := 0.
Definition PS256 : Z := 1.
Definition EdDSA : Z := 2.
Definition ECDSASecp256k1 : Z := 3.
Definition ECDSASecp256r1 : Z := 4.
Definition ECDSASecp384r1 : Z := 5.
Definition ECDSASecp521r1 : Z := 6.

(** common.go:58-78 KeyTypeToJWSAlgo; [None]: a kms key type outside [ktype] (AES, NIST KEMs, ...) *)
Definition key_type_to_jws (k : option ktype) : res Z :=
  match k with
  | Some (ECDSAP256DER | ECDSAP256IEEE) => Ok ECDSASecp256r1
  | Some (ECDSAP384DER | ECDSAP384IEEE) => Ok ECDSASecp384r1
  | Some (ECDSAP521DER | ECDSAP521IEEE) => Ok ECDSASecp521r1
  | Some ED25519Type => Ok EdDSA
  | Some (ECDSAk1IEEE | ECDSAk1DER) => Ok ECDSASecp256k1
  | Some RSARS256Type => Ok RS256
  | Some RSAPS256Type => Ok PS256
  | _ => Err "unsupported key type"
  end.
(** common.go:80-96 KeyTypeToCWSAlgo; the go-cose constants: ES256 -7, ES384 -35, EdDSA -8, RS256 -257, PS256 -37 *)
Definition key_type_to_cws (k : option ktype) : res Z :=
  match k with
  | Some (ECDSAP256DER | ECDSAP256IEEE) => Ok (-7)
  | Some (ECDSAP384DER | ECDSAP384IEEE) => Ok (-35)
  | Some ED25519Type => Ok (-8)
  | Some RSARS256Type => Ok (-257)
  | Some RSAPS256Type => Ok (-37)
  | _ => Err "unsupported key type"
  end.
(** common.go:98-118 JWSAlgorithm.Name *)
Definition jws_name (a : Z) : res string :=
  if a =? RS256 then Ok "RS256" else
  if a =? PS256 then Ok "PS256" else
  if a =? EdDSA then Ok "EdDSA" else
  if a =? ECDSASecp256k1 then Ok "ES256K" else
  if a =? ECDSASecp256r1 then Ok "ES256" else
  if a =? ECDSASecp384r1 then Ok "ES384" else
  if a =? ECDSASecp521r1 then Ok "ES521" else
  Err "unsupported algorithm".
