(** Specification vocabulary: which signature scheme a kind of key is for, and the registered names. *)
From Verif Require Import GoBase JwtSpec JwtModel.

(** The kms key types and their schemes (DER and IEEE-P1363 are two encodings of the signatures of one scheme). *)
Inductive key_scheme : ktype -> scheme -> Prop :=
| KS_ed : key_scheme ED25519Type S_Ed25519
| KS_256 k : In k [ECDSAP256IEEE; ECDSAP256DER] -> key_scheme k (S_ECDSA P256 SHA256)
| KS_384 k : In k [ECDSAP384IEEE; ECDSAP384DER] -> key_scheme k (S_ECDSA P384 SHA384)
| KS_521 k : In k [ECDSAP521IEEE; ECDSAP521DER] -> key_scheme k (S_ECDSA P521 SHA512)
| KS_k1 k : In k [ECDSAk1IEEE; ECDSAk1DER] -> key_scheme k (S_ECDSA Secp256k1 SHA256)
| KS_rs : key_scheme RSARS256Type S_RSA_PKCS1_256
| KS_ps : key_scheme RSAPS256Type S_RSA_PSS_256
| KS_bbs : key_scheme BLS12381G2Type S_BBS.

(** The names registered for JWS (RFC 7518 section 3.1, RFC 8037, RFC 8812). *)
Inductive registered_jws : string -> scheme -> Prop :=
| RJ_ed : registered_jws "EdDSA" S_Ed25519
| RJ_256 : registered_jws "ES256" (S_ECDSA P256 SHA256)
| RJ_384 : registered_jws "ES384" (S_ECDSA P384 SHA384)
| RJ_512 : registered_jws "ES512" (S_ECDSA P521 SHA512)
| RJ_k1 : registered_jws "ES256K" (S_ECDSA Secp256k1 SHA256)
| RJ_rs : registered_jws "RS256" S_RSA_PKCS1_256
| RJ_ps : registered_jws "PS256" S_RSA_PSS_256.
