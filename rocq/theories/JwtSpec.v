(** Specification vocabulary for JWT handling and signature checking.
    Written without looking at the model: RFC 7515/7518/7519/8725 notions only. *)
From Verif Require Import GoBase.

(** The JOSE registration table for the algorithms the library names: which signature scheme an
    [alg] value stands for.  "ES521" is the library's name for ECDSA on P-521. *)
Inductive curve := P256 | P384 | P521 | Secp256k1.
Inductive hashalg := SHA256 | SHA384 | SHA512.
Inductive scheme :=
| S_Ed25519
| S_ECDSA (c : curve) (h : hashalg)
| S_RSA_PSS_256
| S_RSA_PKCS1_256
| S_BBS.

Inductive alg_scheme : string -> scheme -> Prop :=
| AS_EdDSA  : alg_scheme "EdDSA" S_Ed25519
| AS_ES256  : alg_scheme "ES256" (S_ECDSA P256 SHA256)
| AS_ES256K : alg_scheme "ES256K" (S_ECDSA Secp256k1 SHA256)
| AS_ES384  : alg_scheme "ES384" (S_ECDSA P384 SHA384)
| AS_ES521  : alg_scheme "ES521" (S_ECDSA P521 SHA512)
| AS_PS256  : alg_scheme "PS256" S_RSA_PSS_256
| AS_RS256  : alg_scheme "RS256" S_RSA_PKCS1_256.

(** COSE algorithm numbers (IANA registry): Ed25519/EdDSA -8, ES256 -7, ES384 -35, PS256 -37, RS256 -257. *)
Inductive cose_scheme : Z -> scheme -> Prop :=
| CS_Ed : cose_scheme (-8) S_Ed25519
| CS_ES256 : cose_scheme (-7) (S_ECDSA P256 SHA256)
| CS_ES384 : cose_scheme (-35) (S_ECDSA P384 SHA384)
| CS_PS256 : cose_scheme (-37) S_RSA_PSS_256
| CS_RS256 : cose_scheme (-257) S_RSA_PKCS1_256.

(** JWK [kty]/[crv] of a key for a scheme (RFC 7518 / 8037 / 8812). *)
Inductive scheme_jwk : scheme -> string -> string -> Prop :=
| SJ_Ed : scheme_jwk S_Ed25519 "OKP" "Ed25519"
| SJ_256 h : scheme_jwk (S_ECDSA P256 h) "EC" "P-256"
| SJ_384 h : scheme_jwk (S_ECDSA P384 h) "EC" "P-384"
| SJ_521 h : scheme_jwk (S_ECDSA P521 h) "EC" "P-521"
| SJ_k1 h : scheme_jwk (S_ECDSA Secp256k1 h) "EC" "secp256k1"
| SJ_pss : scheme_jwk S_RSA_PSS_256 "RSA" ""
| SJ_pkcs : scheme_jwk S_RSA_PKCS1_256 "RSA" ""
| SJ_bbs : scheme_jwk S_BBS "EC" "BLS12381_G2".

(** Big-endian value of a byte string. *)
Fixpoint be_val_from (a : N) (s : string) : N :=
  match s with EmptyString => a | String c s' => be_val_from (a * 256 + N_of_ascii c)%N s' end.
Definition be_val (s : string) : N := be_val_from 0 s.

(** The JWT header policy: what [typ] and [cty] may be.
    [single_plus_type]: a type of the form p+s. *)
Definition no_char (c : ascii) (s : string) : Prop := ~ char_in c s.
Definition plus : ascii := "+"%char.
Definition ci_eq (a b : string) : Prop := to_lower a = to_lower b.

Definition jwt_type_ok (t : string) : Prop :=
  t = "JWT"
  \/ exists p s, t = p ++ "+" ++ s /\ no_char plus p /\ no_char plus s /\ (ci_eq s "jwt" \/ ci_eq s "sd-jwt").
(** a type with at most one '+' *)
Definition at_most_one_plus (t : string) : Prop :=
  no_char plus t \/ exists p s, t = p ++ "+" ++ s /\ no_char plus p /\ no_char plus s.

(** Linked-data proof types and the schemes they may use. *)
Inductive ld_scheme : string -> scheme -> Prop :=
| LS_bbs : ld_scheme "BbsBlsSignature2020" S_BBS
| LS_k1 : ld_scheme "EcdsaSecp256k1Signature2019" (S_ECDSA Secp256k1 SHA256)
| LS_ed18 : ld_scheme "Ed25519Signature2018" S_Ed25519
| LS_ed20 : ld_scheme "Ed25519Signature2020" S_Ed25519
| LS_j_ed : ld_scheme "JsonWebSignature2020" S_Ed25519
| LS_j_k1 : ld_scheme "JsonWebSignature2020" (S_ECDSA Secp256k1 SHA256)
| LS_j_ps : ld_scheme "JsonWebSignature2020" S_RSA_PSS_256
| LS_j_256 : ld_scheme "JsonWebSignature2020" (S_ECDSA P256 SHA256)
| LS_j_384 : ld_scheme "JsonWebSignature2020" (S_ECDSA P384 SHA384)
| LS_j_521 : ld_scheme "JsonWebSignature2020" (S_ECDSA P521 SHA512).

(** ** Keys, verification methods *)
(** crypto-ext/pubkey, kms-go jwk.JWK: declared type and curve, and the key object it holds *)
Inductive keymat :=
| KEd (b : string)
| KEc (c : curve) (pt : string)
| KRsa (k : string)
| KOther (b : string).
Record jwk := { jk_kty : string; jk_crv : string; jk_key : keymat }.
(** vermethod/method.go:6-10 *)
Record vmeth := { vm_type : string; vm_value : string; vm_jwk : option jwk }.


(** The cryptographic primitives and key parsers: arbitrary functions. *)
Record cenv := {
  c_ed : string -> string -> string -> bool;                      (* key msg sig *)
  c_ecdsa : curve -> string -> hashalg -> string -> N -> N -> bool; (* key curve, point, hash, msg, r, s *)
  c_pss : string -> string -> string -> bool;
  c_pkcs1 : string -> string -> string -> bool;
  c_bbs : string -> list string -> string -> bool;
  c_point : curve -> string -> option string;                     (* elliptic.Unmarshal *)
  c_rsakey : string -> option string;                             (* x509.ParsePKCS1PublicKey *)
  c_asn1 : string -> option (N * N);                              (* asn1.Unmarshal {R,S} *)
  c_jwkbytes : jwk -> option string                               (* JWK.PublicKeyBytes *)
}.

(** strings.TrimSpace(row) == "" (ASCII white space) *)
Definition is_space (c : ascii) : bool :=
  let n := N_of_ascii c in (N.eqb n 32 || (N.leb 9 n && N.leb n 13))%bool.
Fixpoint all_space (s : string) : bool :=
  match s with EmptyString => true | String c s' => is_space c && all_space s' end.
(** crypto-ext/verifiers/bbs/verifier.go:100-118 splitMessageIntoLines (without transformation) *)
Definition nl : ascii := ascii_of_nat 10.
Definition split_lines (msg : string) : list string :=
  filter (fun r => negb (all_space r)) (split_on nl msg).

(** the key material a verification method stands for *)
Definition vm_key (C : cenv) (vm : vmeth) (c : option curve) (k : keymat) : Prop :=
  match vm_jwk vm with
  | Some j => jk_key j = k
  | None => match k with
            | KEd b => b = vm_value vm
            | KRsa r => c_rsakey C (vm_value vm) = Some r
            | KEc c' pt => c = Some c' /\ c_point C c' (vm_value vm) = Some pt
            | KOther b => b = vm_value vm
            end
  end.


(** Signature framing for ECDSA: exactly two field elements is the raw (IEEE P1363) form, anything longer
    is DER, anything shorter is invalid. *)
Definition field_size (c : curve) : nat := match c with P256 | Secp256k1 => 32 | P384 => 48 | P521 => 66 end.
Definition sig_rs (C : cenv) (c : curve) (sig : string) (r s : N) : Prop :=
  (exists a b, sig = a ++ b /\ String.length a = field_size c /\ String.length b = field_size c
     /\ r = be_val a /\ s = be_val b)
  \/ ((2 * field_size c < String.length sig)%nat /\ c_asn1 C sig = Some (r, s)).

(** [prim_ok C vm s msg sig]: the signature verifies under scheme [s] with the key of [vm]. *)
Definition prim_ok (C : cenv) (vm : vmeth) (s : scheme) (msg sig : string) : Prop :=
  match s with
  | S_Ed25519 => exists k, vm_key C vm None (KEd k) /\ String.length k = 32%nat /\ c_ed C k msg sig = true
  | S_RSA_PSS_256 => exists k, vm_key C vm None (KRsa k) /\ c_pss C k msg sig = true
  | S_RSA_PKCS1_256 => exists k, vm_key C vm None (KRsa k) /\ c_pkcs1 C k msg sig = true
  | S_ECDSA c h => exists c' pt r s', vm_key C vm (Some c) (KEc c' pt)
      /\ sig_rs C c sig r s' /\ c_ecdsa C c' pt h msg r s' = true
  | S_BBS => exists k, (match vm_jwk vm with Some j => c_jwkbytes C j = Some k | None => k = vm_value vm end)
      /\ c_bbs C k (split_lines msg) sig = true
  end.

(** the verification method types a raw (non-JWK) key may have for a scheme in JWTs *)
Definition jwt_vm_types (sc : scheme) (t : string) : Prop :=
  match sc with
  | S_Ed25519 => t = "Ed25519VerificationKey2018"
  | S_ECDSA Secp256k1 _ => t = "EcdsaSecp256k1VerificationKey2019"
  | S_RSA_PSS_256 | S_RSA_PKCS1_256 => t = "RsaVerificationKey2018"
  | _ => False
  end.

