(** Model of the functions that put a credential into an envelope: verifiable/credential.go CreateSignedJWTVC,
    CreateUnsecuredJWTVC, CreateSignedCOSEVC, ToJWTString, ToUniversalForm; credential_jws.go, jws.go, cose.go. *)
From Verif Require Import GoBase Base64 JwtSpec DiSpec VcSpec JwtModel SdSpec SdModel SdParse DiModel VcModel VcJwt VcParse.

(** Making tokens: libraries together with the proof creator of the call.
    [se_jws claims alg kid]: jwt/jwt.go:243-280 NewSigned and Serialize; the text and the protected headers.
    [se_unsec claims]: jwt/jwt.go:253-255 NewUnsecured and Serialize.
    [se_cose claims alg kid]: verifiable/cose.go:21-66 marshalCOSE; the bytes and the message. *)
Record senv := {
  se_alg : Z -> res string;                                             (* JWSAlgorithm.Name *)
  se_jws : gomap json -> string -> string -> res (string * headers);
  se_unsec : gomap json -> res string;
  se_cose : gomap json -> Z -> string -> res (string * coset);
  se_hex : string -> string                                             (* hex.EncodeToString *)
}.
Definition envelope (tok : string) (h : headers) : jenvelope :=
  {| je_jwt := tok; je_headers := h; je_discs := []; je_binding := "" |}.
(** credential.go:2362-2387 CreateSignedJWTVC, credential_jws.go:16-22, jws.go:17-40 *)
Definition create_signed_jwt (S : senv) (v : credential) (min : bool) (alg : Z) (kid : string) : res credential :=
  let* c := new_jwt_claims v min in
  let* a := se_alg S alg in
  let* th := se_jws S (claims_json c) a kid in
  Ok {| cr_json := to_raw_json v; cr_contents := cr_contents v; cr_proofs := cr_proofs v;
        cr_jwt := Some (envelope (fst th) (snd th)); cr_cwt := None |}.
(** credential.go:2417-2436 CreateUnsecuredJWTVC *)
Definition create_unsecured_jwt (S : senv) (v : credential) (min : bool) : res credential :=
  let* c := new_jwt_claims v min in
  let* tok := se_unsec S (claims_json c) in
  Ok {| cr_json := to_raw_json v; cr_contents := cr_contents v; cr_proofs := cr_proofs v;
        cr_jwt := Some (envelope tok []); cr_cwt := None |}.
(** credential_jwt.go:41-56 the members of the CBOR map of CWTCredClaims (ID is tagged "-", aud and cti are never set) *)
Definition cwt_claims_cbor (c : jclaims) : gomap json :=
  (opt_field "iss" (jc_iss c) ++ opt_field "sub" (jc_sub c) ++ date_member "exp" (jc_exp c)
   ++ date_member "nbf" (jc_nbf c) ++ date_member "iat" (jc_iat c)
   ++ match jc_vc c with Some ((_ :: _) as m) => [("vc", JObj m)] | _ => [] end)%list.
(** credential.go:2390-2414 CreateSignedCOSEVC *)
Definition create_signed_cose (S : senv) (v : credential) (alg : Z) (kid : string) : res credential :=
  let* c := new_cwt_claims v in
  let* rm := se_cose S (cwt_claims_cbor c) alg kid in
  Ok {| cr_json := match jc_vc c with Some m => m | None => [] end; cr_contents := cr_contents v; cr_proofs := cr_proofs v;
        cr_jwt := None; cr_cwt := Some {| ce_raw := fst rm; ce_msg := snd rm |} |}.

(** credential.go:945-962 ToJWTString for credentials without SD-JWT hash algorithm (the SD-JWT case is in VcSd.v);
    [sd]: MarshalWithDisclosure(DiscloseAll()) *)
Definition to_jwt_string (sd : credential -> res string) (v : credential) : res string :=
  match cr_jwt v with
  | None => Err "to jwt string can be called only for jwt vc"
  | Some je => match vc_sdalg (cr_contents v) with Some _ => sd v | None => Ok (je_jwt je) end
  end.
(** the result of ToUniversalForm: a string or a JSON object *)
Definition enveloped_object (media data : string) : gomap json :=
  [("id", JStr (new_data_url media "" data)); ("type", JArr [JStr enveloped_type]); ("@context", JArr [JStr v2_context])].
(** credential.go:995-1014 toEnvelopedForm, 896-910 Envelope.ToRawJSON *)
Definition to_enveloped (v : credential) (media data : string) : json :=
  if is_base_context (vc_context (cr_contents v)) v1_context then JStr data else JObj (enveloped_object media data).
(** credential.go:965-993 ToUniversalForm *)
Definition to_universal (S : senv) (sd : credential -> res string) (v : credential) : res json :=
  match cr_cwt v with
  | Some ce => Ok (to_enveloped v vc_media_cose (se_hex S (ce_raw ce)))
  | None =>
      match cr_jwt v with
      | Some je => let* s := to_jwt_string sd v in
                   Ok (to_enveloped v (match je_discs je with [] => vc_media_jwt | _ => vc_media_sdjwt end) s)
      | None => Ok (JObj (to_raw_json v))
      end
  end.
