(** Model of the signing side of package jwt: jwt/jwt.go:243-281 (NewSigned, NewUnsecured, NewJoseSigned), 77-87 (the unsecured signer), 188-193 (Serialize), 361-399 (PayloadToMap),
    jwt/jose_wrappers.go:16-47 (JoseSigner), jwt/signer.go, and of kms-go doc/jose (NewJWS, SerializeCompact, ParseJWS, IsCompactJWS), whose source is not in /repo:
    that part is modelled from the interface that jwt.go uses and from RFC 7515. *)
From Verif Require Import GoBase Base64 JwtSpec DiSpec VcSpec JwtModel SdSpec SdModel SdParse DiModel VcModel VcJwt VcParse CkModel.
From Verif Require LdModel.

(** encoding/json (and its go-jose fork).  [jl_marshal]: json.Marshal of a map (None: it fails); [jl_headers]: json.Unmarshal into jose.Headers;
    [jl_members]: the members of the object at the start of a text, duplicates included (null: no members); [jl_gstr]: gjson's String() of a value that is not a string.
    A nil map and an empty one are not told apart. *)
Record jlib := {
  jl_marshal : gomap json -> option string;
  jl_headers : string -> option headers;
  jl_members : string -> option (list (string * json));
  jl_gstr : json -> string
}.
Definition marshal (L : jlib) (m : gomap json) : res string := match jl_marshal L m with Some b => Ok b | None => Err "json: unsupported value" end.

(** jose.mergeHeaders: a new map with the members of [h2], then those of [h1] *)
Definition merge_headers (h1 h2 : headers) : headers := fold_left (fun h kv => mset h (fst kv) (snd kv)) h1 h2.
(** jose.signingInput (RFC 7515 5.1, RFC 7797: payload text as it is when b64 is false) *)
Definition signing_input (L : jlib) (h : headers) (p : string) : res string :=
  let* hb := marshal L h in
  let* b64 := match mget h "b64" with None => Ok true | Some (JBool b) => Ok b | Some _ => Err "invalid b64 header" end in
  Ok (b64_encode hb ++ String "." (if b64 then b64_encode p else p)).
(** jose.NewJWS: alg has to be there, then the signer signs the signing input; [signer]: Headers(), Sign *)
Definition new_jws (L : jlib) (protected : headers) (p : string) (signer : headers * (string -> res string)) : res jws :=
  let h := merge_headers protected (fst signer) in
  let* _ := guard (mhas h "alg") "alg JWS header is not defined" in
  let* i := signing_input L h p in
  let* s := snd signer i in
  Ok {| jws_headers := h; jws_payload := p; jws_input := i; jws_sig := s |}.
(** jwt.go:188-193 Serialize of a token that has a JWS, jose.SerializeCompact *)
Definition serialize (L : jlib) (j : jws) (detached : bool) : res string :=
  let* hb := marshal L (jws_headers j) in
  Ok (b64_encode hb ++ String "." ((if detached then "" else b64_encode (jws_payload j)) ++ String "." (b64_encode (jws_sig j)))).
(** jose.ParseJWS of the compact form up to the verifier; a detached payload of length 0 counts as none *)
Definition parse_compact (L : jlib) (tok : string) (det : option string) : res jws :=
  match split_on "." tok with
  | [a; b; c] =>
      let* hb := match b64_decode a with Some x => Ok x | None => Err "decode base64 header" end in
      let* h := match jl_headers L hb with Some x => Ok x | None => Err "unmarshal JSON headers" end in
      let* _ := guard (mhas h "alg") "alg JWS header is not defined" in
      let* p := match det with
                | Some (String x y) => Ok (String x y)
                | _ => match b64_decode b with Some x => Ok x | None => Err "decode base64 payload" end
                end in
      let* s := match b64_decode c with Some x => Ok x | None => Err "decode base64 signature" end in
      let* i := signing_input L h p in
      Ok {| jws_headers := h; jws_payload := p; jws_input := i; jws_sig := s |}
  | _ => Err "invalid JWS compact format"
  end.
(** jose.IsCompactJWS *)
Definition is_compact (tok : string) : bool := Nat.eqb (List.length (split_on "." tok)) 3.
(** the libraries that the reading side (JwtModel) is given *)
Definition lib_denv (L : jlib) : denv := {| de_compact := is_compact; de_jws := parse_compact L; de_members := jl_members L; de_gstr := jl_gstr L |}.

(** signer.go:14-18 SignParameters *)
Record sign_params := { sp_kid : string; sp_alg : string; sp_extra : headers }.
(** signer.go:23-28 ProofCreator *)
Record jcreator := { jc_sign : sign_params -> string -> res string; jc_heads : sign_params -> res headers }.
(** proof/creator/creator.go:164-171 SignJWT, 184-194 CreateJWTHeaders *)
Definition creator_jwt (c : LdModel.creator) : jcreator :=
  {| jc_sign := fun p d => LdModel.creator_sign_jwt c (sp_alg p) d; jc_heads := fun p => Ok (LdModel.creator_headers (sp_alg p) (sp_kid p)) |}.
(** what a caller hands over as claims: a map[string]interface{}; another map type; a text ([]byte, string); another value, with the text that json.Marshal gives *)
Inductive claims_in := CMap (m : gomap json) | COtherMap | CText (b : string) | CValue (t : option string).
(** jwt.go:361-399 PayloadToMap *)
Definition claims_map (L : jlib) (c : claims_in) : res (gomap json) :=
  match c with
  | CMap m => Ok m
  | COtherMap => Err "unsupported map value type"
  | CText b => payload_to_map (lib_denv L) b
  | CValue (Some b) => payload_to_map (lib_denv L) b
  | CValue None => Err "marshal interface"
  end.
(** jwt.go:257-281 NewJoseSigned *)
Definition new_jose_signed (L : jlib) (c : claims_in) (h : headers) (signer : headers * (string -> res string)) : res (token * jws) :=
  let* m := claims_map L c in
  let* b := marshal L m in
  let* j := new_jws L h b signer in
  Ok ({| tk_headers := jws_headers j; tk_payload := Some m |}, j).
(** jwt.go:243-250 NewSigned, jose_wrappers.go:16-47 NewJOSESigner, Sign, Headers *)
Definition new_signed (L : jlib) (c : claims_in) (p : sign_params) (k : jcreator) : res (token * jws) :=
  let* h := jc_heads k p in
  new_jose_signed L c (sp_extra p) (h, jc_sign k p).
(** jwt.go:77-87, 252-255 NewUnsecured *)
Definition new_unsecured (L : jlib) (c : claims_in) : res (token * jws) :=
  new_jose_signed L c [] ([("alg", JStr "none")], fun _ => Ok "").
