(** Property theorems: JWT parsing, proof checkers, key resolution. *)
From Verif Require Import GoBase JwtSpec JwtModel StrLemmas JwtProofs.

(** ** C29  A verified JWT was checked against its own issuer and exact bytes. *)
Theorem C29_checked_bytes :
  forall (E : denv) (tok : string) (pc : proof_checker) (det : option string) dest t pl,
    parse_and_check E tok pc true det false dest = Ok (t, pl) ->
    exists j m iss,
      (* the one JWS that the token denotes *)
      de_jws E tok det = Ok j
      (* what is returned is that JWS's header and payload *)
      /\ tk_headers t = jws_headers j /\ pl = jws_payload j
      /\ tk_payload t = Some m /\ de_members E (jws_payload j) = Some m
      (* the issuer claim of exactly this payload, the only one it has *)
      /\ mget m "iss" = Some iss /\ (forall v, In ("iss", v) m -> v = iss)
      (* was passed to the checker together with exactly this header, signing input and signature *)
      /\ pc (jws_headers j) (gjson_string E iss) (jws_input j) (jws_sig j) = Ok tt
      /\ (forall s, iss = JStr s -> gjson_string E iss = s).
Proof.
  intros E tok pc det dest t pl H.
  destruct (parse_and_check_inv _ _ _ _ _ _ _ _ _ H) as (j & _ & Hj & _ & Hh & Hpl & Hm & _ & Hi & _).
  destruct (Hm eq_refl) as (m & Hm1 & Hnd & Hm2). destruct (Hi eq_refl) as (v & Hv & Hc).
  unfold gjson_get in Hv. rewrite Hm2 in Hv. subst pl.
  exists j, m, v. repeat split; auto.
  - intros v' Hin. apply (mget_In_nodup m "iss" v' Hnd) in Hin. congruence.
  - intros s ->. reflexivity.
Qed.
Example C29_example :
  let j := {| jws_headers := [("alg", JStr "EdDSA"); ("kid", JStr "did:a#1")]; jws_payload := "P"; jws_input := "H.P"; jws_sig := "S" |} in
  let E := {| de_compact := fun _ => true; de_jws := fun _ _ => Ok j;
              de_members := fun _ => Some [("sub", JStr "x"); ("iss", JStr "did:a")]; de_gstr := fun _ => "" |} in
  parse_and_check E "H.P.S" (fun _ i m s => guard (String.eqb i "did:a" && String.eqb m "H.P" && String.eqb s "S") "no")
    true None false (fun _ => true)
  = Ok ({| tk_headers := jws_headers j; tk_payload := Some [("sub", JStr "x"); ("iss", JStr "did:a")] |}, "P").
Proof. reflexivity. Qed.
Print Assumptions C29_checked_bytes.

(** ** C30  JWT header policy. *)
Theorem C30_header_policy :
  forall h : headers,
    (forall t, mget h "typ" = Some (JStr t) -> at_most_one_plus t) ->
    (check_headers h = Ok tt <->
       mget h "alg" <> None
       /\ (mget h "typ" = None \/ exists t, mget h "typ" = Some (JStr t) /\ jwt_type_ok t)
       /\ mget h "cty" <> Some (JStr "JWT")).
Proof. exact check_headers_iff. Qed.
(** every parsed JWT satisfies the policy check *)
Theorem C30_parse_enforces :
  forall E tok det ign dest t pl, jwt_parse E tok det ign dest = Ok (t, pl) -> check_headers (tk_headers t) = Ok tt.
Proof.
  intros E tok det ign dest t pl H. unfold jwt_parse in H.
  apply bind_ok in H as (? & _ & H). unfold parse_jwt in H. apply bind_ok in H as (j & _ & H).
  unfold map_jws in H. apply bind_ok in H as ([] & Hh & H). apply bind_ok in H as (? & _ & H).
  apply bind_ok in H as (? & _ & H). injection H as <- _. exact Hh.
Qed.
Example C30_example :
  check_headers [("alg", JStr "ES256"); ("typ", JStr "vc+sd-jwt")] = Ok tt /\
  check_headers [("alg", JStr "ES256"); ("typ", JStr "jwt")] = Err "typ is not JWT" /\
  check_headers [("typ", JStr "JWT")] = Err "alg header is not defined" /\
  check_headers [("alg", JStr "ES256"); ("cty", JStr "JWT")] = Err "nested JWT is not supported".
Proof. repeat split. Qed.
Print Assumptions C30_header_policy.
Print Assumptions C30_parse_enforces.

(** ** C60 (refuted)  A type with more than one '+' is judged by its second chunk, not by its ending. *)
Theorem C60_typ_ending_refuted :
  forall p rest : string, no_char plus p ->
    check_headers [("alg", JStr "ES256"); ("typ", JStr (p ++ "+jwt+" ++ rest))] = Ok tt.
Proof.
  intros p rest Hp.
  assert (Hs : split_on plus (p ++ "+jwt+" ++ rest) = p :: "jwt" :: split_on plus rest).
  { change (p ++ "+jwt+" ++ rest) with (p ++ String plus ("jwt" ++ String plus rest)).
    rewrite split_on_app by exact Hp. rewrite split_on_app; [reflexivity|].
    unfold free_of, char_in. simpl. intuition discriminate. }
  set (t := p ++ "+jwt+" ++ rest) in *.
  change (check_headers [("alg", JStr "ES256"); ("typ", JStr t)]) with (let* _ := check_typ_header (JStr t) in Ok tt).
  unfold check_typ_header. change (split_on "+" t) with (split_on plus t). rewrite Hs. reflexivity.
Qed.
Example C60_example : check_headers [("alg", JStr "ES256"); ("typ", JStr "a+jwt+xml")] = Ok tt
  /\ ~ jwt_type_ok "a+jwt+xml".
Proof.
  split; [reflexivity|]. intros [H|(p & s & He & Hp & Hs & _)]; [discriminate|].
  assert (Hsp : split_on plus "a+jwt+xml" = split_on plus (p ++ "+" ++ s)) by now rewrite He.
  rewrite split_plus_one in Hsp by assumption. discriminate.
Qed.
Print Assumptions C60_typ_ending_refuted.

(** ** C31  Algorithm, key type and verifier always agree. *)
Theorem C31_alg_key_agree :
  forall (C : cenv) (R : resolver) (h : headers) (iss msg sig : string),
    check_jwt_proof R default_jdescs (default_verifiers C) h iss msg sig = Ok tt ->
    exists kid alg vm sc,
      mget h "kid" = Some (JStr kid) /\ mget h "alg" = Some (JStr alg)
      /\ R kid iss = Ok vm
      /\ alg_scheme alg sc
      /\ prim_ok C vm sc msg sig
      /\ (forall j, vm_jwk vm = Some j -> scheme_jwk sc (jk_kty j) (jk_crv j))
      /\ (vm_jwk vm = None -> jwt_vm_types sc (vm_type vm)).
Proof.
  intros C R h iss msg sig H. unfold check_jwt_proof, h_kid, h_alg, h_str in H.
  destruct (mget h "kid") as [[| | |kid| | ]|]; try discriminate.
  destruct (mget h "alg") as [[| | |alg| | ]|]; try discriminate.
  apply bind_ok in H as (vm & Hvm & H). apply bind_ok in H as (d & Hd & H).
  destruct (check_jwt_tail _ _ _ _ _ _ Hd H) as (sc & H1 & H2 & H3 & H4).
  exists kid, alg, vm, sc. auto 10.
Qed.
(** ... and the scheme is a function of the header's alg value *)
Theorem C31_scheme_unique : forall a s1 s2, alg_scheme a s1 -> alg_scheme a s2 -> s1 = s2.
Proof. exact alg_scheme_fun. Qed.
(** conversely a JWK of the right type whose signature verifies under the alg's scheme is accepted *)
Theorem C31_complete :
  forall (C : cenv) (R : resolver) (h : headers) (iss msg sig kid alg : string) vm j sc,
    mget h "kid" = Some (JStr kid) -> mget h "alg" = Some (JStr alg) -> R kid iss = Ok vm ->
    vm_type vm = "JsonWebKey2020" -> vm_jwk vm = Some j ->
    alg_scheme alg sc -> scheme_jwk sc (jk_kty j) (jk_crv j) -> prim_ok C vm sc msg sig ->
    check_jwt_proof R default_jdescs (default_verifiers C) h iss msg sig = Ok tt.
Proof.
  intros C R h iss msg sig kid alg vm j sc Hk Ha HR Ht Hj Hs Hjk Hp.
  unfold check_jwt_proof, h_kid, h_alg, h_str. rewrite Hk, Ha, HR. cbn [bind].
  destruct (verify_with_complete C alg sc j vm msg sig Hs Ht Hj Hjk Hp) as (d & -> & Hv). exact Hv.
Qed.
(** the checker used for a key embedded in the token (cnf.jwk) *)
Theorem C31_embedded :
  forall (C : cenv) (j : jwk) (h : headers) (iss msg sig : string),
    check_jwt_embedded (jwk_vm j) default_jdescs (default_verifiers C) h iss msg sig = Ok tt ->
    exists alg sc, mget h "alg" = Some (JStr alg) /\ alg_scheme alg sc
      /\ scheme_jwk sc (jk_kty j) (jk_crv j) /\ prim_ok C (jwk_vm j) sc msg sig.
Proof.
  intros C j h iss msg sig H. unfold check_jwt_embedded, h_alg, h_str in H.
  destruct (mget h "alg") as [[| | |alg| | ]|]; try discriminate.
  apply bind_ok in H as (d & Hd & H).
  destruct (check_jwt_tail _ _ _ _ _ _ Hd H) as (sc & H1 & H2 & H3 & _). exists alg, sc. auto.
Qed.
Definition ex_cenv : cenv :=
  {| c_ed := fun k m s => String.eqb s ("sig:" ++ m); c_ecdsa := fun _ _ _ _ _ _ => false; c_pss := fun _ _ _ => false;
     c_pkcs1 := fun _ _ _ => false; c_bbs := fun _ _ _ => false; c_point := fun _ _ => None; c_rsakey := fun _ => None;
     c_asn1 := fun _ => None; c_jwkbytes := fun _ => None |}.
Definition ex_key : string := "0123456789abcdef0123456789abcdef".
Example C31_example :
  let vm := {| vm_type := "JsonWebKey2020"; vm_value := ""; vm_jwk := Some {| jk_kty := "OKP"; jk_crv := "Ed25519"; jk_key := KEd ex_key |} |} in
  let R := fun k i => if String.eqb k "did:a#1" && String.eqb i "did:a" then Ok vm else Err "x" in
  check_jwt_proof R default_jdescs (default_verifiers ex_cenv)
    [("alg", JStr "EdDSA"); ("kid", JStr "did:a#1")] "did:a" "m" "sig:m" = Ok tt /\
  is_err (check_jwt_proof R default_jdescs (default_verifiers ex_cenv)
    [("alg", JStr "ES256"); ("kid", JStr "did:a#1")] "did:a" "m" "sig:m") = true.
Proof. split; reflexivity. Qed.
Print Assumptions C31_alg_key_agree.
Print Assumptions C31_scheme_unique.
Print Assumptions C31_complete.
Print Assumptions C31_embedded.

(** ** C61  Linked-data proofs: the proof type, key and scheme agree. *)
Theorem C61_ld_agree :
  forall (C : cenv) (R : resolver) (ptype : string) (pkid : res string) (iss msg sig : string),
    check_ld_proof R default_ldescs (fun _ => None) (default_verifiers C) ptype pkid iss msg sig = Ok tt ->
    exists k vm sc, pkid = Ok k /\ R k iss = Ok vm /\ ld_scheme ptype sc /\ prim_ok C vm sc msg sig
      /\ (forall j, vm_jwk vm = Some j -> scheme_jwk sc (jk_kty j) (jk_crv j)).
Proof. exact check_ld_ok. Qed.
Example C61_example :
  let vm := {| vm_type := "Ed25519VerificationKey2018"; vm_value := ex_key; vm_jwk := None |} in
  check_ld_proof (fun _ _ => Ok vm) default_ldescs (fun _ => None) (default_verifiers ex_cenv) "Ed25519Signature2018"
    (Ok "did:a#1") "did:a" "m" "sig:m" = Ok tt.
Proof. reflexivity. Qed.
Print Assumptions C61_ld_agree.

(** ** C62  CWT proofs: COSE algorithm, key and scheme agree; an embedded COSE key never satisfies an expected issuer. *)
Theorem C62_cwt_agree :
  forall (C : cenv) (R : resolver) ck (q : cwt_req) (iss msg sig : string),
    check_cwt_proof R default_jdescs (default_verifiers C) ck q iss msg sig = Ok tt ->
    exists vm sc, cose_scheme (cw_alg q) sc /\ prim_ok C vm sc msg sig
      /\ (forall j, vm_jwk vm = Some j -> scheme_jwk sc (jk_kty j) (jk_crv j))
      /\ ((cw_kid q <> "" /\ R (cw_kid q) iss = Ok vm)
          \/ (cw_kid q = "" /\ iss = "" /\ exists j kt, ck (cw_key q) = Ok (j, kt) /\ vm_jwk vm = Some j)).
Proof. exact check_cwt_ok. Qed.
Example C62_example :
  let j := {| jk_kty := "OKP"; jk_crv := "Ed25519"; jk_key := KEd ex_key |} in
  check_cwt_proof (fun _ _ => Err "x") default_jdescs (default_verifiers ex_cenv) (fun _ => Ok (j, ED25519Type))
    {| cw_kid := ""; cw_key := "00"; cw_alg := -8 |} "" "m" "sig:m" = Ok tt /\
  is_err (check_cwt_proof (fun _ _ => Err "x") default_jdescs (default_verifiers ex_cenv) (fun _ => Ok (j, ED25519Type))
    {| cw_kid := ""; cw_key := "00"; cw_alg := -8 |} "did:a" "m" "sig:m") = true.
Proof. split; reflexivity. Qed.
Print Assumptions C62_cwt_agree.

(** ** C63  ECDSA signatures are read as exactly two big-endian field elements or as DER, by length alone. *)
Theorem C63_framing :
  forall (C : cenv) (p : ecpar) (sig : string) (r s : N),
    In p [ec_secp256k1; ec_es256; ec_es384; ec_es521] ->
    (ec_parse_sig C p sig = Ok (r, s) <-> sig_rs C (ec_curve p) sig r s).
Proof.
  intros C p sig r s [<-|[<-|[<-|[<-|[]]]]]; now apply ec_parse_sig_iff.
Qed.
(** raw signatures are unique: two different raw signatures of the same curve denote different pairs *)
Theorem C63_raw_unique :
  forall (C : cenv) (p : ecpar) (s1 s2 : string) rs,
    String.length s1 = (2 * ec_size p)%nat -> String.length s2 = (2 * ec_size p)%nat ->
    ec_parse_sig C p s1 = Ok rs -> ec_parse_sig C p s2 = Ok rs -> s1 = s2.
Proof.
  intros C p s1 s2 [r s] L1 L2. unfold ec_parse_sig. rewrite L1, L2, !Nat.ltb_irrefl.
  intros [= H1 H2] [= H3 H4].
  rewrite <- (str_take_drop (ec_size p) s1), <- (str_take_drop (ec_size p) s2). f_equal.
  - apply be_inj; [rewrite !str_take_length by lia; reflexivity|congruence].
  - apply be_inj; [rewrite !str_drop_length; lia|congruence].
Qed.
Example C63_example :
  ec_parse_sig ex_cenv ec_es256 "00000000000000000000000000000000abcdefghabcdefghabcdefghabcdefgh"
  = Ok (be_val "00000000000000000000000000000000", be_val "abcdefghabcdefghabcdefghabcdefgh")
  /\ is_err (ec_parse_sig ex_cenv ec_es256 "short") = true.
Proof. split; reflexivity. Qed.
Print Assumptions C63_framing.
Print Assumptions C63_raw_unique.

(** ** C64 (refuted)  A DER signature is not unique: whatever bytes are appended, it is still accepted.
    (asn1.Unmarshal returns the unread rest and the code drops it.) *)
Theorem C64_der_trailing_refuted :
  forall (C : cenv) (p : ecpar) (sig msg extra : string) (pk : pubkey),
    (forall a b rs, c_asn1 C a = Some rs -> c_asn1 C (a ++ b) = Some rs) ->
    (2 * ec_size p < String.length sig)%nat ->
    ec_verify C p sig msg pk = Ok tt -> ec_verify C p (sig ++ extra) msg pk = Ok tt.
Proof.
  intros C p sig msg extra pk Hasn Hl H. unfold ec_verify in *.
  apply bind_ok in H as (k & -> & H). apply bind_ok in H as (rs & Hs & H). cbn [bind].
  unfold ec_parse_sig in *. rewrite append_length.
  destruct (Nat.ltb_spec (String.length sig) (2 * ec_size p)); [lia|].
  destruct (Nat.ltb_spec (2 * ec_size p) (String.length sig)); [|lia].
  destruct (Nat.ltb_spec (String.length sig + String.length extra) (2 * ec_size p)); [lia|].
  destruct (Nat.ltb_spec (2 * ec_size p) (String.length sig + String.length extra)); [|lia].
  destruct (c_asn1 C sig) as [rs'|] eqn:E; [|discriminate]. injection Hs as ->.
  rewrite (Hasn _ _ _ E). exact H.
Qed.
Definition c64_env : cenv :=
  {| c_ed := fun k m s => false; c_ecdsa := fun _ _ _ _ r s => N.eqb r 1 && N.eqb s 2; c_pss := fun _ _ _ => false;
     c_pkcs1 := fun _ _ _ => false; c_bbs := fun _ _ _ => false; c_point := fun _ _ => None; c_rsakey := fun _ => None;
     c_asn1 := fun s => if has_prefix "DER" s then Some (1%N, 2%N) else None; c_jwkbytes := fun _ => None |}.
Example C64_example :
  let sig := "DER..............................................................." in
  let pk := {| pk_type := ECDSAP256DER; pk_bytes := None; pk_jwk := Some {| jk_kty := "EC"; jk_crv := "P-256"; jk_key := KEc P256 "pt" |} |} in
  (forall a b rs, c_asn1 c64_env a = Some rs -> c_asn1 c64_env (a ++ b) = Some rs)
  /\ ec_verify c64_env ec_es256 sig "m" pk = Ok tt /\ ec_verify c64_env ec_es256 (sig ++ "junk") "m" pk = Ok tt.
Proof.
  split; [|split; reflexivity]. intros a b rs. unfold c64_env, c_asn1.
  destruct (has_prefix "DER" a) eqn:E; [|discriminate]. apply has_prefix_inv in E as (t & ->).
  rewrite append_assoc_s, has_prefix_app. auto.
Qed.
Print Assumptions C64_der_trailing_refuted.

(** ** C32  Keys are taken only from the expected controller's document. *)
Theorem C32_controller_document :
  forall (resolve : string -> res diddoc) (kid controller : string) vm,
    vdr_resolve resolve kid controller = Ok vm ->
    exists doc v g, resolve controller = Ok doc /\ In g doc /\ In v g
      /\ vf_id v = kid /\ vf_rel v <> RKeyAgreement /\ vf_vm v = vm.
Proof. exact vdr_resolve_ok. Qed.
Theorem C32_otherwise_error :
  forall (resolve : string -> res diddoc) (kid controller : string) doc,
    resolve controller = Ok doc ->
    (forall g v, In g doc -> In v g -> vf_id v = kid -> vf_rel v = RKeyAgreement) ->
    is_err (vdr_resolve resolve kid controller) = true.
Proof. exact vdr_resolve_none. Qed.
(** composed with the checkers: the key that verified a JWT sits in the document of the expected issuer *)
Theorem C32_jwt_key_origin :
  forall (C : cenv) resolve (h : headers) (iss msg sig : string),
    check_jwt_proof (vdr_resolve resolve) default_jdescs (default_verifiers C) h iss msg sig = Ok tt ->
    exists doc v g kid alg sc, resolve iss = Ok doc /\ In g doc /\ In v g /\ vf_id v = kid
      /\ mget h "kid" = Some (JStr kid) /\ vf_rel v <> RKeyAgreement
      /\ mget h "alg" = Some (JStr alg) /\ alg_scheme alg sc /\ prim_ok C (vf_vm v) sc msg sig.
Proof.
  intros C resolve h iss msg sig H.
  apply C31_alg_key_agree in H as (kid & alg & vm & sc & Hk & Ha & HR & Hs & Hp & _).
  apply vdr_resolve_ok in HR as (doc & v & g & H1 & H2 & H3 & H4 & H5 & <-).
  exists doc, v, g, kid, alg, sc. auto 12.
Qed.
Example C32_example :
  let vm := {| vm_type := "JsonWebKey2020"; vm_value := ""; vm_jwk := None |} in
  let doc := [[{| vf_rel := RKeyAgreement; vf_id := "did:a#2"; vf_vm := vm |}];
              [{| vf_rel := RAssertion; vf_id := "did:a#1"; vf_vm := vm |}]] in
  vdr_resolve (fun _ => Ok doc) "did:a#1" "did:a" = Ok vm /\
  is_err (vdr_resolve (fun _ => Ok doc) "did:a#2" "did:a") = true.
Proof. split; reflexivity. Qed.
Print Assumptions C32_controller_document.
Print Assumptions C32_otherwise_error.
Print Assumptions C32_jwt_key_origin.

(** ** C65 (refuted)  The relationship of the key to its controller is not checked: a key that the issuer's
    document lists for authentication only is accepted for any JWT proof, a credential's included. *)
Theorem C65_purpose_refuted :
  forall (C : cenv) resolve (h : headers) (iss msg sig kid alg : string) vm j sc,
    resolve iss = Ok [[{| vf_rel := RAuthentication; vf_id := kid; vf_vm := vm |}]] ->
    mget h "kid" = Some (JStr kid) -> mget h "alg" = Some (JStr alg) ->
    vm_type vm = "JsonWebKey2020" -> vm_jwk vm = Some j ->
    alg_scheme alg sc -> scheme_jwk sc (jk_kty j) (jk_crv j) -> prim_ok C vm sc msg sig ->
    check_jwt_proof (vdr_resolve resolve) default_jdescs (default_verifiers C) h iss msg sig = Ok tt.
Proof.
  intros C resolve h iss msg sig kid alg vm j sc Hr Hk Ha Ht Hj Hs Hjk Hp.
  eapply C31_complete; eauto. unfold vdr_resolve. rewrite Hr. cbn. now rewrite String.eqb_refl.
Qed.
Example C65_example :
  let vm := {| vm_type := "JsonWebKey2020"; vm_value := ""; vm_jwk := Some {| jk_kty := "OKP"; jk_crv := "Ed25519"; jk_key := KEd ex_key |} |} in
  check_jwt_proof (vdr_resolve (fun _ => Ok [[{| vf_rel := RAuthentication; vf_id := "did:a#1"; vf_vm := vm |}]]))
    default_jdescs (default_verifiers ex_cenv)
    [("alg", JStr "EdDSA"); ("kid", JStr "did:a#1")] "did:a" "m" "sig:m" = Ok tt.
Proof. reflexivity. Qed.
Print Assumptions C65_purpose_refuted.

(** ** C66  Blank-node placeholders: the transformation never panics, turns the first placeholder of a row
    back into its blank-node label and leaves rows without placeholder alone. *)
Theorem C66_no_panic : forall row, transform_blank row <> Panic.
Proof. exact transform_no_panic. Qed.
Theorem C66_first_placeholder :
  forall pre k suf,
    str_index "<urn:bnid:_:c14n" (pre ++ "<urn:bnid:_:c14n" ++ k ++ ">" ++ suf) = Some (String.length pre) ->
    free_of ">" k ->
    transform_blank (pre ++ "<urn:bnid:_:c14n" ++ k ++ ">" ++ suf) = Ok (pre ++ "_:c14n" ++ k ++ suf).
Proof. exact transform_correct. Qed.
Theorem C66_no_placeholder :
  forall row, str_index "<urn:bnid:_:c14n" row = None -> transform_blank row = Ok row.
Proof. exact transform_no_ph. Qed.
Example C66_example :
  transform_blank "<did:a> <urn:p> <urn:bnid:_:c14n0> ." = Ok "<did:a> <urn:p> _:c14n0 .".
Proof. reflexivity. Qed.
Print Assumptions C66_no_panic.
Print Assumptions C66_first_placeholder.
Print Assumptions C66_no_placeholder.

(** ** C67 (refuted)  A second placeholder in the same row stays a placeholder. *)
Theorem C67_second_placeholder_refuted :
  forall k mid k2 suf, free_of ">" k ->
    transform_blank ("<urn:bnid:_:c14n" ++ k ++ ">" ++ mid ++ "<urn:bnid:_:c14n" ++ k2 ++ ">" ++ suf)
    = Ok ("_:c14n" ++ k ++ mid ++ "<urn:bnid:_:c14n" ++ k2 ++ ">" ++ suf).
Proof.
  intros k mid k2 suf Hk.
  apply (transform_correct "" k (mid ++ "<urn:bnid:_:c14n" ++ k2 ++ ">" ++ suf)); [|exact Hk]. reflexivity.
Qed.
Example C67_example :
  transform_blank "<urn:bnid:_:c14n0> <urn:p> <urn:bnid:_:c14n1> ." = Ok "_:c14n0 <urn:p> <urn:bnid:_:c14n1> .".
Proof. reflexivity. Qed.
Print Assumptions C67_second_placeholder_refuted.

(** ** C68  Without an expected issuer the key must come from the DID named by the key id. *)
Theorem C68_kid_did :
  forall (E : denv) (C : cenv) resolve (tok : string) (det : option string),
    check_proof E tok (check_jwt_proof (vdr_resolve resolve) default_jdescs (default_verifiers C)) None det = Ok tt ->
    exists j kid alg did doc v g sc, de_jws E tok det = Ok j
      /\ mget (jws_headers j) "alg" = Some (JStr alg) /\ alg_scheme alg sc
      /\ mget (jws_headers j) "kid" = Some (JStr kid)
      /\ (exists rest, kid = did ++ rest /\ (rest = "" \/ exists r, rest = "#" ++ r)) /\ no_char "#" did
      /\ resolve did = Ok doc /\ In g doc /\ In v g /\ vf_id v = kid
      /\ prim_ok C (vf_vm v) sc (jws_input j) (jws_sig j).
Proof.
  intros E C resolve tok det H. unfold check_proof in H. apply bind_ok in H as (j & Hj & H).
  unfold jose_verify in H. apply bind_ok in H as (iss & Hi & H).
  destruct (h_kid (jws_headers j)) as [kid|] eqn:Ek; [|discriminate]. injection Hi as <-.
  apply C32_jwt_key_origin in H as (doc & v & g & kid' & alg & sc & H1 & H2 & H3 & H4 & H5 & _ & Ha & Hs & H6).
  unfold h_kid, h_str in Ek. rewrite H5 in Ek. injection Ek as ->.
  pose proof (concat_split_on "#" kid) as Hc. pose proof (split_on_parts "#" kid) as Hp.
  destruct (split_on "#" kid) as [|did rest] eqn:Es; [now apply split_on_nonempty in Es|].
  cbn [hd] in H1. pose proof (Forall_inv Hp) as Hd.
  exists j, kid, alg, did, doc, v, g, sc. repeat split; auto.
  destruct rest as [|x rest].
  - exists "". split; [|now left]. cbn in Hc. rewrite append_nil_r. congruence.
  - exists ("#" ++ String.concat "#" (x :: rest)). split; [rewrite <- Hc; reflexivity|right; eauto].
Qed.
Example C68_example :
  let vm := {| vm_type := "JsonWebKey2020"; vm_value := ""; vm_jwk := Some {| jk_kty := "OKP"; jk_crv := "Ed25519"; jk_key := KEd ex_key |} |} in
  let j := {| jws_headers := [("alg", JStr "EdDSA"); ("kid", JStr "did:a#1")]; jws_payload := "P"; jws_input := "H.P"; jws_sig := "sig:H.P" |} in
  let E := {| de_compact := fun _ => true; de_jws := fun _ _ => Ok j; de_members := fun _ => None; de_gstr := fun _ => "" |} in
  check_proof E "t" (check_jwt_proof (vdr_resolve (fun d => if String.eqb d "did:a"
      then Ok [[{| vf_rel := RAuthentication; vf_id := "did:a#1"; vf_vm := vm |}]] else Err "x"))
    default_jdescs (default_verifiers ex_cenv)) None None = Ok tt.
Proof. reflexivity. Qed.
Print Assumptions C68_kid_did.
