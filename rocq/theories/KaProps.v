(** Property theorems: choosing the algorithm for a key. *)
From Verif Require Import GoBase Base64 JwtSpec JwtModel JwtProofs JwtProps KaSpec KaModel.

(** ** C304  The JWS algorithm named for a key is one its signatures verify under: for every kind of signing key
    the library has a name, it stands for the key's own scheme, and a token whose header carries it and whose
    signature is valid for the key is accepted by the default proof checker. *)
Theorem C304_jws_named :
  forall k, (exists a, key_type_to_jws (Some k) = Ok a) <-> (exists sc, key_scheme k sc /\ sc <> S_BBS).
Proof.
  intros k. split.
  - intros [a H]. destruct k; try discriminate; (eexists; split; [constructor; cbn; tauto|discriminate]).
  - intros (sc & H & Hb). inversion H; subst; try congruence; try (eexists; reflexivity);
      cbn in H0; repeat (destruct H0 as [<-|H0]; [eexists; reflexivity|]); destruct H0.
Qed.
Theorem C304_jws_scheme :
  forall k a sc, key_type_to_jws (Some k) = Ok a -> key_scheme k sc -> exists alg, jws_name a = Ok alg /\ alg_scheme alg sc.
Proof.
  intros k a sc H Hs. inversion Hs; subst; try discriminate;
    try (injection H as <-; eexists; split; [reflexivity|constructor]);
    cbn in H0; repeat (destruct H0 as [<-|H0]; [injection H as <-; eexists; split; [reflexivity|constructor]|]); destruct H0.
Qed.
Theorem C304_jws_accepted :
  forall (C : cenv) (R : resolver) (h : headers) (iss msg sig kid alg : string) vm j k a sc,
    key_type_to_jws (Some k) = Ok a -> jws_name a = Ok alg -> key_scheme k sc ->
    (* the header names the key and the algorithm *)
    mget h "kid" = Some (JStr kid) -> mget h "alg" = Some (JStr alg) ->
    (* the key resolves to a JWK of its kind, and the signature is valid for it *)
    R kid iss = Ok vm -> vm_type vm = "JsonWebKey2020" -> vm_jwk vm = Some j -> scheme_jwk sc (jk_kty j) (jk_crv j) ->
    prim_ok C vm sc msg sig ->
    check_jwt_proof R default_jdescs (default_verifiers C) h iss msg sig = Ok tt.
Proof.
  intros C R h iss msg sig kid alg vm j k a sc Hk Hn Hs Hkid Halg HR Ht Hj Hjk Hp.
  destruct (C304_jws_scheme _ _ _ Hk Hs) as (alg' & Hn' & Has). assert (alg' = alg) by congruence. subst.
  eapply C31_complete; eauto.
Qed.
Example C304_example :
  key_type_to_jws (Some ECDSAk1DER) = Ok ECDSASecp256k1 /\ jws_name ECDSASecp256k1 = Ok "ES256K" /\
  is_err (key_type_to_jws (Some BLS12381G2Type)) = true /\ is_err (key_type_to_jws None) = true /\
  is_err (jws_name 7) = true /\ is_err (jws_name (-1)) = true /\
  (let j := {| jk_kty := "OKP"; jk_crv := "Ed25519"; jk_key := KEd ex_key |} in
   let R := fun _ _ => Ok (jwk_vm j) in
   check_jwt_proof R default_jdescs (default_verifiers ex_cenv) [("kid", JStr "k"); ("alg", JStr "EdDSA")] "i" "m" "sig:m" = Ok tt).
Proof. repeat split; reflexivity. Qed.
Print Assumptions C304_jws_named.
Print Assumptions C304_jws_scheme.
Print Assumptions C304_jws_accepted.

(** ** C305  The same for COSE: the number named for a key stands for the key's scheme, and a CWT that carries it and
    a valid signature is accepted by the default proof checker. *)
Theorem C305_cose_scheme :
  forall k n sc, key_type_to_cws (Some k) = Ok n -> key_scheme k sc -> cose_scheme n sc.
Proof.
  intros k n sc H Hs. destruct k; try discriminate; injection H as <-; inversion Hs; subst; try constructor;
    cbn in H; repeat (destruct H as [H|H]; [discriminate|]); destruct H.
Qed.
Theorem C305_cose_accepted :
  forall (C : cenv) (R : resolver) ck (kid iss msg sig : string) vm j k n sc,
    key_type_to_cws (Some k) = Ok n -> key_scheme k sc -> kid <> "" ->
    R kid iss = Ok vm -> vm_type vm = "JsonWebKey2020" -> vm_jwk vm = Some j -> scheme_jwk sc (jk_kty j) (jk_crv j) ->
    prim_ok C vm sc msg sig ->
    check_cwt_proof R default_jdescs (default_verifiers C) ck {| cw_kid := kid; cw_key := ""; cw_alg := n |} iss msg sig = Ok tt.
Proof.
  intros C R ck kid iss msg sig vm j k n sc Hk Hs Hkid HR Ht Hj Hjk Hp.
  assert (G : exists alg, alg_scheme alg sc /\ n <> 0%Z /\ forall d, supported_by_alg default_jdescs alg = Ok d -> supported_by_cose default_jdescs n = Ok d).
  { destruct k; try discriminate; injection Hk as <-; inversion Hs; subst;
      try (cbn in H; repeat (destruct H as [H|H]; [discriminate|]); destruct H);
      (eexists; split; [constructor|]; split; [discriminate|intros d Hd; exact Hd]). }
  destruct G as (alg & Ha & Hn & Hd). destruct (verify_with_complete C alg sc j vm msg sig Ha Ht Hj Hjk Hp) as (d & Hda & Hv).
  unfold check_cwt_proof. cbn [cw_kid cw_key cw_alg]. apply String.eqb_neq in Hkid. rewrite Hkid. cbn [andb negb guard bind].
  apply Z.eqb_neq in Hn. rewrite Hn. cbn [negb guard bind]. rewrite HR. cbn [bind]. rewrite (Hd d Hda). exact Hv.
Qed.
Example C305_example :
  let j := {| jk_kty := "OKP"; jk_crv := "Ed25519"; jk_key := KEd ex_key |} in
  key_type_to_cws (Some ED25519Type) = Ok (-8)%Z /\
  check_cwt_proof (fun _ _ => Ok (jwk_vm j)) default_jdescs (default_verifiers ex_cenv) (fun _ => Err "x")
    {| cw_kid := "k"; cw_key := ""; cw_alg := -8 |} "did:a" "m" "sig:m" = Ok tt.
Proof. split; reflexivity. Qed.
Print Assumptions C305_cose_scheme.
Print Assumptions C305_cose_accepted.

(** ** C306 (refuted)  The names ought to be the registered ones.  For P-521 keys the library writes "ES521" instead of
    "ES512" (RFC 7518), and refuses every token that uses the registered name. *)
Theorem C306_registered_name_refuted :
  ~ (forall k a alg sc, key_type_to_jws (Some k) = Ok a -> jws_name a = Ok alg -> key_scheme k sc -> registered_jws alg sc).
Proof.
  intros H. specialize (H ECDSAP521IEEE _ "ES521" (S_ECDSA P521 SHA512) eq_refl eq_refl). assert (X : registered_jws "ES521" (S_ECDSA P521 SHA512)).
  { apply H. constructor. now left. } inversion X.
Qed.
(** exactly there: every other key gets the registered name *)
Theorem C306_other_names_refuted :
  forall k a alg sc, key_type_to_jws (Some k) = Ok a -> jws_name a = Ok alg -> key_scheme k sc ->
    (registered_jws alg sc <-> k <> ECDSAP521IEEE /\ k <> ECDSAP521DER).
Proof.
  intros k a alg sc H Hn Hs.
  destruct k; try discriminate; injection H as <-; injection Hn as <-; inversion Hs; subst;
    try (cbn in H; repeat (destruct H as [H|H]; [discriminate|]); destruct H);
    (split; [intros X; inversion X; subst; split; discriminate|intros [H1 H2]; try congruence; constructor]).
Qed.
(** a token with the registered name is refused, whatever its key and signature *)
Theorem C306_registered_name_refused_refuted :
  forall (C : cenv) (R : resolver) (h : headers) (iss msg sig : string),
    mget h "alg" = Some (JStr "ES512") -> check_jwt_proof R default_jdescs (default_verifiers C) h iss msg sig <> Ok tt.
Proof.
  intros C R h iss msg sig Ha H. unfold check_jwt_proof, h_alg, h_str in H. rewrite Ha in H.
  destruct (h_kid h) as [kid|]; [|discriminate]. destruct (R kid iss) as [vm| |]; discriminate.
Qed.
Example C306_example :
  key_type_to_jws (Some ECDSAP521DER) = Ok ECDSASecp521r1 /\ jws_name ECDSASecp521r1 = Ok "ES521" /\
  supported_by_alg default_jdescs "ES512" = Err "unsupported jwt alg".
Proof. repeat split. Qed.
Print Assumptions C306_registered_name_refuted.
Print Assumptions C306_other_names_refuted.
Print Assumptions C306_registered_name_refused_refuted.

(** ** C307 (refuted)  Every key a JWT can be signed with should have a COSE algorithm too.  secp256k1 (ES256K, -47) and
    P-521 (ES512, -36) keys have none: naming fails, and a CWT with the registered number is refused. *)
Theorem C307_no_cose_refuted :
  forall k a, key_type_to_jws (Some k) = Ok a ->
    (is_err (key_type_to_cws (Some k)) = true <-> In k [ECDSAk1IEEE; ECDSAk1DER; ECDSAP521IEEE; ECDSAP521DER]).
Proof.
  intros k a H. destruct k; try discriminate; cbn; split; intros X; try discriminate; try tauto;
    repeat (destruct X as [X|X]; [discriminate|]); destruct X.
Qed.
Theorem C307_refused_refuted :
  forall (C : cenv) (R : resolver) ck q (iss msg sig : string),
    cw_alg q = (-47)%Z \/ cw_alg q = (-36)%Z ->
    check_cwt_proof R default_jdescs (default_verifiers C) ck q iss msg sig <> Ok tt.
Proof.
  intros C R ck q iss msg sig Hq H. apply C62_cwt_agree in H as (vm & sc & Hs & _). destruct Hq as [Hq|Hq]; rewrite Hq in Hs; inversion Hs.
Qed.
Example C307_example :
  key_type_to_jws (Some ECDSAk1IEEE) = Ok ECDSASecp256k1 /\ key_type_to_cws (Some ECDSAk1IEEE) = Err "unsupported key type".
Proof. split; reflexivity. Qed.
Print Assumptions C307_no_cose_refuted.
Print Assumptions C307_refused_refuted.
