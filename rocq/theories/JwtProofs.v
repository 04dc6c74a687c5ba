(** Lemmas about the JWT / proof checker model. *)
From Verif Require Import GoBase JwtSpec JwtModel StrLemmas.

(** ** PayloadToMap / gjson agreement *)
Lemma nodup_str_spec l : nodup_str l = true <-> NoDup l.
Proof.
  induction l as [|x xs IH]; simpl; [split; [constructor|reflexivity]|].
  rewrite andb_true_iff, negb_true_iff, str_in_nIn, IH.
  split; [intros [? ?]; now constructor|inversion 1; auto].
Qed.

(** ** ParseAndCheckProof *)
Lemma parse_and_check_inv E tok pc ci det ign dest t pl :
  parse_and_check E tok pc ci det ign dest = Ok (t, pl) ->
  exists j, de_compact E tok = true /\ de_jws E tok det = Ok j
    /\ check_headers (jws_headers j) = Ok tt
    /\ tk_headers t = jws_headers j /\ pl = jws_payload j
    /\ (ign = false -> exists m, tk_payload t = Some m /\ NoDup (map fst m) /\ de_members E pl = Some m)
    /\ dest pl = true
    /\ (ci = true -> exists v, gjson_get E pl "iss" = Some v
          /\ pc (jws_headers j) (gjson_string E v) (jws_input j) (jws_sig j) = Ok tt)
    /\ (ci = false -> exists kid, h_kid (jws_headers j) = Some kid
          /\ pc (jws_headers j) (hd "" (split_on "#" kid)) (jws_input j) (jws_sig j) = Ok tt).
Proof.
  unfold parse_and_check. intros H.
  apply bind_ok in H as ([t' pl'] & Hp & H).
  apply bind_ok in H as (ex & Hex & H).
  apply bind_ok in H as (u & Hc & H). injection H as -> ->.
  unfold jwt_parse in Hp. apply bind_ok in Hp as (u1 & Hcm & Hp).
  unfold guard in Hcm. destruct (de_compact E tok) eqn:Ec; [|discriminate].
  unfold parse_jwt in Hp. apply bind_ok in Hp as (j & Hj & Hp).
  unfold map_jws in Hp. apply bind_ok in Hp as (u2 & Hh & Hp).
  apply bind_ok in Hp as (m & Hm & Hp).
  apply bind_ok in Hp as (u3 & Hd & Hp). injection Hp as <- <-.
  unfold check_proof in Hc. rewrite Hj in Hc. cbn [bind] in Hc.
  destruct u, u2.
  exists j. cbn [snd] in Hex. repeat split; auto.
  - intros ->. cbn [tk_payload]. unfold payload_to_map in Hm.
    destruct (de_members E (jws_payload j)) as [ms|]; [|discriminate].
    destruct (nodup_str (map fst ms)) eqn:En; [|discriminate]. simpl in Hm. injection Hm as <-.
    exists ms. repeat split; auto. now apply nodup_str_spec.
  - unfold guard in Hd. destruct (dest (jws_payload j)); [reflexivity|discriminate].
  - intros ->. destruct (gjson_get E (jws_payload j) "iss") as [v|] eqn:Ei; [|discriminate].
    injection Hex as <-. exists v. split; [reflexivity|exact Hc].
  - intros ->. injection Hex as <-. unfold jose_verify in Hc.
    destruct (h_kid (jws_headers j)) as [kid|] eqn:Ek; [|discriminate]. exists kid. auto.
Qed.

(** ** CheckHeaders *)
Lemma split_plus_none t : no_char plus t -> split_on plus t = [t].
Proof. intros. now apply split_on_free. Qed.

Lemma split_plus_one p s : no_char plus p -> no_char plus s -> split_on plus (p ++ "+" ++ s) = [p; s].
Proof.
  intros Hp Hs. change (p ++ "+" ++ s) with (p ++ String plus s).
  rewrite split_on_app by exact Hp. now rewrite (split_on_free plus s Hs).
Qed.

Lemma upper_lower_ascii : forall a, lower_ascii (upper_ascii a) = lower_ascii a.
Proof. intros [[] [] [] [] [] [] [] []]; reflexivity. Qed.
Lemma lower_upper_ascii : forall a, upper_ascii (lower_ascii a) = upper_ascii a.
Proof. intros [[] [] [] [] [] [] [] []]; reflexivity. Qed.
Lemma upper_lower s : to_lower (to_upper s) = to_lower s.
Proof. unfold to_lower, to_upper. induction s as [|c s IH]; simpl; [reflexivity|]. now rewrite upper_lower_ascii, IH. Qed.
Lemma lower_upper s : to_upper (to_lower s) = to_upper s.
Proof. unfold to_lower, to_upper. induction s as [|c s IH]; simpl; [reflexivity|]. now rewrite lower_upper_ascii, IH. Qed.
Lemma upper_ci s t : to_upper s = to_upper t <-> ci_eq s t.
Proof.
  unfold ci_eq. split; intros H.
  - rewrite <- (upper_lower s), <- (upper_lower t). now rewrite H.
  - rewrite <- (lower_upper s), <- (lower_upper t). now rewrite H.
Qed.

Lemma guard_ok b e : guard b e = Ok tt <-> b = true.
Proof. unfold guard. destruct b; split; congruence. Qed.

Lemma check_typ_iff t : at_most_one_plus t ->
  (check_typ_header (JStr t) = Ok tt <-> jwt_type_ok t).
Proof.
  intros [Hn|(p & s & -> & Hp & Hs)]; unfold check_typ_header.
  - change (split_on "+" t) with (split_on plus t). rewrite (split_plus_none t Hn), guard_ok, String.eqb_eq.
    split; [intros ->; now left|]. intros [->|(p & s & -> & _)]; [reflexivity|].
    exfalso. apply Hn. unfold char_in. clear Hn.
    induction p as [|c p IH]; simpl; auto.
  - change (split_on "+" (p ++ "+" ++ s)) with (split_on plus (p ++ "+" ++ s)). rewrite (split_plus_one p s Hp Hs), guard_ok, orb_true_iff, !String.eqb_eq.
    change "JWT" with (to_upper "jwt") at 1. change "SD-JWT" with (to_upper "sd-jwt").
    rewrite !upper_ci. split.
    + intros H. right. exists p, s. auto.
    + intros [H|(p' & s' & He & Hp' & Hs' & H)].
      * exfalso. assert (Hc : char_in plus "JWT").
        { rewrite <- H. unfold char_in. clear. induction p as [|c p IH]; simpl; auto. }
        unfold char_in in Hc. simpl in Hc. intuition discriminate.
      * assert (Hsp : split_on plus (p ++ "+" ++ s) = split_on plus (p' ++ "+" ++ s')) by now rewrite He.
        rewrite !split_plus_one in Hsp by assumption. injection Hsp as -> ->. exact H.
Qed.

Lemma check_headers_iff h :
  (forall t, mget h "typ" = Some (JStr t) -> at_most_one_plus t) ->
  (check_headers h = Ok tt <->
     mget h "alg" <> None
     /\ (mget h "typ" = None \/ exists t, mget h "typ" = Some (JStr t) /\ jwt_type_ok t)
     /\ mget h "cty" <> Some (JStr "JWT")).
Proof.
  intros Hpl. unfold check_headers, mhas.
  destruct (mget h "alg") as [a|]; cbn [guard bind];
    [|split; [discriminate|intros (H & _); now exfalso]].
  assert (Hc : (match mget h "cty" with Some (JStr "JWT") => Err "nested JWT is not supported" | _ => Ok tt end = Ok tt)
               <-> mget h "cty" <> Some (JStr "JWT")).
  { destruct (mget h "cty") as [[| | |s| | ]|]; try (split; [discriminate|reflexivity]).
    destruct (String.eqb_spec s "JWT") as [->|Hne]; [split; [discriminate|congruence]|].
    split; [intros _ He; congruence|intros _].
    repeat (match goal with |- match ?x with _ => _ end = _ => destruct x end; try reflexivity).
    congruence. }
  destruct (mget h "typ") as [t|] eqn:Et.
  - destruct t as [| | |t| | ]; try (cbn [check_typ_header bind]; split; [discriminate|]; intros (_ & [H|(t & H & _)] & _); discriminate).
    destruct (check_typ_header (JStr t)) as [[]|e|] eqn:Ec; cbn [bind].
    + rewrite Hc. split; intros H.
      * split; [discriminate|]. split; [|exact H]. right. exists t. split; [reflexivity|].
        now apply check_typ_iff; [apply Hpl|].
      * tauto.
    + split; [discriminate|]. intros (_ & [H|(t' & H & Ht)] & _); [discriminate|].
      injection H as <-. apply check_typ_iff in Ht; [congruence|now apply Hpl].
    + split; [discriminate|]. intros (_ & [H|(t' & H & Ht)] & _); [discriminate|].
      injection H as <-. apply check_typ_iff in Ht; [congruence|now apply Hpl].
  - cbn [bind]. rewrite Hc. split; [|tauto]. intros; split; [discriminate|auto].
Qed.

(** ** Key selection *)
Lemma ktype_eqb_eq a b : ktype_eqb a b = true <-> a = b.
Proof. destruct a, b; simpl; split; congruence. Qed.

(** the scheme a KMS key type stands for *)
Definition kt_scheme (k : ktype) : scheme :=
  match k with
  | ED25519Type => S_Ed25519
  | ECDSAP256IEEE | ECDSAP256DER => S_ECDSA P256 SHA256
  | ECDSAP384IEEE | ECDSAP384DER => S_ECDSA P384 SHA384
  | ECDSAP521IEEE | ECDSAP521DER => S_ECDSA P521 SHA512
  | ECDSAk1IEEE | ECDSAk1DER => S_ECDSA Secp256k1 SHA256
  | RSARS256Type => S_RSA_PKCS1_256
  | RSAPS256Type => S_RSA_PSS_256
  | BLS12381G2Type => S_BBS
  end.

Lemma ed_verify_ok C vm k msg sig : ed_verify C sig msg (create_public_key vm k) = Ok tt ->
  k = ED25519Type /\ prim_ok C vm S_Ed25519 msg sig.
Proof.
  unfold ed_verify, create_public_key, prim_ok, vm_key.
  destruct (vm_jwk vm) as [j|]; cbn [pk_type pk_bytes pk_jwk].
  - destruct (ktype_eqb k ED25519Type) eqn:Ek; [|discriminate]. apply ktype_eqb_eq in Ek. simpl.
    destruct (jk_key j) as [b| | |] eqn:Ej; simpl; try discriminate.
    destruct (Nat.eqb_spec (String.length b) 32) as [El|]; simpl; [|discriminate].
    unfold guard. destruct (c_ed C b msg sig) eqn:Ec; [|discriminate]. intros _. split; [assumption|exists b; auto].
  - destruct (ktype_eqb k ED25519Type) eqn:Ek; [|discriminate]. apply ktype_eqb_eq in Ek. simpl.
    destruct (Nat.eqb_spec (String.length (vm_value vm)) 32) as [El|]; simpl; [|discriminate].
    unfold guard. destruct (c_ed C (vm_value vm) msg sig) eqn:Ec; [|discriminate].
    intros _. split; [assumption|]. exists (vm_value vm). auto.
Qed.

Lemma rsa_verify_ok C vm kt prim k msg sig : rsa_verify C kt prim sig msg (create_public_key vm k) = Ok tt ->
  k = kt /\ exists r, vm_key C vm None (KRsa r) /\ prim r msg sig = true.
Proof.
  unfold rsa_verify, create_public_key, vm_key.
  destruct (vm_jwk vm) as [j|]; cbn [pk_type pk_bytes pk_jwk].
  - destruct (ktype_eqb k kt) eqn:Ek; [|discriminate]. apply ktype_eqb_eq in Ek. simpl.
    destruct (jk_key j) as [ | |r| ] eqn:Ej; simpl; try discriminate.
    unfold guard. destruct (prim r msg sig) eqn:Ec; [|discriminate]. intros _. split; [assumption|exists r; auto].
  - destruct (ktype_eqb k kt) eqn:Ek; [|discriminate]. apply ktype_eqb_eq in Ek. simpl.
    destruct (c_rsakey C (vm_value vm)) as [r|] eqn:Er; simpl; [|discriminate].
    unfold guard. destruct (prim r msg sig) eqn:Ec; [|discriminate].
    intros _. split; [assumption|]. exists r. auto.
Qed.

Lemma ec_verify_ok C p vm k msg sig : ec_verify C p sig msg (create_public_key vm k) = Ok tt ->
  ec_supports p k = true /\ exists c' pt r s, vm_key C vm (Some (ec_curve p)) (KEc c' pt)
     /\ ec_parse_sig C p sig = Ok (r, s) /\ c_ecdsa C c' pt (ec_hash p) msg r s = true.
Proof.
  unfold ec_verify. intros H.
  apply bind_ok in H as ([c' pt] & Hk & H). apply bind_ok in H as ([r s] & Hs & H).
  apply guard_ok in H. cbn [fst snd] in H.
  unfold ec_parse_key, create_public_key in Hk. unfold vm_key.
  destruct (vm_jwk vm) as [j|]; cbn [pk_type pk_bytes pk_jwk] in Hk.
  - destruct (ec_supports p k) eqn:Ek; [|discriminate]. simpl in Hk.
    destruct (jk_key j) as [ |c pt0| | ] eqn:Ej; try discriminate. injection Hk as -> ->.
    split; [reflexivity|]. exists c', pt, r, s. auto.
  - destruct (ec_supports p k) eqn:Ek; [|discriminate]. simpl in Hk.
    destruct (c_point C (ec_curve p) (vm_value vm)) as [pt0|] eqn:Ep; [|discriminate]. injection Hk as <- <-.
    split; [reflexivity|]. exists (ec_curve p), pt0, r, s. auto.
Qed.

Lemma bbs_verify_ok C vm k msg sig : bbs_verify C sig msg (create_public_key vm k) = Ok tt ->
  k = BLS12381G2Type /\ prim_ok C vm S_BBS msg sig.
Proof.
  unfold bbs_verify, create_public_key, prim_ok.
  destruct (vm_jwk vm) as [j|]; cbn [pk_type pk_bytes pk_jwk].
  - destruct (ktype_eqb k BLS12381G2Type) eqn:Ek; [|discriminate]. apply ktype_eqb_eq in Ek. simpl.
    destruct (c_jwkbytes C j) as [b|] eqn:Ej; simpl; [|discriminate].
    intros H. apply guard_ok in H. split; [assumption|exists b; auto].
  - destruct (ktype_eqb k BLS12381G2Type) eqn:Ek; [|discriminate]. apply ktype_eqb_eq in Ek. simpl.
    intros H. apply guard_ok in H. split; [assumption|]. exists (vm_value vm). auto.
Qed.

Lemma ec_supports_scheme : forall k,
  (ec_supports ec_secp256k1 k = true -> kt_scheme k = S_ECDSA Secp256k1 SHA256) /\
  (ec_supports ec_es256 k = true -> kt_scheme k = S_ECDSA P256 SHA256) /\
  (ec_supports ec_es384 k = true -> kt_scheme k = S_ECDSA P384 SHA384) /\
  (ec_supports ec_es521 k = true -> kt_scheme k = S_ECDSA P521 SHA512).
Proof. intros []; cbn; repeat split; intros; (discriminate || reflexivity). Qed.

Lemma str_take_drop n s : str_take n s ++ str_drop n s = s.
Proof. revert s. induction n as [|n IH]; intros [|c s]; simpl; try reflexivity. now rewrite IH. Qed.
Lemma str_take_length n s : (n <= String.length s)%nat -> String.length (str_take n s) = n.
Proof. revert s. induction n as [|n IH]; intros [|c s]; simpl; intros H; try lia. rewrite IH; lia. Qed.
Lemma str_drop_length n s : String.length (str_drop n s) = (String.length s - n)%nat.
Proof. revert s. induction n as [|n IH]; intros [|c s]; simpl; try reflexivity. apply IH. Qed.
Lemma str_take_app a b : str_take (String.length a) (a ++ b) = a.
Proof. induction a as [|c a IH]; simpl; [now destruct b|now rewrite IH]. Qed.
Lemma str_drop_app a b : str_drop (String.length a) (a ++ b) = b.
Proof. induction a as [|c a IH]; simpl; [now destruct b|exact IH]. Qed.

Definition std_par (p : ecpar) : Prop := ec_size p = field_size (ec_curve p).
Lemma ec_parse_sig_iff C p sig r s : std_par p ->
  (ec_parse_sig C p sig = Ok (r, s) <-> sig_rs C (ec_curve p) sig r s).
Proof.
  unfold std_par, ec_parse_sig, sig_rs. intros Hp. rewrite Hp. set (n := field_size (ec_curve p)).
  destruct (Nat.ltb_spec (String.length sig) (2 * n)) as [Hlt|Hge].
  - split; [discriminate|]. intros [(a & b & -> & Ha & Hb & _)|[H _]]; [rewrite append_length in Hlt|]; lia.
  - destruct (Nat.ltb_spec (2 * n) (String.length sig)) as [Hgt|Hle].
    + split.
      * destruct (c_asn1 C sig) as [rs|] eqn:E; [|discriminate]. intros [= ->]. auto.
      * intros [(a & b & -> & Ha & Hb & _)|[_ ->]]; [rewrite append_length in Hgt; lia|reflexivity].
    + split.
      * intros [= <- <-]. left. exists (str_take n sig), (str_drop n sig).
        rewrite str_take_drop, str_take_length, str_drop_length by lia. repeat split; lia.
      * intros [(a & b & -> & Ha & Hb & -> & ->)|[H _]]; [|lia].
        rewrite <- Ha at 1 2. now rewrite str_take_app, str_drop_app.
Qed.

Lemma ec_prim C p vm k msg sig : std_par p ->
  ec_verify C p sig msg (create_public_key vm k) = Ok tt -> prim_ok C vm (S_ECDSA (ec_curve p) (ec_hash p)) msg sig.
Proof.
  intros Hp H. apply ec_verify_ok in H as (_ & c' & pt & r & s & Hk & Hs & He).
  apply ec_parse_sig_iff in Hs; [|exact Hp]. exists c', pt, r, s. auto.
Qed.

Lemma default_verifier_ok C v vm k msg sig : In v (default_verifiers C) ->
  sv_verify v sig msg (create_public_key vm k) = Ok tt -> prim_ok C vm (kt_scheme k) msg sig.
Proof.
  pose proof (ec_supports_scheme k) as (S1 & S2 & S3 & S4).
  intros [<-|[<-|[<-|[<-|[<-|[<-|[<-|[<-|[]]]]]]]]]; cbn [sv_verify]; intros H.
  - apply ed_verify_ok in H as [-> H]. exact H.
  - apply bbs_verify_ok in H as [-> H]. exact H.
  - apply rsa_verify_ok in H as [-> H]. exact H.
  - apply rsa_verify_ok in H as [-> H]. exact H.
  - pose proof (ec_verify_ok _ _ _ _ _ _ H) as [Hs _]. rewrite (S1 Hs). apply ec_prim in H; [exact H|reflexivity].
  - pose proof (ec_verify_ok _ _ _ _ _ _ H) as [Hs _]. rewrite (S2 Hs). apply ec_prim in H; [exact H|reflexivity].
  - pose proof (ec_verify_ok _ _ _ _ _ _ H) as [Hs _]. rewrite (S3 Hs). apply ec_prim in H; [exact H|reflexivity].
  - pose proof (ec_verify_ok _ _ _ _ _ _ H) as [Hs _]. rewrite (S4 Hs). apply ec_prim in H; [exact H|reflexivity].
Qed.

Lemma create_type vm k : pk_type (create_public_key vm k) = k.
Proof. unfold create_public_key. destruct (vm_jwk vm); reflexivity. Qed.

Lemma convert_ok l vm pk : convert_to_public_key l vm = Ok pk ->
  exists s, In s l /\ pk = create_public_key vm (sm_kms s) /\ sm_type s = vm_type vm
    /\ (forall j, vm_jwk vm = Some j -> jk_kty j = sm_kty s /\ jk_crv j = sm_crv s)
    /\ (vm_jwk vm = None -> sm_req s = false).
Proof.
  unfold convert_to_public_key. destruct (find (svm_matches vm) l) as [s|] eqn:Ef; [|discriminate].
  intros [= <-]. apply find_some in Ef as [Hin Hm]. exists s. unfold svm_matches in Hm.
  rewrite !andb_true_iff, String.eqb_eq, negb_true_iff in Hm. destruct Hm as [[H1 H2] H3].
  repeat split; auto.
  - destruct (vm_jwk vm) as [j'|]; [|discriminate]. injection H as <-.
    apply andb_true_iff in H3 as [H3 _]. now apply String.eqb_eq in H3.
  - destruct (vm_jwk vm) as [j'|]; [|discriminate]. injection H as <-.
    apply andb_true_iff in H3 as [_ H3]. now apply String.eqb_eq in H3.
  - intros H. now rewrite H in H2.
Qed.

Lemma verify_with_ok C vms vm msg sig : verify_with (default_verifiers C) vms vm msg sig = Ok tt ->
  exists s, In s vms /\ prim_ok C vm (kt_scheme (sm_kms s)) msg sig /\ sm_type s = vm_type vm
    /\ (forall j, vm_jwk vm = Some j -> jk_kty j = sm_kty s /\ jk_crv j = sm_crv s)
    /\ (vm_jwk vm = None -> sm_req s = false).
Proof.
  unfold verify_with. intros H. apply bind_ok in H as (pk & Hc & H).
  apply bind_ok in H as (v & Hv & H).
  unfold get_verifier in Hv.
  destruct (find (fun v0 => sv_supports v0 (pk_type pk)) (default_verifiers C)) as [v0|] eqn:Ef; [|discriminate].
  injection Hv as ->. apply find_some in Ef as [Hin _].
  apply convert_ok in Hc as (s & Hs & -> & Ht & Hj & Hr).
  exists s. repeat split; auto; try (now apply Hj).
  eapply default_verifier_ok; eauto.
Qed.

Lemma jdesc_table d s : In d default_jdescs -> In s (jd_vms d) ->
  alg_scheme (jd_alg d) (kt_scheme (sm_kms s))
  /\ scheme_jwk (kt_scheme (sm_kms s)) (sm_kty s) (sm_crv s)
  /\ (sm_req s = false -> jwt_vm_types (kt_scheme (sm_kms s)) (sm_type s))
  /\ (sm_req s = true -> sm_type s = "JsonWebKey2020")
  /\ (jd_cose d <> 0 -> cose_scheme (jd_cose d) (kt_scheme (sm_kms s))).
Proof.
  intros Hd Hs.
  repeat (destruct Hd as [<-|Hd]; [simpl in Hs; repeat (destruct Hs as [<-|Hs];
    [cbn; split; [constructor|split; [constructor|split; [|split]]];
       first [reflexivity | discriminate | intros _; constructor | intros H; try reflexivity; try (now exfalso; apply H) ] |]);
    destruct Hs|]).
  destruct Hd.
Qed.

Lemma alg_scheme_fun a s1 s2 : alg_scheme a s1 -> alg_scheme a s2 -> s1 = s2.
Proof. intros H1 H2. inversion H1; subst; inversion H2; reflexivity. Qed.

Lemma supported_by_alg_ok ds alg d : supported_by_alg ds alg = Ok d -> In d ds /\ jd_alg d = alg.
Proof.
  unfold supported_by_alg. destruct (find _ ds) as [d'|] eqn:E; [|discriminate]. intros [= <-].
  apply find_some in E as [H1 H2]. now apply String.eqb_eq in H2.
Qed.
Lemma supported_by_cose_ok ds alg d : supported_by_cose ds alg = Ok d -> In d ds /\ jd_cose d = alg.
Proof.
  unfold supported_by_cose. destruct (find _ ds) as [d'|] eqn:E; [|discriminate]. intros [= <-].
  apply find_some in E as [H1 H2]. now apply Z.eqb_eq in H2.
Qed.
Lemma supported_ld_ok ds t d : supported_ld ds t = Ok d -> In d ds /\ ld_type d = t.
Proof.
  unfold supported_ld. destruct (find _ ds) as [d'|] eqn:E; [|discriminate]. intros [= <-].
  apply find_some in E as [H1 H2]. now apply String.eqb_eq in H2.
Qed.

Lemma check_jwt_tail C alg vm msg sig d :
  supported_by_alg default_jdescs alg = Ok d ->
  verify_with (default_verifiers C) (jd_vms d) vm msg sig = Ok tt ->
  exists sc, alg_scheme alg sc /\ prim_ok C vm sc msg sig
    /\ (forall j, vm_jwk vm = Some j -> scheme_jwk sc (jk_kty j) (jk_crv j))
    /\ (vm_jwk vm = None -> jwt_vm_types sc (vm_type vm)).
Proof.
  intros Hd Hv. apply supported_by_alg_ok in Hd as [Hin <-].
  apply verify_with_ok in Hv as (s & Hs & Hp & Ht & Hj & Hr).
  destruct (jdesc_table d s Hin Hs) as (T1 & T2 & T3 & T4 & _).
  exists (kt_scheme (sm_kms s)). repeat split; auto.
  - intros j Hjj. destruct (Hj j Hjj) as [-> ->]. exact T2.
  - intros Hn. rewrite <- Ht. apply T3. now apply Hr.
Qed.

(** ECDSA framing *)

Lemma be_from a s : be_val_from a s = (a * 256 ^ N.of_nat (String.length s) + be_val_from 0 s)%N.
Proof.
  revert a. induction s as [|c s IH]; intros a.
  - cbn [be_val_from String.length]. change (N.of_nat 0) with 0%N. rewrite N.pow_0_r. lia.
  - cbn [be_val_from String.length]. rewrite (IH (a * 256 + N_of_ascii c)%N), (IH (0 * 256 + N_of_ascii c)%N).
    rewrite Nat2N.inj_succ, N.pow_succ_r'. lia.
Qed.
Lemma N_of_ascii_lt c : (N_of_ascii c < 256)%N.
Proof. apply N_ascii_bounded. Qed.
Lemma be_bound s : (be_val s < 256 ^ N.of_nat (String.length s))%N.
Proof.
  unfold be_val. induction s as [|c s IH]; [cbn; lia|].
  cbn [be_val_from String.length]. rewrite be_from, Nat2N.inj_succ, N.pow_succ_r'.
  pose proof (N_of_ascii_lt c). rewrite N.mul_0_l, N.add_0_l. nia.
Qed.
Lemma be_inj s : forall t, String.length s = String.length t -> be_val s = be_val t -> s = t.
Proof.
  unfold be_val. induction s as [|c s IH]; intros [|d t]; simpl String.length; intros Hl; try discriminate; auto.
  cbn [be_val_from]. rewrite (be_from _ s), (be_from _ t). injection Hl as Hl. rewrite <- Hl.
  pose proof (be_bound s). pose proof (be_bound t). unfold be_val in *. rewrite <- Hl in *.
  set (P := (256 ^ N.of_nat (String.length s))%N) in *. intros He.
  assert (Hc : N_of_ascii c = N_of_ascii d) by nia.
  assert (Hs : be_val_from 0 s = be_val_from 0 t) by (rewrite Hc in He; lia).
  f_equal; [|now apply IH].
  rewrite <- (ascii_N_embedding c), <- (ascii_N_embedding d). now rewrite Hc.
Qed.

(** VDR resolver *)
Lemma vdr_resolve_ok rs kid ctl vm : vdr_resolve rs kid ctl = Ok vm ->
  exists doc v g, rs ctl = Ok doc /\ In g doc /\ In v g /\ vf_id v = kid /\ vf_rel v <> RKeyAgreement /\ vf_vm v = vm.
Proof.
  unfold vdr_resolve. intros H. apply bind_ok in H as (doc & Hr & H).
  destruct (find _ (List.concat doc)) as [v|] eqn:E; [|discriminate]. injection H as <-.
  apply find_some in E as [Hin Hm]. apply andb_true_iff in Hm as [H1 H2].
  apply in_concat in Hin as (g & Hg & Hv). exists doc, v, g.
  repeat split; auto; [now apply String.eqb_eq in H1|]. intros E. rewrite E in H2. discriminate.
Qed.
Lemma vdr_resolve_none rs kid ctl doc : rs ctl = Ok doc ->
  (forall g v, In g doc -> In v g -> vf_id v = kid -> vf_rel v = RKeyAgreement) ->
  is_err (vdr_resolve rs kid ctl) = true.
Proof.
  unfold vdr_resolve. intros -> H. cbn [bind].
  destruct (find _ (List.concat doc)) as [v|] eqn:E; [|reflexivity].
  apply find_some in E as [Hin Hm]. apply andb_true_iff in Hm as [H1 H2].
  apply in_concat in Hin as (g & Hg & Hv). apply String.eqb_eq in H1.
  rewrite (H g v Hg Hv H1) in H2. discriminate.
Qed.

(** strings.Index *)
Lemma has_prefix_app p s : has_prefix p (p ++ s) = true.
Proof. induction p as [|c p IH]; simpl; [reflexivity|]. now rewrite Ascii.eqb_refl, IH. Qed.
Lemma has_prefix_inv p s : has_prefix p s = true -> exists t, s = p ++ t.
Proof.
  revert s. induction p as [|c p IH]; intros s H; simpl in *; [now exists s|].
  destruct s as [|d s]; [discriminate|]. apply andb_true_iff in H as [H1 H2].
  apply Ascii.eqb_eq in H1 as ->. destruct (IH _ H2) as [t ->]. now exists t.
Qed.
Lemma str_index_some sub s i : str_index sub s = Some i ->
  (i <= String.length s)%nat /\ exists t, str_drop i s = sub ++ t.
Proof.
  revert i. induction s as [|c s IH]; intros i; cbn [str_index].
  - destruct (has_prefix sub "") eqn:E; [|discriminate]. intros [= <-]. split; [lia|].
    simpl. now apply has_prefix_inv.
  - destruct (has_prefix sub (String c s)) eqn:E.
    + intros [= <-]. split; [lia|]. now apply has_prefix_inv.
    + destruct (str_index sub s) as [i'|]; [|discriminate]. intros [= <-].
      destruct (IH i' eq_refl) as [H1 H2]. split; [simpl; lia|exact H2].
Qed.

(** ** Linked-data proofs *)
Definition default_ldescs := [l_bbs; l_k1; l_ed18; l_ed20; l_jws20].
Lemma ldesc_table d s : In d default_ldescs -> In s (ld_vms d) ->
  ld_scheme (ld_type d) (kt_scheme (sm_kms s)) /\ scheme_jwk (kt_scheme (sm_kms s)) (sm_kty s) (sm_crv s).
Proof.
  intros Hd Hs.
  repeat (destruct Hd as [<-|Hd]; [simpl in Hs; repeat (destruct Hs as [<-|Hs]; [cbn; split; constructor|]); destruct Hs|]).
  destruct Hd.
Qed.

Lemma check_ld_ok C R pt pkid iss msg sig :
  check_ld_proof R default_ldescs (fun _ => None) (default_verifiers C) pt pkid iss msg sig = Ok tt ->
  exists k vm sc, pkid = Ok k /\ R k iss = Ok vm /\ ld_scheme pt sc /\ prim_ok C vm sc msg sig
    /\ (forall j, vm_jwk vm = Some j -> scheme_jwk sc (jk_kty j) (jk_crv j)).
Proof.
  unfold check_ld_proof. intros H.
  apply bind_ok in H as (k & Hk & H). apply bind_ok in H as (vm & Hvm & H).
  apply bind_ok in H as (d & Hd & H).
  assert (Hv : verify_with (default_verifiers C) (ld_vms d) vm msg sig = Ok tt) by exact H.
  apply supported_ld_ok in Hd as [Hin <-].
  apply verify_with_ok in Hv as (s & Hs & Hp & _ & Hj & _).
  destruct (ldesc_table d s Hin Hs) as [T1 T2].
  exists k, vm, (kt_scheme (sm_kms s)). repeat split; auto.
  intros j Hjj. destruct (Hj j Hjj) as [-> ->]. exact T2.
Qed.

(** ** CWT proofs *)
Lemma check_cwt_ok C R ck q iss msg sig :
  check_cwt_proof R default_jdescs (default_verifiers C) ck q iss msg sig = Ok tt ->
  exists vm sc, cose_scheme (cw_alg q) sc /\ prim_ok C vm sc msg sig
    /\ (forall j, vm_jwk vm = Some j -> scheme_jwk sc (jk_kty j) (jk_crv j))
    /\ ((cw_kid q <> "" /\ R (cw_kid q) iss = Ok vm)
        \/ (cw_kid q = "" /\ iss = "" /\ exists j kt, ck (cw_key q) = Ok (j, kt) /\ vm_jwk vm = Some j)).
Proof.
  unfold check_cwt_proof. intros H.
  apply bind_ok in H as ([] & Hg1 & H). apply bind_ok in H as ([] & Hg2 & H).
  apply guard_ok in Hg1, Hg2. apply negb_true_iff, Z.eqb_neq in Hg2.
  destruct (String.eqb_spec (cw_kid q) "") as [Ek|Ek]; simpl in H.
  - apply bind_ok in H as ([] & Hi & H). apply guard_ok, String.eqb_eq in Hi.
    apply bind_ok in H as ([j kt] & Hck & H). apply bind_ok in H as (d & Hd & H).
    apply bind_ok in H as (pk & Hpk & H). apply bind_ok in H as (v & Hv & H).
    apply supported_by_cose_ok in Hd as [Hin Hco].
    apply convert_ok in Hpk as (s & Hs & -> & _ & Hj & _).
    unfold get_verifier in Hv. destruct (find _ (default_verifiers C)) as [v0|] eqn:Ef; [|discriminate].
    injection Hv as ->. apply find_some in Ef as [Hvin _].
    destruct (jdesc_table d s Hin Hs) as (_ & T2 & _ & _ & T5).
    exists (jwk_vm j), (kt_scheme (sm_kms s)). split; [rewrite <- Hco; apply T5; congruence|].
    split; [eapply default_verifier_ok; eauto|]. split.
    + intros j' Hjj. destruct (Hj j' Hjj) as [-> ->]. exact T2.
    + right. repeat split; auto. exists j, kt. auto.
  - apply bind_ok in H as (vm & Hvm & H). apply bind_ok in H as (d & Hd & H).
    apply supported_by_cose_ok in Hd as [Hin Hco].
    apply verify_with_ok in H as (s & Hs & Hp & _ & Hj & _).
    destruct (jdesc_table d s Hin Hs) as (_ & T2 & _ & _ & T5).
    exists vm, (kt_scheme (sm_kms s)). split; [rewrite <- Hco; apply T5; congruence|].
    split; [exact Hp|]. split.
    + intros j' Hjj. destruct (Hj j' Hjj) as [-> ->]. exact T2.
    + left. auto.
Qed.

(** ** transformFromBlankNode *)
Lemma index_char_app c a b : free_of c a -> str_index (String c "") (a ++ String c b) = Some (String.length a).
Proof.
  induction a as [|d a IH]; intros Hf.
  - simpl. now rewrite Ascii.eqb_refl.
  - apply free_of_cons in Hf as [Hne Hf]. cbn [append str_index has_prefix].
    destruct (Ascii.eqb_spec c d); [congruence|]. cbn [andb]. rewrite IH by assumption. reflexivity.
Qed.
Lemma str_drop_plus n m s : str_drop (n + m) s = str_drop m (str_drop n s).
Proof. revert s. induction n as [|n IH]; intros [|c s]; simpl; try reflexivity; [now destruct m|]. apply IH. Qed.

Lemma gt_index_ph t i : str_index ">" (placeholder ++ t) = Some i -> (16 <= i)%nat.
Proof.
  unfold placeholder. simpl. destruct (str_index ">" t) as [k|]; simpl.
  - destruct t; simpl; try (destruct (Ascii.eqb _ _)); intros [= <-]; lia.
  - destruct t as [|d t]; simpl; try discriminate.
Qed.

Lemma transform_no_panic row : transform_blank row <> Panic.
Proof.
  unfold transform_blank. destruct (str_index placeholder row) as [pi|] eqn:Ep; [|discriminate].
  apply str_index_some in Ep as [_ (t & Ht)]. rewrite Ht.
  destruct (str_index ">" (placeholder ++ t)) as [si|] eqn:Es; [|discriminate].
  apply gt_index_ph in Es. destruct (Nat.ltb_spec (si + pi) (pi + 10)); [lia|discriminate].
Qed.

Lemma transform_correct pre k suf :
  str_index placeholder (pre ++ placeholder ++ k ++ ">" ++ suf) = Some (String.length pre) ->
  free_of ">" k ->
  transform_blank (pre ++ placeholder ++ k ++ ">" ++ suf) = Ok (pre ++ "_:c14n" ++ k ++ suf).
Proof.
  intros Hi Hk. unfold transform_blank. rewrite Hi, str_drop_app.
  assert (Hf : free_of ">" (placeholder ++ k)).
  { unfold placeholder. simpl. repeat (apply free_of_cons; split; [discriminate|]). exact Hk. }
  assert (E1 : placeholder ++ k ++ ">" ++ suf = (placeholder ++ k) ++ String ">" suf).
  { rewrite append_assoc_s. reflexivity. }
  rewrite E1, (index_char_app ">" _ suf Hf).
  rewrite append_length. cbn [placeholder String.length].
  destruct (Nat.ltb_spec (16 + String.length k + String.length pre) (String.length pre + 10)); [lia|].
  f_equal. rewrite (str_drop_plus (String.length pre) 10), str_drop_app, str_take_app. f_equal.
  replace (16 + String.length k + String.length pre - (String.length pre + 10))%nat
    with (String.length ("_:c14n" ++ k)) by (rewrite append_length; cbn [String.length]; lia).
  change (str_drop 10 ((placeholder ++ k) ++ String ">" suf)) with (("_:c14n" ++ k) ++ String ">" suf).
  rewrite str_take_app, append_assoc_s. f_equal. f_equal.
  replace (16 + String.length k + String.length pre + 1)%nat
    with (String.length pre + (String.length (placeholder ++ k) + 1))%nat
    by (rewrite append_length; cbn [placeholder String.length]; lia).
  rewrite str_drop_plus, str_drop_app, str_drop_plus, str_drop_app. simpl. now destruct suf.
Qed.

Lemma transform_no_ph row : str_index placeholder row = None -> transform_blank row = Ok row.
Proof. unfold transform_blank. now intros ->. Qed.

(** completeness for JWK keys *)
Lemma verify_with_complete C alg sc j vm msg sig :
  alg_scheme alg sc -> vm_type vm = "JsonWebKey2020" -> vm_jwk vm = Some j ->
  scheme_jwk sc (jk_kty j) (jk_crv j) -> prim_ok C vm sc msg sig ->
  exists d, supported_by_alg default_jdescs alg = Ok d /\
    verify_with (default_verifiers C) (jd_vms d) vm msg sig = Ok tt.
Proof.
  intros Ha Ht Hj Hs Hp.
  inversion Ha; subst; (eexists; split; [reflexivity|]);
    inversion Hs; subst;
    unfold verify_with, convert_to_public_key, svm_matches;
    cbn [jd_vms d_eddsa d_es256 d_es256k d_es384 d_es521 d_rs256 d_ps256 find sm_type sm_kty sm_crv sm_req sm_kms mk];
    rewrite Ht, Hj;
    repeat match goal with H : _ = jk_kty j |- _ => rewrite <- H; clear H | H : _ = jk_crv j |- _ => rewrite <- H; clear H end; cbn; rewrite ?Ht, ?Hj; unfold create_public_key; rewrite Hj;
    cbn [bind pk_type get_verifier default_verifiers find sv_supports];
    cbn.
  all: try (destruct Hp as (k & Hk & Hl & Hc); unfold vm_key in Hk; rewrite Hj in Hk;
    unfold ed_verify; cbn; rewrite Hk; cbn; rewrite Hl; cbn; rewrite Hc; reflexivity).
  all: try (destruct Hp as (k & Hk & Hc); unfold vm_key in Hk; rewrite Hj in Hk;
    unfold rsa_verify; cbn; rewrite Hk; cbn; rewrite Hc; reflexivity).
  all: destruct Hp as (c' & pt & r & s & Hk & Hrs & Hc); unfold vm_key in Hk; rewrite Hj in Hk;
    unfold ec_verify, ec_parse_key; cbn [ec_supports ec_types ec_secp256k1 ec_es256 ec_es384 ec_es521 existsb ktype_eqb orb negb pk_type pk_jwk];
    rewrite Hk; cbn [bind].
  - change P256 with (ec_curve ec_es256) in Hrs. apply ec_parse_sig_iff in Hrs; [|reflexivity].
    fold ec_es256. rewrite Hrs. cbn. now rewrite Hc.
  - change Secp256k1 with (ec_curve ec_secp256k1) in Hrs. apply ec_parse_sig_iff in Hrs; [|reflexivity].
    fold ec_secp256k1. rewrite Hrs. cbn. now rewrite Hc.
  - change P384 with (ec_curve ec_es384) in Hrs. apply ec_parse_sig_iff in Hrs; [|reflexivity].
    fold ec_es384. rewrite Hrs. cbn. now rewrite Hc.
  - change P521 with (ec_curve ec_es521) in Hrs. apply ec_parse_sig_iff in Hrs; [|reflexivity].
    fold ec_es521. rewrite Hrs. cbn. now rewrite Hc.
Qed.
