(** Property theorems for linked-data proof creation (C196-C203). *)
From Coq Require Import Permutation.
From Verif Require Import GoBase Base64 StatusModel PexModel StrLemmas JwtSpec DiSpec VcSpec JwtModel SdSpec SdModel SdParse DiModel
  VcModel VcJwt VcParse VcSign VpModel VcAdd VcProofs VcView VcText VcMod VcSecure DiProofs DiProps JwtProofs JwtProps VcProps VcProps2
  VcProps3 VcProps4 VcProps5 VcProps6 VcProps7 LdModel LdSpec LdProofs.

(** ** C196  A proof creator signs with the first registration that fits, and with nothing else. *)
Theorem C196_sign_linked_document : forall (opts : list copt) (p : gproof) (k : keytype) (doc sig : string),
  sign_linked (new_creator opts) p k doc = Ok sig <->
  exists d s, first_of (for_type (gp_type p)) opts (WithLDProofType d s) /\ takes k (ld_vms (le_desc d)) /\ s doc = Ok sig.
Proof.
  intros opts p k doc sig. unfold sign_linked, creator_ld. rewrite new_creator_eq. cbn [pc_lds].
  destruct (find _ (lds_of opts)) as [[d s]|] eqn:Ef.
  - pose proof (proj1 (find_ld _ _ _ _) Ef) as Hf. cbn [bind fst snd]. split.
    + intros H. exists d, s. split; [assumption|]. destruct (methods_for k (ld_vms (le_desc d))) eqn:Em; [discriminate|]. split; [|assumption].
      apply methods_takes. rewrite Em. discriminate.
    + intros (d' & s' & Hf' & Ht & Hs). apply find_ld in Hf'. rewrite Hf' in Ef. injection Ef as -> ->. apply methods_takes in Ht.
      destruct (methods_for k (ld_vms (le_desc d))); [contradiction|assumption].
  - split; [discriminate|]. intros (d & s & Hf & _). apply find_ld in Hf. congruence.
Qed.
Theorem C196_sign_jwt : forall (opts : list copt) (alg data sig : string),
  creator_sign_jwt (new_creator opts) alg data = Ok sig <-> exists d s, first_of (for_alg alg) opts (WithJWTAlg d s) /\ s data = Ok sig.
Proof.
  intros opts alg data sig. unfold creator_sign_jwt, creator_by_alg. rewrite new_creator_eq. cbn [pc_jwts].
  destruct (find _ (jwts_of opts)) as [[d s]|] eqn:Ef.
  - pose proof (proj1 (by_alg_spec _ _ _ _) Ef) as Hf. cbn [bind snd]. split; [eauto|]. intros (d' & s' & Hf' & Hs). apply by_alg_spec in Hf'. congruence.
  - split; [discriminate|]. intros (d & s & Hf & _). apply by_alg_spec in Hf. congruence.
Qed.
Theorem C196_sign_cwt : forall (opts : list copt) (alg : Z) (data sig : string),
  creator_sign_cwt (new_creator opts) alg data = Ok sig <-> exists d s, first_of (for_cose alg) opts (WithJWTAlg d s) /\ s data = Ok sig.
Proof.
  intros opts alg data sig. unfold creator_sign_cwt, creator_by_cwt. rewrite new_creator_eq. cbn [pc_jwts].
  destruct (find _ (jwts_of opts)) as [[d s]|] eqn:Ef.
  - pose proof (proj1 (by_cose_spec _ _ _ _) Ef) as Hf. cbn [bind snd]. split; [eauto|]. intros (d' & s' & Hf' & Hs). apply by_cose_spec in Hf'. congruence.
  - split; [discriminate|]. intros (d & s & Hf & _). apply by_cose_spec in Hf. congruence.
Qed.
(** example: two registrations for one type; the first is used, and only with its keys *)
Definition toy_signer (name : string) : csigner := fun doc => Ok (name ++ ":" ++ doc).
Definition toy_lddesc (d : ldesc) : lddesc := {| le_desc := d; le_canon := fun m => Ok (ord_canon m); le_digest := fun s => "#" ++ s |}.
Definition cx_opts : list copt :=
  [WithJWTAlg d_es256 (toy_signer "p256"); WithLDProofType (toy_lddesc l_ed18) (toy_signer "a"); WithLDProofType (toy_lddesc l_ed18) (toy_signer "b");
   WithLDProofType (toy_lddesc l_jws20) (toy_signer "c"); WithJWTAlg d_eddsa (toy_signer "ed"); WithJWTAlg d_eddsa (toy_signer "late")].
Definition cx_proof (t : string) : gproof :=
  {| gp_type := t; gp_rep := RepValue; gp_creator := ""; gp_created := zero_time; gp_domain := ""; gp_nonce := ""; gp_vm := ""; gp_challenge := "";
     gp_purpose := ""; gp_chain := None; gp_value := ""; gp_jws := "" |}.
Example C196_example :
  sign_linked (new_creator cx_opts) (cx_proof "Ed25519Signature2018") (Some ED25519Type) "d" = Ok "a:d"
  /\ sign_linked (new_creator cx_opts) (cx_proof "Ed25519Signature2018") (Some ECDSAP256DER) "d" = Err "ld proof not support keys"
  /\ sign_linked (new_creator cx_opts) (cx_proof "JsonWebSignature2020") (Some ECDSAP256DER) "d" = Ok "c:d"
  /\ sign_linked (new_creator cx_opts) (cx_proof "JsonWebSignature2020") None "d" = Err "ld proof not support keys"
  /\ sign_linked (new_creator cx_opts) (cx_proof "Other") (Some ED25519Type) "d" = Err "unsupported proof type"
  /\ creator_sign_jwt (new_creator cx_opts) "EdDSA" "d" = Ok "ed:d" /\ creator_sign_cwt (new_creator cx_opts) (-7) "d" = Ok "p256:d"
  /\ is_err (creator_sign_jwt (new_creator cx_opts) "none" "d") = true.
Proof. repeat split. Qed.
Print Assumptions C196_sign_linked_document.

(** ** C197  The JWS algorithm a creator names for a linked-data proof: the proof type takes keys of the type, and the
    algorithm is that of the first JWT registration taking them. *)
Theorem C197_jws_alg : forall (opts : list copt) (p : gproof) (k : keytype) (alg : string),
  ldp_jwt_alg (new_creator opts) p k = Ok alg <->
  alg <> "" /\ (exists d s, first_of (for_type (gp_type p)) opts (WithLDProofType d s) /\ takes k (ld_vms (le_desc d)))
  /\ (exists d s, first_of (for_key k) opts (WithJWTAlg d s) /\ jd_alg d = alg).
Proof.
  intros opts p k alg. unfold ldp_jwt_alg, creator_ld, alg_by_key. rewrite new_creator_eq. cbn [pc_lds pc_jwts].
  destruct (find _ (lds_of opts)) as [[d s]|] eqn:Ef; cbn [bind fst].
  - pose proof (proj1 (find_ld _ _ _ _) Ef) as Hf.
    destruct (methods_for k (ld_vms (le_desc d))) eqn:Em.
    + split; [discriminate|]. intros (_ & (d' & s' & Hf' & Ht) & _). apply find_ld in Hf'. rewrite Hf' in Ef. injection Ef as -> ->.
      apply methods_takes in Ht. contradiction.
    + assert (Ht : takes k (ld_vms (le_desc d))) by (apply methods_takes; rewrite Em; discriminate).
      destruct (find _ (jwts_of opts)) as [[d2 s2]|] eqn:E2; cbn [fst].
      * pose proof (proj1 (by_key_spec _ _ _ _) E2) as Hf2. destruct (String.eqb_spec (jd_alg d2) "") as [Hz|Hz].
        -- split; [discriminate|]. intros (Hne & _ & d3 & s3 & Hf3 & Ha). apply by_key_spec in Hf3. assert (d3 = d2) by congruence. subst. congruence.
        -- split.
           ++ intros [= <-]. split; [assumption|]. split; [eauto|eauto].
           ++ intros (_ & _ & d3 & s3 & Hf3 & Ha). apply by_key_spec in Hf3. assert (d3 = d2) by congruence. subst. reflexivity.
      * split; [discriminate|]. intros (_ & _ & d3 & s3 & Hf3 & _). apply by_key_spec in Hf3. congruence.
  - split; [discriminate|]. intros (_ & (d & s & Hf & _) & _). apply find_ld in Hf. congruence.
Qed.
(** with the library's own descriptors, in whatever order and among whatever LD registrations, the algorithm is fixed by the key type *)
Definition alg_of_key (k : ktype) : string :=
  match k with
  | ED25519Type => "EdDSA" | ECDSAP256IEEE | ECDSAP256DER => "ES256" | ECDSAk1IEEE | ECDSAk1DER => "ES256K"
  | ECDSAP384IEEE | ECDSAP384DER => "ES384" | ECDSAP521IEEE | ECDSAP521DER => "ES521" | RSARS256Type => "RS256" | RSAPS256Type => "PS256"
  | BLS12381G2Type => ""
  end.
Theorem C197_library_descriptors : forall (opts : list copt) (p : gproof) (k : ktype) (alg : string),
  Permutation (map fst (flat_map (fun o => match o with WithJWTAlg d s => [(d, s)] | _ => [] end) opts)) default_jdescs ->
  ldp_jwt_alg (new_creator opts) p (Some k) = Ok alg -> alg = alg_of_key k.
Proof.
  intros opts p k alg Hperm H. apply C197_jws_alg in H as (_ & _ & d & s & (pre & post & Eo & (d' & s' & [= <- <-] & v & Hv & Hk) & _) & <-).
  assert (Hd : In d default_jdescs).
  { apply (Permutation_in _ Hperm). apply in_map_iff. exists (d, s). split; [reflexivity|]. apply in_flat_map. exists (WithJWTAlg d s). split; [|now left].
    rewrite Eo. apply in_or_app. right. now left. }
  injection Hk as ->. unfold default_jdescs in Hd. cbn [In] in Hd.
  repeat (destruct Hd as [<-|Hd]; [cbn [jd_vms d_eddsa d_es256 d_es256k d_es384 d_es521 d_rs256 d_ps256 In] in Hv;
    repeat (destruct Hv as [<-|Hv]; [reflexivity|]); destruct Hv|]). destruct Hd.
Qed.
Example C197_example :
  ldp_jwt_alg (new_creator cx_opts) (cx_proof "JsonWebSignature2020") (Some ECDSAP256IEEE) = Ok "ES256"
  /\ ldp_jwt_alg (new_creator cx_opts) (cx_proof "JsonWebSignature2020") (Some ED25519Type) = Ok "EdDSA"
  /\ is_err (ldp_jwt_alg (new_creator cx_opts) (cx_proof "JsonWebSignature2020") (Some ECDSAP384IEEE)) = true
  /\ is_err (ldp_jwt_alg (new_creator cx_opts) (cx_proof "Ed25519Signature2018") (Some ECDSAP256IEEE)) = true
  /\ (let all := WithLDProofType (toy_lddesc l_jws20) (toy_signer "c") :: map (fun d => WithJWTAlg d (toy_signer "s")) (rev default_jdescs) in
      Permutation (map fst (flat_map (fun o => match o with WithJWTAlg d s => [(d, s)] | _ => [] end) all)) default_jdescs
      /\ ldp_jwt_alg (new_creator all) (cx_proof "JsonWebSignature2020") (Some RSAPS256Type) = Ok "PS256").
Proof. split; [reflexivity|]. split; [reflexivity|]. split; [reflexivity|]. split; [reflexivity|]. split; [|reflexivity]. cbn. apply (Permutation_sym (Permutation_rev default_jdescs)). Qed.
Print Assumptions C197_library_descriptors.

(** ** C198  (refuted for CWT) Each registered algorithm is signed with by the signer registered for it. *)
Theorem C198_jwt_alg_own_signer : forall (opts : list copt) d s data,
  In (WithJWTAlg d s) opts -> NoDup (map (fun x => jd_alg (fst x)) (flat_map (fun o => match o with WithJWTAlg d s => [(d, s)] | _ => [] end) opts)) ->
  creator_sign_jwt (new_creator opts) (jd_alg d) data = s data.
Proof.
  intros opts d s data Hin Hnd. unfold creator_sign_jwt, creator_by_alg. rewrite new_creator_eq. cbn [pc_jwts]. fold (jwts_of opts) in Hnd.
  assert (Hi : In (d, s) (jwts_of opts)) by (apply in_flat_map; exists (WithJWTAlg d s); split; [assumption|now left]).
  assert (E : find (fun x => String.eqb (jd_alg (fst x)) (jd_alg d)) (jwts_of opts) = Some (d, s)).
  { clear Hin. induction (jwts_of opts) as [|[d0 s0] l IH]; [destruct Hi|]. cbn [find fst]. cbn [map fst] in Hnd. inversion Hnd as [|? ? Hni Hnd']; subst.
    destruct Hi as [[= -> ->]|Hi]; [now rewrite String.eqb_refl|]. destruct (String.eqb_spec (jd_alg d0) (jd_alg d)) as [Ed|]; [|now apply IH].
    exfalso. apply Hni. rewrite Ed. apply in_map_iff. exists (d, s). now split. }
  rewrite E. reflexivity.
Qed.
Theorem C198_cwt_alg_own_signer_refuted : ~ forall (opts : list copt) d s data,
  In (WithJWTAlg d s) opts -> NoDup (map (fun x => jd_alg (fst x)) (flat_map (fun o => match o with WithJWTAlg d s => [(d, s)] | _ => [] end) opts)) ->
  In d default_jdescs -> creator_sign_cwt (new_creator opts) (jd_cose d) data = s data.
Proof.
  intros H. specialize (H [WithJWTAlg d_es256k (toy_signer "k1"); WithJWTAlg d_es521 (toy_signer "p521")] d_es521 (toy_signer "p521") "d").
  assert (X : creator_sign_cwt (new_creator [WithJWTAlg d_es256k (toy_signer "k1"); WithJWTAlg d_es521 (toy_signer "p521")]) (jd_cose d_es521) "d" = toy_signer "p521" "d").
  { apply H; [cbn; tauto| |cbn; tauto]. cbn. repeat constructor; cbn; intuition discriminate. }
  vm_compute in X. discriminate.
Qed.
Example C198_example :
  let opts := [WithJWTAlg d_es256k (toy_signer "k1"); WithJWTAlg d_es521 (toy_signer "p521")] in
  creator_sign_jwt (new_creator opts) "ES521" "d" = Ok "p521:d" /\ creator_sign_cwt (new_creator opts) (jd_cose d_es521) "d" = Ok "k1:d".
Proof. split; reflexivity. Qed.
Print Assumptions C198_cwt_alg_own_signer_refuted.

(** ** C199  AddLinkedDataProof appends one proof, with exactly the fields of the context and a signature by its creator over
    the document; nothing else changes; a failing call changes nothing. *)
Definition made_from (c : ldctx) (now : gtime) (p : gproof) : Prop :=
  gp_type p = lx_type c /\ gp_vm p = lx_vm c /\ gp_domain p = lx_domain c /\ gp_challenge p = lx_challenge c /\ gp_chain p = lx_chain c
  /\ gp_purpose p = (if String.eqb (lx_purpose c) "" then "assertionMethod" else lx_purpose c)
  /\ gp_created p = match lx_created c with Some t => t | None => now end
  /\ gp_creator p = "" /\ gp_nonce p = "".
(** [p] carries the signature [s] of [c]'s creator, made over verify data of [doc] and of the proof before it was signed *)
Inductive signed_over (L : ldlib) (c : ldctx) (doc : gomap json) (p : gproof) : Prop :=
| so_value p0 msg s : lx_rep c = RepValue -> gp_value p = s -> gp_jws p = "" -> p0 = with_value p "" ->
    ll_vdata L (wrap_suite (lx_creator c) p0) doc p0 = Ok msg -> lc_sign (lx_creator c) p0 (lx_key c) msg = Ok s -> signed_over L c doc p
| so_jws p0 msg s alg : lx_rep c = RepJWS -> lc_alg (lx_creator c) (with_jws p "") (lx_key c) = Ok alg -> gp_value p = "" ->
    p0 = with_jws p (ll_header L alg ++ "..") -> gp_jws p = ll_header L alg ++ ".." ++ b64_encode s ->
    ll_vdata L (wrap_suite (lx_creator c) p0) doc p0 = Ok msg -> lc_sign (lx_creator c) p0 (lx_key c) msg = Ok s -> signed_over L c doc p.
Lemma made_signed L c now doc p : make_proof L (lx_creator c) now (map_context c) doc = Ok p -> lx_rep c <> RepOther ->
  lx_type c <> "" /\ made_from c now p /\ signed_over L c doc p.
Proof.
  intros H Hr. destruct (make_proof_spec _ _ _ _ _ _ H) as (Ht & p0 & s & msg & -> & Hp0 & Hm & Hs). split; [exact Ht|].
  cbn [map_context sc_rep sc_key] in *. destruct Hp0 as [[-> Hn]|(a & Ej & Ha & ->)].
  - destruct (lx_rep c) eqn:Er; [|contradiction|contradiction]. unfold apply_signature. cbn [new_gproof map_context gp_rep sc_rep]. rewrite Er. split.
    + unfold made_from. cbn. repeat split.
    + eapply so_value with (msg := msg); [exact Er|reflexivity|reflexivity|reflexivity| |]; assumption.
  - unfold apply_signature. cbn [new_gproof map_context gp_rep sc_rep with_jws]. rewrite Ej. split.
    + unfold made_from. cbn. repeat split.
    + eapply so_jws with (msg := msg) (alg := a); [assumption|exact Ha|reflexivity|reflexivity| |exact Hm|exact Hs].
      cbn [with_jws gp_jws new_gproof]. now rewrite append_assoc_s.
Qed.
Theorem C199_one_proof_appended : forall L ser now c (v v' : credential),
  add_ld_cred L now c v = (v', Ok tt) -> ld_lib L ser -> lx_rep c <> RepOther -> mget (cr_json v) "proof" <> Some JNull ->
  exists p, made_from c now p /\ signed_over L c (cr_json v) p
    /\ (forall k, k <> "proof" -> mget (cr_json v') k = mget (cr_json v) k)
    /\ earlier (cr_json v') = (earlier (cr_json v) ++ [JObj (ser p)])%list
    /\ map JObj (cr_proofs v') = earlier (cr_json v')
    /\ cr_contents v' = cr_contents v /\ cr_jwt v' = cr_jwt v /\ cr_cwt v' = cr_cwt v.
Proof.
  intros L ser now c v v' H HL Hr Hn. unfold add_ld_cred in H. destruct (add_ld L now c (cr_json v)) as [d r] eqn:Ea. injection H as <- Hok.
  destruct r as [ps| |]; try discriminate. destruct (add_ld_spec _ _ _ _ _ _ _ HL Ea Hn) as (p & Hm & -> & old & Ho & ->).
  destruct (made_signed _ _ _ _ _ Hm Hr) as (_ & Hf & Hs). exists p. split; [assumption|]. split; [assumption|]. cbn [cr_json cr_proofs cr_contents cr_jwt cr_cwt].
  assert (E : earlier (mset (cr_json v) "proof" (JArr (earlier (cr_json v) ++ [JObj (ser p)]))) = (earlier (cr_json v) ++ [JObj (ser p)])%list).
  { unfold earlier at 1. now rewrite mget_mset, String.eqb_refl. }
  split; [intros k Hk; rewrite mget_mset; destruct (String.eqb_spec k "proof"); [contradiction|reflexivity]|]. split; [exact E|]. rewrite E. split; [|repeat split].
  rewrite map_app. f_equal. clear - Ho. revert old Ho. induction (earlier (cr_json v)) as [|x l IH]; cbn [map_res]; intros old H; [now injection H as <-|].
  apply bind_ok in H as (a & Ha & H). apply bind_ok in H as (b & Hb & H). injection H as <-. destruct x; cbn in Ha; try discriminate. injection Ha as <-.
  cbn [map]. now rewrite (IH _ Hb).
Qed.
Theorem C199_failure_changes_nothing : forall L ser now c (v v' : credential) r,
  add_ld_cred L now c v = (v', r) -> r <> Ok tt -> ld_lib L ser ->
  (* the credential's proof member is readable, as it is in every parsed credential *)
  mget (cr_json v) "proof" <> Some JNull -> (exists ps, parse_ld_proof (fld (cr_json v) "proof") = Ok ps) ->
  v' = v.
Proof.
  intros L ser now c v v' r H Hr HL Hn (ps & Hp). unfold add_ld_cred, add_ld, sign_object in H.
  destruct (make_proof L (lx_creator c) now (map_context c) (cr_json v)) as [p|e|] eqn:Em.
  - rewrite (la_add _ _ HL _ _ Hn) in H. exfalso. apply Hr. injection H as _ <-. unfold fld. rewrite mget_mset, String.eqb_refl. cbn [parse_ld_proof].
    rewrite (parse_earlier _ _ Hp Hn), map_res_app, map_res_objs. reflexivity.
  - injection H as <- _. now destruct v.
  - injection H as <- _. now destruct v.
Qed.

(** *** an example library: verify data is the suite's digest of the document's canonical form followed by the proof's own
    fields and the representation of its signature *)
Definition xl_norm (m : gomap json) : gomap json := flat_map (fun k => match mget m k with Some j => [(k, j)] | None => [] end) ord_keys.
Definition xl_opt (k v : string) : gomap json := if String.eqb v "" then [] else [(k, JStr v)].
Definition xl_ser (p : gproof) : gomap json :=
  (("type", JStr (gp_type p)) :: ("created", jnum (gt_ns (gp_created p))) :: ("proofPurpose", JStr (gp_purpose p))
   :: xl_opt "verificationMethod" (gp_vm p) ++ xl_opt "domain" (gp_domain p) ++ xl_opt "challenge" (gp_challenge p)
   ++ xl_opt "proofValue" (gp_value p) ++ xl_opt "jws" (gp_jws p))%list.
Definition xl_line (r : gomap json) : string :=
  fold_right (fun k s => match mget r k with Some j => k ++ "=" ++ ser j ++ ";" ++ s | None => s end)
    (if mhas r "jws" then "jws" else "") ["type"; "created"; "proofPurpose"; "verificationMethod"; "domain"; "challenge"].
Definition xl_lib : ldlib := {|
  ll_header := fun _ => "head";
  ll_vdata := fun su m p => let* d := su_canon su (xl_norm m) in Ok (su_digest su d ++ xl_line (xl_ser p));
  ll_add := fun m p => (mset m "proof" (JArr (earlier m ++ [JObj (xl_ser p)])), Ok tt) |}.
Definition xl_str (r : gomap json) (k : string) : string := match mget r k with Some (JStr s) => s | _ => "" end.
Definition xl_rd (r : gomap json) : res ldproof :=
  Ok {| lp_type := xl_str r "type";
        lp_pkid := if String.eqb (xl_str r "verificationMethod") "" then Err "no public key ID" else Ok (xl_str r "verificationMethod");
        lp_sig := if mhas r "jws" then match b64_decode (str_drop 6 (xl_str r "jws")) with Some s => Ok s | None => Err "invalid JWT" end
                  else Ok (xl_str r "proofValue");
        lp_raw := JObj r |}.
Definition xl_suite : suite := {| su_canon := fun m => Ok (ord_canon m); su_digest := fun s => "#" ++ s |}.
Definition xl_env (E : venv) : venv := {|
  ve_time := ve_time E; ve_jwt := ve_jwt E; ve_members := ve_members E; ve_obj := ve_obj E; ve_sd := ve_sd E;
  ve_order := ve_order E; ve_cose := ve_cose E; ve_hex := ve_hex E; ve_cbor := ve_cbor E; ve_schema := ve_schema E; ve_valid := ve_valid E;
  ve_jsonld := ve_jsonld E; ve_ext := ve_ext E;
  ve_ldproofs := fun m => match fld m "proof" with None => Err "proof not found" | Some j => let* ps := get_proofs j in map_res xl_rd ps end;
  ve_ldmsg := fun q m => let* d := su_canon xl_suite (xl_norm m) in
                         Ok (su_digest xl_suite d ++ xl_line (match lp_raw q with JObj r => r | _ => [] end));
  ve_di := ve_di E; ve_now := ve_now E; ve_related := ve_related E |}.
Lemma xl_norm_blind m m' : same_but_proof m m' -> xl_norm m = xl_norm m'.
Proof.
  intros (_ & _ & H). unfold xl_norm. assert (Hk : ~ In "proof" ord_keys) by (cbn; intuition discriminate).
  induction ord_keys as [|k ks IH]; [reflexivity|]. cbn [flat_map]. rewrite IH by (intros X; apply Hk; now right).
  rewrite H; [reflexivity|]. intros ->. apply Hk. now left.
Qed.
Lemma xl_is_lib : ld_lib xl_lib xl_ser.
Proof.
  constructor.
  - reflexivity.
  - intros s m m' p H. cbn [ll_vdata xl_lib]. now rewrite (xl_norm_blind _ _ H).
  - intros s s' m p [H1 H2]. cbn [ll_vdata xl_lib]. rewrite H1. destruct (su_canon s' (xl_norm m)); cbn [bind]; [now rewrite H2|reflexivity|reflexivity].
  - reflexivity.
Qed.
Lemma xl_get_vm p : xl_str (xl_ser p) "verificationMethod" = gp_vm p.
Proof.
  unfold xl_str, xl_ser, xl_opt. cbn [mget]. cbn. destruct (String.eqb_spec (gp_vm p) "") as [->|]; [|reflexivity]. cbn.
  destruct (String.eqb (gp_domain p) ""), (String.eqb (gp_challenge p) ""), (String.eqb (gp_value p) ""), (String.eqb (gp_jws p) ""); reflexivity.
Qed.
Lemma xl_get_value p : xl_str (xl_ser p) "proofValue" = gp_value p.
Proof.
  unfold xl_str, xl_ser, xl_opt. destruct (String.eqb (gp_vm p) ""), (String.eqb (gp_domain p) ""), (String.eqb (gp_challenge p) "");
    destruct (String.eqb_spec (gp_value p) "") as [->|]; destruct (String.eqb (gp_jws p) ""); reflexivity.
Qed.
Lemma xl_get_jws p : xl_str (xl_ser p) "jws" = gp_jws p /\ mhas (xl_ser p) "jws" = negb (String.eqb (gp_jws p) "").
Proof.
  unfold xl_str, xl_ser, xl_opt. destruct (String.eqb (gp_vm p) ""), (String.eqb (gp_domain p) ""), (String.eqb (gp_challenge p) ""), (String.eqb (gp_value p) "");
    destruct (String.eqb_spec (gp_jws p) "") as [->|]; split; reflexivity.
Qed.
Lemma xl_line_sig p s : unsigned xl_lib p -> xl_line (xl_ser (apply_signature p s)) = xl_line (xl_ser p).
Proof.
  intros H. assert (E : forall k, In k ["type"; "created"; "proofPurpose"; "verificationMethod"; "domain"; "challenge"] ->
    mget (xl_ser (apply_signature p s)) k = mget (xl_ser p) k).
  { intros k Hk. unfold apply_signature. destruct (gp_rep p); unfold xl_ser, xl_opt; cbn [with_value with_jws gp_type gp_created gp_purpose gp_vm gp_domain gp_challenge gp_value gp_jws];
      [| |reflexivity];
      cbn in Hk; repeat (destruct Hk as [<-|Hk]; [try reflexivity;
        destruct (String.eqb (gp_vm p) ""), (String.eqb (gp_domain p) ""), (String.eqb (gp_challenge p) "");
        try reflexivity; try (destruct (String.eqb s "")); destruct (String.eqb (gp_value p) ""), (String.eqb (gp_jws p) "");
        try (destruct (String.eqb (gp_jws p ++ b64_encode s) "")); reflexivity|]); destruct Hk. }
  unfold xl_line.
  assert (Ej : mhas (xl_ser (apply_signature p s)) "jws" = mhas (xl_ser p) "jws").
  { rewrite (proj2 (xl_get_jws p)), (proj2 (xl_get_jws (apply_signature p s))). f_equal. unfold unsigned in H. unfold apply_signature.
    destruct (gp_rep p); [reflexivity| |destruct H]. destruct H as (_ & a & ->). reflexivity. }
  rewrite Ej. cbn [fold_right]. now rewrite !E by (cbn; tauto).
Qed.
Lemma xl_is_reader E : ld_reader xl_lib xl_ser (xl_env E) (fun _ => xl_suite) xl_rd.
Proof.
  constructor.
  - intros m j ps Hf Hg. cbn [ve_ldproofs xl_env]. now rewrite Hf, Hg.
  - intros p s Hu Hv Hs. eexists. split; [reflexivity|]. cbn [lp_type lp_pkid lp_sig]. split; [unfold apply_signature; destruct (gp_rep p); reflexivity|].
    assert (Ev : gp_vm (apply_signature p s) = gp_vm p) by (unfold apply_signature; destruct (gp_rep p); reflexivity).
    rewrite xl_get_vm, Ev. apply String.eqb_neq in Hv. rewrite Hv. split; [reflexivity|]. split.
    + rewrite (proj2 (xl_get_jws _)), (proj1 (xl_get_jws _)), xl_get_value. unfold unsigned in Hu. unfold apply_signature. destruct (gp_rep p); [| |destruct Hu].
      * destruct Hu as (_ & Hj). cbn [with_value gp_jws gp_value]. rewrite Hj. reflexivity.
      * destruct Hu as (_ & a & Hj). cbn [with_jws gp_jws xl_lib ll_header]. rewrite Hj. cbn [xl_lib ll_header]. change (str_drop 6 (("head" ++ "..") ++ b64_encode s)) with (b64_encode s).
        rewrite b64_decode_encode. reflexivity.
    + intros m. cbn [ve_ldmsg xl_env lp_raw ll_vdata xl_lib]. now rewrite xl_line_sig.
  - intros q m m' H. cbn [ve_ldmsg xl_env]. now rewrite (xl_norm_blind _ _ H).
Qed.
(** one creator: Ed25519Signature2018 with the key did:i#k of the example resolver *)
Definition xl_signer : csigner := fun msg => Ok ("sig:" ++ msg).
Definition xl_desc (d : ldesc) : lddesc := {| le_desc := d; le_canon := su_canon xl_suite; le_digest := su_digest xl_suite |}.
Definition xl_creator : creator := new_creator [WithLDProofType (xl_desc l_ed18) xl_signer; WithJWTAlg d_eddsa xl_signer].
Definition xl_ctx (rep : sigrep) : ldctx :=
  {| lx_type := "Ed25519Signature2018"; lx_creator := creator_iface xl_creator; lx_key := Some ED25519Type; lx_rep := rep; lx_created := None; lx_vm := "did:i#k";
     lx_challenge := "c"; lx_domain := "shop"; lx_purpose := ""; lx_chain := None |}.
Lemma xl_found : creator_ld xl_creator "Ed25519Signature2018" = Ok (xl_desc l_ed18, xl_signer).
Proof. reflexivity. Qed.
Lemma xl_fits rep : ld_fits (fun _ => xl_suite) (lx_creator (xl_ctx rep)) (default_ld ex_cenv ex_resolve) "Ed25519Signature2018" (Some ED25519Type) "did:i#k" "did:i".
Proof.
  change (lx_creator (xl_ctx rep)) with (creator_iface xl_creator). split.
  - intros p Hp. split; intros x; cbn [wrap_suite su_canon su_digest creator_iface lc_canon lc_digest]; unfold ldp_canon, ldp_digest; rewrite Hp, xl_found; reflexivity.
  - intros p q msg sig Hp Hs. cbn [creator_iface lc_sign] in Hs. unfold sign_linked in Hs. rewrite Hp, xl_found in Hs. cbn [bind fst snd] in Hs.
    change (methods_for (Some ED25519Type) (ld_vms (le_desc (xl_desc l_ed18)))) with (ld_vms l_ed18) in Hs. cbn match in Hs.
    injection Hs as <-. split; [discriminate|]. intros Ht Hk. unfold default_ld, check_ld_proof. rewrite Ht, Hk. cbn. now rewrite String.eqb_refl.
Qed.
Definition add1 (rep : sigrep) (v : credential) : credential := fst (add_ld_cred xl_lib ord_now (xl_ctx rep) v).
Example C199_example :
  snd (add_ld_cred xl_lib ord_now (xl_ctx RepJWS) sg_cred) = Ok tt /\ ld_lib xl_lib xl_ser /\ mget (cr_json sg_cred) "proof" = None
  /\ snd (add_ld_cred xl_lib ord_now (xl_ctx RepValue) (add1 RepJWS sg_cred)) = Ok tt
  /\ List.length (cr_proofs (add1 RepValue (add1 RepJWS sg_cred))) = 2%nat
  /\ map (fun p => mget p "proofPurpose") (cr_proofs (add1 RepValue (add1 RepJWS sg_cred))) = [Some (JStr "assertionMethod"); Some (JStr "assertionMethod")]
  (* a key type the proof type does not take: refused, nothing changed *)
  /\ (let c := {| lx_type := "Ed25519Signature2018"; lx_creator := creator_iface xl_creator; lx_key := Some ECDSAP256DER; lx_rep := RepValue; lx_created := None;
                  lx_vm := "did:i#k"; lx_challenge := ""; lx_domain := ""; lx_purpose := ""; lx_chain := None |} in
      add_ld_cred xl_lib ord_now c sg_cred = (sg_cred, Err "ld proof not support keys")).
Proof. split; [vm_compute; reflexivity|]. split; [exact xl_is_lib|]. repeat (split; [vm_compute; reflexivity|]). vm_compute. reflexivity. Qed.
Print Assumptions C199_one_proof_appended.
Print Assumptions C199_failure_changes_nothing.

(** ** C200  A linked-data proof added to a credential is accepted: the JSON text of the result is parsed back - proof checking
    on - to the same credential with the earlier proofs and the new one. *)
Lemma parse_embedded_text E o (v : credential) m2 data ps : json_text E data m2 ->
  (forall k, k <> "proof" -> mget m2 k = mget (cr_json v) k) -> NoDup (map fst m2) ->
  coherent (ve_time E) v -> ~ In "EnvelopedVerifiableCredential" (vc_types (cr_contents v)) -> vc_issuer (cr_contents v) <> None ->
  ps <> [] -> mget m2 "proof" = Some (proofs_to_raw ps) ->
  (forall i ms, vc_issuer (cr_contents v) = Some i -> Permutation ms m2 -> co_no_proof o = false -> check_embedded E o ms (Some (is_id i)) = Ok ms) ->
  (co_no_validation o = true \/ forall m c', (forall k, mget m k = mget m2 k) -> same_contents (ve_time E) (cr_contents v) c' -> validate_credential E c' m o = Ok tt) ->
  (co_no_related o = true \/ ve_related E (vc_related (cr_contents v)) = Ok tt) ->
  exists w, parse_credential E o data = Ok w /\ same_contents (ve_time E) (cr_contents v) (cr_contents w)
    /\ cr_proofs w = ps /\ cr_jwt w = None /\ cr_cwt w = None /\ (forall k, mget (to_raw_json w) k = mget m2 k).
Proof.
  intros Hd Hme2 Hn2 (c0 & Hc0 & Hs) Hty Hiss Hne Hpf Hchk Hval Hrel.
  destruct (json_parser_text E o data m2 Hd) as (ms & Hperm & Hjp).
  assert (Hme : forall k, mget ms k = mget m2 k) by (intros k; symmetry; apply mget_perm; [assumption|now apply Permutation_sym]).
  assert (Hpc : parse_contents (ve_time E) ms false = Ok c0).
  { rewrite <- Hc0. apply parse_contents_agree. intros k Hkd. apply fld_mget. rewrite Hme. apply Hme2. intros ->. cbn in Hkd.
    repeat (destruct Hkd as [Hkd|Hkd]; [discriminate|]). destruct Hkd. }
  assert (Hpr : fld ms "proof" = Some (proofs_to_raw ps)).
  { apply fld_some. rewrite Hme. split; [assumption|]. destruct ps as [|p [|p' ps]]; [contradiction|discriminate|discriminate]. }
  assert (Hpl : parse_ld_proof (Some (proofs_to_raw ps)) = Ok ps).
  { destruct ps as [|p [|p' ps]]; [contradiction|reflexivity|]. cbn [proofs_to_raw parse_ld_proof]. apply map_res_objs. }
  rewrite Hpc, Hpr in Hjp. cbn [bind] in Hjp. rewrite Hpl in Hjp. cbn [bind] in Hjp.
  assert (Hvc : (if co_no_validation o then Ok tt else validate_credential E c0 ms o) = Ok tt).
  { destruct (co_no_validation o) eqn:En; [reflexivity|]. destruct Hval as [Hval|Hval]; [discriminate|]. apply Hval; assumption. }
  rewrite Hvc in Hjp. cbn [bind] in Hjp.
  set (w := {| cr_json := ms; cr_contents := c0; cr_proofs := ps; cr_jwt := None; cr_cwt := None |}) in *.
  assert (Hjp' : json_parser E o data = Ok (Some w)) by exact Hjp.
  assert (Hck : (if co_no_proof o then Ok w else check_cred_proof E o w) = Ok w).
  { destruct (co_no_proof o) eqn:Enp; [reflexivity|]. unfold check_cred_proof. cbn [w cr_contents cr_jwt cr_cwt cr_json].
    assert (Hi : vc_issuer c0 = vc_issuer (cr_contents v)) by (symmetry; apply Hs). rewrite Hi. destruct (vc_issuer (cr_contents v)) as [i|] eqn:Ei; [|contradiction].
    rewrite (Hchk i ms eq_refl Hperm eq_refl). reflexivity. }
  assert (Ety : vc_types c0 = vc_types (cr_contents v)) by (symmetry; apply Hs).
  assert (Htm : decode_type (fld m2 "type") = Ok (vc_types c0)).
  { pose proof (parse_contents_parts _ _ _ _ Hc0) as (_ & Ht & _). rewrite <- Ht. f_equal. apply fld_mget, Hme2. discriminate. }
  exists w. split.
  - unfold parse_credential. cbn [try_parsers]. unfold parse_with at 1.
    rewrite (enveloped_other E o data m2 (vc_types c0) Hd Htm) by (rewrite Ety; exact Hty).
    cbn [bind]. unfold parse_with at 1. rewrite Hjp'. cbn [bind]. rewrite Hck. cbn [bind w cr_contents].
    assert (Hr : (if co_no_related o then Ok tt else ve_related E (vc_related c0)) = Ok tt).
    { destruct Hrel as [->|Hrel]; [reflexivity|]. destruct (co_no_related o); [reflexivity|]. rewrite <- Hrel. f_equal. symmetry. apply Hs. }
    rewrite Hr. reflexivity.
  - cbn [w cr_contents cr_proofs cr_jwt cr_cwt]. repeat (split; [solve [assumption | reflexivity]|]).
    intros k. unfold to_raw_json. cbn [w cr_proofs cr_json]. destruct ps as [|p ps]; [contradiction|]. rewrite mget_mset.
    destruct (String.eqb_spec k "proof") as [->|]; [now rewrite Hpf|apply Hme].
Qed.
(** the earlier proofs, if any, are linked-data proofs the options accept for the issuer *)
Definition earlier_accepted (E : venv) (o : copts) (iss : option string) (m : gomap json) (ps : list (gomap json)) : Prop :=
  ps <> [] -> is_di ps = false /\ check_embedded E o m iss = Ok m.
Lemma earlier_verified L ser E suites rd o chk iss m ps : ld_reader L ser E suites rd -> parse_ld_proof (fld m "proof") = Ok ps ->
  co_ld_check o = Some chk -> co_external o = [] -> earlier_accepted E o iss m ps ->
  exists l, map_res rd ps = Ok l /\ verify_ld E chk m iss l = Ok tt.
Proof.
  intros HR Hp Hchk Hex He. destruct ps as [|p ps]; [now exists []|].
  destruct (He ltac:(discriminate)) as (Hdi & Hc). unfold check_embedded in Hc. destruct (fld m "proof") as [j|] eqn:Ef; [|discriminate].
  assert (Hg : get_proofs j = Ok (p :: ps)).
  { destruct j; cbn [parse_ld_proof] in Hp; try discriminate; [|exact Hp]. cbn [get_proofs]. clear - Hp.
    revert Hp. generalize (p :: ps). induction l as [|x l IH]; cbn [map_res]; intros r H; [assumption|].
    apply bind_ok in H as (a & Ha & H). apply bind_ok in H as (b & Hb & H). destruct x; cbn in Ha; try discriminate. cbn. injection Ha as <-. now rewrite (IH _ Hb). }
  rewrite Hg, Hex, Hchk in Hc. cbn [bind] in Hc. rewrite Hdi in Hc. apply bind_ok in Hc as (l & Hl & Hc). apply bind_ok in Hc as ([] & Hv & _).
  exists l. split; [|assumption]. rewrite <- Hl. symmetry. now apply (lr_get _ _ _ _ _ HR m j).
Qed.
Lemma is_di_app ps x : is_di ps = false -> mget x "type" <> Some (JStr "DataIntegrityProof") -> is_di (ps ++ [x]) = false.
Proof.
  intros H Hx. destruct ps as [|p ps]; [|exact H]. cbn [app is_di]. destruct (mget x "type") as [[]|]; try reflexivity.
  apply String.eqb_neq. congruence.
Qed.
Lemma add_embedded L ser E suites rd now c o chk iss doc p ps ms j : ld_lib L ser -> ld_reader L ser E suites rd ->
  make_proof L (lx_creator c) now (map_context c) doc = Ok p -> lx_rep c <> RepOther -> lx_vm c <> "" -> lx_type c <> "DataIntegrityProof" ->
  ld_fits suites (lx_creator c) chk (lx_type c) (lx_key c) (lx_vm c) (issuer_of iss (lx_vm c)) ->
  parse_ld_proof (fld doc "proof") = Ok ps -> co_ld_check o = Some chk -> co_external o = [] -> earlier_accepted E o iss doc ps ->
  same_but_proof doc ms -> fld ms "proof" = Some j -> get_proofs j = Ok (ps ++ [ser p])%list ->
  check_embedded E o ms iss = Ok ms.
Proof.
  intros HL HR Hm Hrep Hvm Hdt Hfit Hp Hchk Hex He Hsame Hf Hg.
  destruct (added_ld_verifies L ser E suites rd now c chk iss doc p ps ms j HL HR Hm Hrep Hvm Hfit) as (l & Hl & Hv); try assumption.
  { eapply earlier_verified; eassumption. }
  unfold check_embedded. rewrite Hf, Hg, Hex, Hchk. cbn [bind]. rewrite is_di_app.
  - rewrite Hl. cbn [bind]. now rewrite Hv.
  - destruct ps; [reflexivity|]. apply (He ltac:(discriminate)).
  - rewrite (la_type _ _ HL). destruct (made_signed _ _ _ _ _ Hm Hrep) as (_ & (-> & _) & _). congruence.
Qed.
Theorem C200_add_proof_then_parse : forall (E : venv) L ser suites rd now c (o : copts) chk (v v' : credential) i (data : string),
  add_ld_cred L now c v = (v', Ok tt) ->
  (* did-go's proof package: adding, reading *)
  ld_lib L ser -> ld_reader L ser E suites rd ->
  (* a coherent credential, neither JWT nor CWT, whose earlier proofs (if any) are accepted *)
  cr_jwt v = None -> cr_cwt v = None -> NoDup (map fst (cr_json v)) -> coherent (ve_time E) v ->
  ~ In "EnvelopedVerifiableCredential" (vc_types (cr_contents v)) -> vc_issuer (cr_contents v) = Some i ->
  mget (cr_json v) "proof" <> Some JNull -> parse_ld_proof (fld (cr_json v) "proof") = Ok (cr_proofs v) ->
  earlier_accepted E o (Some (is_id i)) (cr_json v) (cr_proofs v) ->
  (* the context names a representation and a key; creator and checker fit *)
  lx_rep c <> RepOther -> lx_vm c <> "" -> lx_type c <> "DataIntegrityProof" ->
  co_ld_check o = Some chk -> co_external o = [] ->
  ld_fits suites (lx_creator c) chk (lx_type c) (lx_key c) (lx_vm c) (is_id i) ->
  (* validation and related resources, if not switched off, pass *)
  (co_no_validation o = true \/ forall m c', (forall k, mget m k = mget (to_raw_json v') k) -> same_contents (ve_time E) (cr_contents v) c' ->
     validate_credential E c' m o = Ok tt) ->
  (co_no_related o = true \/ ve_related E (vc_related (cr_contents v)) = Ok tt) ->
  json_text E data (to_raw_json v') ->
  exists w p, parse_credential E o data = Ok w /\ same_contents (ve_time E) (cr_contents v) (cr_contents w)
    /\ cr_proofs w = (cr_proofs v ++ [p])%list /\ cr_proofs v' = (cr_proofs v ++ [p])%list /\ cr_jwt w = None /\ cr_cwt w = None
    /\ (forall k, mget (to_raw_json w) k = mget (to_raw_json v') k)
    /\ (forall k, k <> "proof" -> mget (to_raw_json w) k = mget (cr_json v) k).
Proof.
  intros E L ser suites rd now c o chk v v' i data H HL HR Hj Hw Hn Hco Hty Hi Hnn Hps He Hrep Hvm Hdt Hchk Hex Hfit Hval Hrel Hd.
  unfold add_ld_cred in H. destruct (add_ld L now c (cr_json v)) as [d r] eqn:Ea. injection H as <- Hok. destruct r as [ps| |]; try discriminate. clear Hok.
  destruct (add_ld_spec _ _ _ _ _ _ _ HL Ea Hnn) as (p & Hm & -> & old & Ho & ->).
  rewrite (parse_earlier _ _ Hps Hnn), map_res_objs in Ho. injection Ho as <-. cbn [cr_proofs].
  set (m2 := to_raw_json _) in *. assert (Hm2 : m2 = mset (mset (cr_json v) "proof" (JArr (earlier (cr_json v) ++ [JObj (ser p)]))) "proof" (proofs_to_raw (cr_proofs v ++ [ser p]))).
  { unfold m2, to_raw_json. cbn [cr_proofs cr_json]. destruct (cr_proofs v); reflexivity. }
  assert (Hne : (cr_proofs v ++ [ser p])%list <> []) by (destruct (cr_proofs v); discriminate).
  assert (Hoth : forall k, k <> "proof" -> mget m2 k = mget (cr_json v) k).
  { intros k Hk. rewrite Hm2, !mget_mset. destruct (String.eqb_spec k "proof"); [contradiction|reflexivity]. }
  assert (Hn2 : NoDup (map fst m2)) by (rewrite Hm2; now do 2 apply mset_nodup).
  assert (Hpf : mget m2 "proof" = Some (proofs_to_raw (cr_proofs v ++ [ser p]))) by (now rewrite Hm2, mget_mset, String.eqb_refl).
  destruct (parse_embedded_text E o v m2 data (cr_proofs v ++ [ser p])) as (w & Hw1 & Hw2 & Hw3 & Hw4 & Hw5 & Hw6); try assumption.
  - congruence.
  - intros i' ms Hi' Hperm _. assert (i' = i) by congruence. subst i'.
    assert (Hnms : NoDup (map fst ms)) by (eapply Permutation_NoDup; [apply Permutation_map, Permutation_sym, Hperm|assumption]).
    assert (Hme : forall k, mget ms k = mget m2 k) by (intros k; now apply mget_perm).
    eapply (add_embedded L ser E suites rd now c o chk (Some (is_id i)) (cr_json v) p (cr_proofs v) ms (proofs_to_raw (cr_proofs v ++ [ser p]))); try eassumption.
    + split; [assumption|]. split; [assumption|]. intros k Hk. now rewrite Hme, Hoth.
    + apply fld_some. rewrite Hme. split; [assumption|]. destruct (cr_proofs v ++ [ser p])%list as [|a [|b l]]; [contradiction|discriminate|discriminate].
    + now apply get_to_raw.
  - exists w, (ser p). repeat (split; [assumption|]). split; [reflexivity|]. repeat (split; [assumption|]). intros k Hk. now rewrite Hw6, Hoth.
Qed.
Print Assumptions C200_add_proof_then_parse.
Definition two_v : credential := Eval vm_compute in add1 RepValue (add1 RepJWS sg_cred).
Definition two_text : string := String brace "two".
Definition two_env : venv := xl_env (toyV0 [] [(two_text, rev (to_raw_json two_v))]).
Definition two_opts (resolve : string -> res diddoc) : copts := with_checkers toyO None (Some (default_ld ex_cenv resolve)) None None.
Lemma two_json_text : json_text two_env two_text (to_raw_json two_v).
Proof.
  exists "two", (rev (to_raw_json two_v)). split; [reflexivity|]. split; [vm_compute; reflexivity|]. split; [apply Permutation_sym, Permutation_rev|].
  split; [apply nodup_str_spec; vm_compute; reflexivity|]. intros k Hk. vm_compute in Hk. repeat (destruct Hk as [<-|Hk]; [vm_compute; reflexivity|]). destruct Hk.
Qed.
(** the second proof added to a credential that has one *)
Example C200_example :
  let v := add1 RepJWS sg_cred in
  add_ld_cred xl_lib ord_now (xl_ctx RepValue) v = (two_v, Ok tt) /\ ld_reader xl_lib xl_ser two_env (fun _ => xl_suite) xl_rd
  /\ coherent toyT v /\ NoDup (map fst (cr_json v)) /\ option_map is_id (vc_issuer (cr_contents v)) = Some "did:i"
  /\ parse_ld_proof (fld (cr_json v) "proof") = Ok (cr_proofs v) /\ List.length (cr_proofs v) = 1%nat
  /\ earlier_accepted two_env (two_opts ex_resolve) (Some "did:i") (cr_json v) (cr_proofs v)
  /\ co_no_proof (two_opts ex_resolve) = false
  /\ json_text two_env two_text (to_raw_json two_v) /\ is_ok (parse_credential two_env (two_opts ex_resolve) two_text) = true
  (* checking is on: with another key in the issuer's document the text is refused *)
  /\ is_ok (parse_credential two_env (two_opts (fun _ => Ok [])) two_text) = false.
Proof.
  split; [vm_compute; reflexivity|]. split; [apply xl_is_reader|]. split.
  { destruct sg_coherent as (c0 & H1 & H2). exists c0. split; [|exact H2]. vm_compute in H1 |- *. exact H1. }
  split; [apply nodup_str_spec; vm_compute; reflexivity|]. split; [vm_compute; reflexivity|]. split; [vm_compute; reflexivity|]. split; [reflexivity|].
  split; [intros _; split; vm_compute; reflexivity|]. split; [reflexivity|]. split; [exact two_json_text|]. split; vm_compute; reflexivity.
Qed.
