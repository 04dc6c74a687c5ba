(** Property theorems for data integrity proofs: C33-C36, C85-C94. *)
From Verif Require Import GoBase StatusModel PexModel StrLemmas JwtSpec DiSpec DiModel DiProofs.

(** ** A toy environment for examples and counterexamples. *)
Fixpoint ser (j : json) : string :=
  match j with
  | JNull => "n" | JBool true => "t" | JBool false => "f" | JNum _ => "#" | JStr s => "'" ++ s ++ "'"
  | JArr l => "[" ++ (fix go l := match l with [] => "]" | x :: xs => ser x ++ "," ++ go xs end) l
  | JObj m => "{" ++ (fix go (m : list (string * json)) :=
                 match m with [] => "}" | x :: xs => fst x ++ ":" ++ ser (snd x) ++ "," ++ go xs end) m
  end.
Definition kname (k : dkey) : string :=
  match k with
  | KBytes b => b
  | KJwk j => match jk_key j with KEd b => b | KEc _ b => b | KRsa b => b | KOther b => b end
  end.
Definition toyE : dienv := {|
  d_parse := fun s => match s with
                      | String "T" r => match digits_val 0 r with Some z => Some {| gt_ns := z; gt_off := 0 |} | None => None end
                      | _ => None end;
  d_fmt := fun t => "T" ++ itoa (Z.to_nat (gt_ns t));
  d_canon := fun _ m => Ok (ser (JObj m));
  d_hash := fun _ s => s;
  d_mbdec := fun s => match s with String "z" r => Some r | _ => None end;
  d_mbenc := fun s => String "z" s;
  d_point := fun _ s => s;
  d_verify := fun _ k m sig => String.eqb sig (kname k ++ ":" ++ m) |}.
Definition toy_sign : option jwk -> string -> res string :=
  fun k m => match k with Some j => Ok (kname (KJwk j) ++ ":" ++ m) | None => Err "no key" end.
Definition ecjwk (n : string) : jwk := {| jk_kty := "EC"; jk_crv := "P-256"; jk_key := KEc P256 n |}.
Definition edjwk (n : string) : jwk := {| jk_kty := "OKP"; jk_crv := "Ed25519"; jk_key := KEd n |}.
Definition vmA := {| dm_id := "did:a#k"; dm_jwk := Some (ecjwk "KA"); dm_value := "" |}.
Definition vmB := {| dm_id := "did:b#k"; dm_jwk := Some (ecjwk "KB"); dm_value := "" |}.
Definition vmE := {| dm_id := "did:e#k"; dm_jwk := Some (edjwk "KE"); dm_value := "" |}.
Definition toy_resolve (d : string) : res ddoc :=
  if String.eqb d "did:a" then Ok [(SecAssertion, vmA)]
  else if String.eqb d "did:b" then Ok [(SecGeneral, vmB)]
  else if String.eqb d "did:e" then Ok [(SecGeneral, vmE)]
  (* the document of did:c lists a method of did:b, with the same fragment, before its own *)
  else if String.eqb d "did:c" then
    Ok [(SecAssertion, vmB); (SecAssertion, {| dm_id := "did:c#k"; dm_jwk := Some (ecjwk "KC"); dm_value := "" |})]
  else Err "not found".
Definition toyV : dverifier := {| dv_suites :=
   [("ecdsa-2019", ecdsa_verifier toyE); ("ecdsa-rdfc-2019", ecdsa_verifier toyE);
    ("eddsa-rdfc-2022", eddsa_verifier toyE); ("eddsa-2022", eddsa_verifier toyE)]; dv_resolver := Some toy_resolve |}.
Definition toyS : dsigner := {| dg_suites :=
   [("ecdsa-2019", ecdsa_signer toyE toy_sign); ("ecdsa-rdfc-2019", ecdsa_signer toyE toy_sign);
    ("eddsa-rdfc-2022", eddsa_signer toyE toy_sign); ("eddsa-2022", eddsa_signer toyE toy_sign)]; dg_resolver := Some toy_resolve |}.
Definition toy_opts (vmid suite domain : string) (created expires : Z) : popts :=
  {| o_purpose := "assertionMethod"; o_vmid := vmid; o_vm := None; o_ptype := "DataIntegrityProof"; o_suite := suite;
     o_domain := domain; o_challenge := ""; o_created := {| gt_ns := created; gt_off := 0 |};
     o_expires := {| gt_ns := expires; gt_off := 0 |} |}.
Definition fresh_opts (domain : string) : popts := toy_opts "" "" domain 0 0.
Definition toy_now : gtime := {| gt_ns := 50; gt_off := 0 |}.
Definition toy_doc : json := JObj [("@context", JStr "c"); ("id", JStr "urn:1")].
Definition signed (vmid suite domain : string) (created expires : Z) (doc : json) : json :=
  match snd (add_proof toyS doc (toy_opts vmid suite domain created expires)) with Ok j => j | _ => JNull end.
Definition proof_of (doc : json) : json := match doc_proof doc with Some j => j | None => JNull end.

Lemma toy_std : std_suites toyE (dv_suites toyV).
Proof.
  apply (std_inits_std toyE [(ecdsa_types, Ok (ecdsa_verifier toyE)); (eddsa_types, Ok (eddsa_verifier toyE))]).
  - constructor; [auto|]. constructor; auto.
  - reflexivity.
Qed.
(** Verifiers made by NewVerifier from any selection of the two suites have only these suites. *)
Theorem std_from_initializers : forall E inits m,
  Forall (fun i => i = (ecdsa_types, Ok (ecdsa_verifier E)) \/ i = (eddsa_types, Ok (eddsa_verifier E))) inits ->
  new_registry inits = Ok m -> std_suites E m.
Proof. intros E inits m. apply std_inits_std. Qed.

(** ** C33 *)
Theorem C33_proofs_verified_with_named_method :
  forall E V now m o o' vmid suite created hasexp,
  std_suites E (dv_suites V) ->
  fresh o ->
  Forall (in_frame vmid suite created hasexp) (doc_proofs (JObj m)) ->
  verify_proof E V now (JObj m) o = (o', Ok tt) ->
  mhas m "proof" = true /\
  forall pj, In pj (doc_proofs (JObj m)) ->
  exists p vm r c x, unmarshal_proof pj = Ok p
    /\ dv_resolver V = Some r /\ names r (o_purpose o) (p_vm p) vm
    /\ time_text E (p_created p) c /\ time_text E (p_expires p) x
    /\ signed_by E (p_suite p) vm (mdel m "proof")
         (config (context_of (mdel m "proof")) (p_suite p) (p_vm p) (p_purpose p) c x (o_challenge o) (o_domain o))
         (p_value p).
Proof.
  intros E V now m o o' vmid suite created hasexp Hstd Hf HF H.
  destruct (verify_proof_eval E V now (JObj m) o o _ _ _ _ Hstd HF (fresh_inv _ _ _ _ _ _ _ Hf)) as [He _].
  rewrite H in He. cbn [snd] in He. unfold mhas. cbn [doc_proof] in He.
  destruct (mget m "proof") as [pj0|] eqn:Em; [|discriminate].
  split; [reflexivity|]. intros pj Hin. symmetry in He.
  pose proof (pure_all_ok _ _ _ _ _ _ _ He Hin) as Hone. cbn [del_proof] in Hone.
  apply pure_one_ok in Hone as (p & vm & r & c & x & H1 & H2 & H3 & H4 & H5 & H6 & _ & _ & H7); auto.
  exists p, vm, r, c, x. auto 10.
Qed.
(** a document with one proof is always in a frame *)
Theorem C33_single_proof_in_frame : forall pj p, unmarshal_proof pj = Ok p ->
  in_frame (p_vm p) (p_suite p) (p_created p) (negb (String.eqb (p_expires p) "")) pj.
Proof. intros pj p H q Hq. rewrite H in Hq. injection Hq as <-. unfold frame; auto. Qed.

Example C33_example :
  let doc := signed "did:a#k" "ecdsa-2019" "" 7 99 toy_doc in
  fresh (fresh_opts "") /\ snd (verify_proof toyE toyV toy_now doc (fresh_opts "")) = Ok tt
  /\ List.length (doc_proofs doc) = 1%nat.
Proof. vm_compute. auto 10. Qed.
(** two proofs of the same method over the same document *)
Example C33_example_two :
  let pj := proof_of (signed "did:a#k" "ecdsa-2019" "" 7 99 toy_doc) in
  let doc := JObj [("@context", JStr "c"); ("id", JStr "urn:1"); ("proof", JArr [pj; pj])] in
  snd (verify_proof toyE toyV toy_now doc (fresh_opts "")) = Ok tt.
Proof. vm_compute. reflexivity. Qed.

(** ** C34 *)
Theorem C34_policy_enforced :
  forall E V now m o o', std_suites E (dv_suites V) ->
  verify_proof E V now (JObj m) o = (o', Ok tt) ->
  forall pj, In pj (doc_proofs (JObj m)) ->
  exists p, unmarshal_proof pj = Ok p
    /\ p_type p = "DataIntegrityProof"
    /\ p_purpose p = o_purpose o /\ p_purpose p <> "" /\ p_vm p <> ""
    /\ (o_domain o <> "" -> p_domain p = o_domain o)
    /\ (o_challenge o <> "" -> p_challenge p = o_challenge o)
    /\ (p_expires p <> "" -> exists t, d_parse E (p_expires p) = Some t /\ ~ (gt_ns now > gt_ns t))
    /\ mhas (dv_suites V) (p_suite p) = true
    /\ o_ptype o = "DataIntegrityProof".
Proof.
  intros E V now m o o' Hstd H pj Hin. unfold verify_proof, doc_proofs in *. cbn [doc_proof] in *.
  destruct (mget m "proof") as [pj0|] eqn:Em; [|destruct Hin].
  cbn [del_proof] in H. apply (verify_all_policy E V now _ _ Hstd) in H as [_ HF].
  destruct (HF pj Hin) as (p & s & A1 & A2 & A3 & A4 & A5 & A6 & A7 & A8 & A9 & A10).
  exists p. do 5 (split; [solve [auto]|]). split; [intros; symmetry; auto|]. split; [intros; symmetry; auto|].
  split. { intros Hx. destruct (A7 Hx) as (t & Ht & Hle). exists t. split; [auto|lia]. }
  split; [unfold mhas; rewrite A6; auto|auto].
Qed.
Example C34_example :
  let doc := signed "did:a#k" "ecdsa-2019" "shop" 7 99 toy_doc in
  snd (verify_proof toyE toyV toy_now doc (fresh_opts "shop")) = Ok tt
  /\ snd (verify_proof toyE toyV toy_now doc (fresh_opts "other")) <> Ok tt
  /\ snd (verify_proof toyE toyV {| gt_ns := 100; gt_off := 0 |} doc (fresh_opts "shop")) <> Ok tt.
Proof. vm_compute. repeat split; congruence. Qed.

(** ** C35: a history of calls on documents of one frame does not change later outcomes. *)
Theorem C35_history_independent_in_frame :
  forall E V calls now doc o vmid suite created hasexp,
  std_suites E (dv_suites V) -> fresh o ->
  Forall (fun c => Forall (in_frame vmid suite created hasexp) (doc_proofs (snd c))) ((now, doc) :: calls) ->
  snd (verify_proof E V now doc (after_calls E V calls o)) = snd (verify_proof E V now doc o).
Proof.
  intros E V calls now doc o vmid suite created hasexp Hstd Hf HF.
  inversion HF as [|? ? Hd Hc]; subst. cbn [snd] in Hd.
  pose proof (fresh_inv E (dv_resolver V) o vmid suite created hasexp Hf) as I0.
  pose proof (after_calls_inv E V calls o vmid suite created hasexp Hstd Hc o I0) as I1.
  destruct (verify_proof_eval E V now doc o o _ _ _ _ Hstd Hd I0) as [E0 _].
  destruct (verify_proof_eval E V now doc o _ _ _ _ _ Hstd Hd I1) as [E1 _]. congruence.
Qed.
Example C35_example :
  let doc := signed "did:a#k" "ecdsa-2019" "" 7 99 toy_doc in
  let bad := JObj [("id", JStr "tampered"); ("proof", proof_of doc)] in
  snd (verify_proof toyE toyV toy_now doc (after_calls toyE toyV [(toy_now, bad); (toy_now, doc)] (fresh_opts ""))) = Ok tt
  /\ snd (verify_proof toyE toyV toy_now bad (after_calls toyE toyV [(toy_now, doc)] (fresh_opts ""))) <> Ok tt.
Proof. vm_compute. split; congruence. Qed.

(** ** C36 *)
Lemma fragment_of_fun s f : fragment_of s f -> f = vm_fragment s.
Proof.
  unfold vm_fragment. intros H; inversion H; subst.
  - rewrite split_on_free by (apply free_of_not_in; auto). reflexivity.
  - rewrite split_on_app by (apply free_of_not_in; auto). rewrite split_on_free by (apply free_of_not_in; auto). reflexivity.
  - rewrite split_on_app by (apply free_of_not_in; auto). rewrite split_on_app by (apply free_of_not_in; auto).
    destruct (split_on hash_char c) eqn:E; [exfalso; eapply split_on_nonempty; eauto|reflexivity].
Qed.
Theorem C36_method_by_purpose : forall purpose id frag d,
  fragment_of id frag ->
  (forall vm, get_vm_by_purpose purpose id d = Ok vm ->
     exists sec, In (sec, vm) d /\ authorised purpose sec /\ fragment_of (dm_id vm) frag) /\
  ((exists sec vm, In (sec, vm) d /\ authorised purpose sec /\ fragment_of (dm_id vm) frag) ->
     exists vm, get_vm_by_purpose purpose id d = Ok vm).
Proof.
  intros purpose id frag d Hf. apply fragment_of_fun in Hf. subst frag. split.
  - intros vm H. apply get_vm_by_purpose_spec in H as (sec & H1 & H2 & H3). exists sec. rewrite H3.
    split; [auto|]. split; [auto|]. apply vm_fragment_spec.
  - intros (sec & vm & H1 & H2 & H3). apply fragment_of_fun in H3.
    eapply get_vm_by_purpose_complete; eauto.
Qed.
(** seen from the API: the method a new proof names is authorised for its purpose *)
Theorem C36_signing_method : forall E sg S doc o o' out s n,
  mget (dg_suites S) (o_suite o) = Some s -> s = ecdsa_signer E sg \/ s = eddsa_signer E sg ->
  In n (ecdsa_types ++ eddsa_types)%list -> o_suite o = n -> o_vm o = None ->
  add_proof S doc o = (o', Ok out) ->
  exists r vm p, dg_resolver S = Some r /\ names r (o_purpose o) (o_vmid o) vm
    /\ doc_proof out = Some (marshal_proof p) /\ p_vm p = dm_id vm /\ p_purpose p = o_purpose o.
Proof.
  intros E sg S doc o o' out s n Hs Hss Hn Hsn Hvm H.
  apply add_proof_ok in H as (s' & o1 & p & Hs' & Hr & Hc & _ & _ & _ & _ & _ & _ & ->).
  rewrite Hs in Hs'. injection Hs' as <-.
  rewrite resolve_vm_eval, Hvm in Hr. cbv zeta in Hr.
  assert (Hoa : (if String.eqb (o_vmid o) "" then set_vmid o "" else o) = o).
  { destruct (String.eqb_spec (o_vmid o) "") as [e|]; [|auto]. apply popts_ext; cbn; auto. }
  rewrite Hoa in Hr.
  destruct (resolved (dg_resolver S) (o_purpose o) (o_vmid o)) as [vm|e|] eqn:Er; [|discriminate..].
  injection Hr as <-. apply vm_resolved_iff, vm_resolved_names in Er as (r & Hr & Hna).
  exists r, vm, p. split; [auto|]. split; [auto|].
  assert (Hne : o_suite (set_vm o vm) <> "").
  { cbn. rewrite Hsn. cbn in Hn. repeat (destruct Hn as [<-|Hn]; [discriminate|]). contradiction. }
  assert (exists msg a k sig vm', o' = set_vm o vm /\ o_vm o' = Some vm' /\
     p_vm p = dm_id vm' /\ p_purpose p = o_purpose o' /\ sg (key_jwk k) msg = Ok sig /\ a = a :> dalg) as
     (? & ? & ? & ? & vm' & -> & Hv & Hpv & Hpp & _).
  { destruct Hss as [-> | ->]; cbn [ss_create ecdsa_signer eddsa_signer] in Hc;
      apply transform_create in Hc as (msg & a & k & sig & vm' & Ht & Hsig & Hv' & ->).
    - pose proof (ecdsa_transform_fst E doc _ Hne) as Hf. rewrite Ht in Hf. cbn in Hf. subst o'.
      exists msg, a, k, sig, vm'. auto 10.
    - pose proof (eddsa_transform_fst E doc (set_vm o vm)) as Hf. rewrite Ht in Hf. cbn in Hf. subst o'.
      exists msg, a, k, sig, vm'. auto 10. }
  cbn in Hv. injection Hv as <-. split; [|split; auto].
  destruct doc; cbn [set_proof doc_proof]; try reflexivity. rewrite mget_mset, String.eqb_refl. reflexivity.
Qed.
Example C36_example :
  get_vm_by_purpose "authentication" "did:a#k" [(SecGeneral, vmB); (SecAuthentication, vmA)] = Ok vmA
  /\ get_vm_by_purpose "assertionMethod" "did:a#k" [(SecGeneral, vmB); (SecAuthentication, vmA)] = Ok vmB
  /\ is_ok (get_vm_by_purpose "capabilityInvocation" "did:a#k" [(SecGeneral, vmB); (SecAuthentication, vmA)]) = false.
Proof. vm_compute. auto. Qed.

(** ** C85: acceptance implies that there is a proof: false. *)
Theorem C85_empty_proof_set_accepted_refuted :
  (forall E V now m o, mget m "proof" = Some (JArr []) \/ mget m "proof" = Some JNull ->
     verify_proof E V now (JObj m) o = (o, Ok tt)) /\
  ~ (forall E V now m o o', std_suites E (dv_suites V) -> fresh o ->
       verify_proof E V now (JObj m) o = (o', Ok tt) -> doc_proofs (JObj m) <> []).
Proof.
  split.
  - intros E V now m o H. unfold verify_proof. cbn [doc_proof]. destruct H as [-> | ->]; reflexivity.
  - intros H. apply (H toyE toyV toy_now [("id", JStr "forged"); ("proof", JArr [])] (fresh_opts "") (fresh_opts "") toy_std).
    + vm_compute. auto.
    + reflexivity.
    + reflexivity.
Qed.

(** ** C86: every proof is checked against the method it names: false for several proofs. *)
Definition mixed_doc : json :=
  match signed "did:a#k" "ecdsa-2019" "" 7 99 toy_doc with
  | JObj m => match mget m "proof" with
              | Some (JObj p) => JObj (mset m "proof" (JArr [JObj p; JObj (mset p "verificationMethod" (JStr "did:nobody#k"))]))
              | _ => JNull end
  | _ => JNull end.
Theorem C86_each_proof_own_method_refuted :
  ~ (forall E V now m o o', std_suites E (dv_suites V) -> fresh o ->
       verify_proof E V now (JObj m) o = (o', Ok tt) ->
       forall pj p, In pj (doc_proofs (JObj m)) -> unmarshal_proof pj = Ok p ->
       exists r vm cfg, dv_resolver V = Some r /\ names r (o_purpose o) (p_vm p) vm
         /\ signed_by E (p_suite p) vm (mdel m "proof") cfg (p_value p)).
Proof.
  intros H.
  assert (Hd : exists m pj, mixed_doc = JObj m /\ In pj (doc_proofs (JObj m)) /\
            exists p, unmarshal_proof pj = Ok p /\ p_vm p = "did:nobody#k").
  { eexists. eexists. split; [reflexivity|]. split; [right; left; reflexivity|]. eexists. split; [vm_compute; reflexivity|reflexivity]. }
  destruct Hd as (m & pj & Hm & Hin & p & Hp & Hv).
  destruct (verify_proof toyE toyV toy_now (JObj m) (fresh_opts "")) as [o' r'] eqn:Ev.
  assert (r' = Ok tt).
  { rewrite <- Hm in Ev. vm_compute in Ev. congruence. }
  subst r'. destruct (H toyE toyV toy_now m (fresh_opts "") o' toy_std ltac:(vm_compute; auto) Ev pj p Hin Hp)
    as (r & vm & cfg & Hr & Hn & _).
  injection Hr as <-. destruct Hn as (did & frag & doc & sec & Hu & Hres & _).
  rewrite Hv in Hu. destruct Hu as (Hu & Hd1 & Hd2).
  assert (Hs : split_on hash_char "did:nobody#k" = [did; frag]).
  { rewrite Hu. rewrite split_on_app by (apply free_of_not_in; auto). rewrite split_on_free by (apply free_of_not_in; auto). reflexivity. }
  vm_compute in Hs. injection Hs as <- <-. vm_compute in Hres. discriminate.
Qed.

(** ** C87: VerifyProof with a reused options value gives the answer of a first call: false.  After one document was
    verified, a genuine document of another DID is rejected and a document whose proof names a method that does not
    exist, signed with the first document's key, is accepted. *)
Definition docA := signed "did:a#k" "ecdsa-2019" "" 7 99 toy_doc.
Definition docB := signed "did:b#k" "ecdsa-2019" "" 7 99 toy_doc.
Definition docN : json :=
  match docA with
  | JObj m => match mget m "proof" with
              | Some (JObj p) => JObj (mset m "proof" (JObj (mset p "verificationMethod" (JStr "did:nobody#k"))))
              | _ => JNull end
  | _ => JNull end.
Theorem C87_reused_options_refuted :
  ~ (forall E V calls now doc o, std_suites E (dv_suites V) -> fresh o ->
       snd (verify_proof E V now doc (after_calls E V calls o)) = snd (verify_proof E V now doc o)).
Proof.
  intros H. specialize (H toyE toyV [(toy_now, docA)] toy_now docN (fresh_opts "") toy_std ltac:(vm_compute; auto)).
  vm_compute in H. discriminate.
Qed.
Example C87_example :
  snd (verify_proof toyE toyV toy_now docB (fresh_opts "")) = Ok tt
  /\ snd (verify_proof toyE toyV toy_now docB (after_calls toyE toyV [(toy_now, docA)] (fresh_opts ""))) <> Ok tt
  /\ snd (verify_proof toyE toyV toy_now docN (fresh_opts "")) <> Ok tt
  /\ snd (verify_proof toyE toyV toy_now docN (after_calls toyE toyV [(toy_now, docA)] (fresh_opts ""))) = Ok tt.
Proof. vm_compute. repeat split; congruence. Qed.

(** ** C88: sign, then verify *)
Theorem C88_sign_then_verify :
  forall E sg S V now m o o' out ov ss vs,
  (* matching suites on both sides, for the suite named in the options *)
  paired E sg (o_suite o) ss vs ->
  mget (dg_suites S) (o_suite o) = Some ss -> mget (dv_suites V) (o_suite o) = Some vs -> std_suites E (dv_suites V) ->
  dg_resolver S = dv_resolver V ->
  (* the document carries no proof yet *)
  o_vm o = None -> mget m "proof" = None ->
  add_proof S (JObj m) o = (o', Ok out) ->
  (* the DID document lists the method under the id that was asked for, and the signer has its key *)
  (forall vm, vm_resolved (dv_resolver V) (o_purpose o) (o_vmid o) vm -> dm_id vm = o_vmid o /\
     forall a h k msg sig, suite_key E (o_suite o) vm a h k -> sg (key_jwk k) msg = Ok sig -> d_verify E a k msg sig = true) ->
  (* text encodings are faithful *)
  (forall s, d_mbdec E (d_mbenc E s) = Some s) ->
  (forall t, t = o_created o \/ t = o_expires o ->
     d_fmt E t <> "" /\ exists t', d_parse E (d_fmt E t) = Some t' /\ is_zero t' = is_zero t /\ d_fmt E t' = d_fmt E t) ->
  (* not expired *)
  (is_zero (o_expires o) = false -> forall t', d_parse E (d_fmt E (o_expires o)) = Some t' -> gt_ns now <= gt_ns t') ->
  (* the verifier expects the same purpose, domain and challenge *)
  fresh ov -> o_purpose ov = o_purpose o -> o_domain ov = o_domain o -> o_challenge ov = o_challenge o ->
  o_ptype ov = o_ptype o ->
  snd (verify_proof E V now out ov) = Ok tt.
Proof.
  intros. eapply sign_then_verify; eauto. unfold keeps; auto.
Qed.
Example C88_hypotheses_met :
  snd (verify_proof toyE toyV toy_now (signed "did:a#k" "ecdsa-2019" "shop" 7 99 toy_doc) (fresh_opts "shop")) = Ok tt.
Proof.
  destruct (add_proof toyS toy_doc (toy_opts "did:a#k" "ecdsa-2019" "shop" 7 99)) as [o' r] eqn:Ea.
  assert (Er : r = Ok (signed "did:a#k" "ecdsa-2019" "shop" 7 99 toy_doc)).
  { unfold signed. rewrite Ea. vm_compute in Ea. injection Ea as _ <-. reflexivity. }
  subst r. unfold toy_doc in Ea at 1.
  apply (C88_sign_then_verify toyE toy_sign toyS toyV toy_now [("@context", JStr "c"); ("id", JStr "urn:1")]
           (toy_opts "did:a#k" "ecdsa-2019" "shop" 7 99) o' _ (fresh_opts "shop") (ecdsa_signer toyE toy_sign) (ecdsa_verifier toyE));
    auto; try reflexivity.
  - apply pr_ecdsa. cbn. auto.
  - apply toy_std.
  - intros vm Hvm. apply vm_resolved_iff in Hvm. vm_compute in Hvm. injection Hvm as <-. split; [reflexivity|].
    intros a h k msg sig Hk Hs. inversion Hk; subst; try discriminate.
    + cbn in Hs. match goal with H : dm_jwk _ = Some _ |- _ => injection H as <- end. injection Hs as <-. cbn. apply String.eqb_refl.
    + match goal with H : dm_jwk _ = Some _ |- _ => injection H as <- end. discriminate.
    + cbn in *. destruct H; discriminate.
  - intros t [-> | ->]; (split; [discriminate|]); eexists; vm_compute; eauto.
  - intros _ t'. vm_compute. intros [= <-]. discriminate.
  - vm_compute. auto.
Qed.
Example C88_example :
  forallb (fun c : string * string => match c with (id, suite) =>
    is_ok (snd (verify_proof toyE toyV toy_now (signed id suite "shop" 7 99 toy_doc) (fresh_opts "shop"))) end)
   [("did:a#k", "ecdsa-2019"); ("did:b#k", "ecdsa-rdfc-2019"); ("did:e#k", "eddsa-rdfc-2022")] = true.
Proof. vm_compute. reflexivity. Qed.

(** ** C89: what AddProof returns verifies: false when the document already carries a proof (it is hashed when signing
    but removed when verifying), and false for the suite name "eddsa-2022" (another name is written into the proof
    than the one that was hashed). *)
Theorem C89_add_proof_always_verifies_refuted :
  let second := signed "did:a#k" "ecdsa-2019" "" 8 99 docA in
  let alias := signed "did:e#k" "eddsa-2022" "" 7 99 toy_doc in
  second <> JNull /\ alias <> JNull /\
  snd (verify_proof toyE toyV toy_now second (fresh_opts "")) <> Ok tt /\
  snd (verify_proof toyE toyV toy_now alias (fresh_opts "")) <> Ok tt /\
  (* although nothing else is wrong: *)
  snd (verify_proof toyE toyV toy_now (signed "did:a#k" "ecdsa-2019" "" 8 99 toy_doc) (fresh_opts "")) = Ok tt /\
  snd (verify_proof toyE toyV toy_now (signed "did:e#k" "eddsa-rdfc-2022" "" 7 99 toy_doc) (fresh_opts "")) = Ok tt.
Proof. vm_compute. repeat split; congruence. Qed.

(** ** C90: tampering.  If a key only verifies messages its owner signed, then what VerifyProof accepts has the
    canonical form of a document that the owner of the named method signed, together with a configuration of the same
    canonical form (suite, method, purpose, times, expected challenge and domain) -- or the two give a hash collision. *)
Definition hash_len (h : hashalg) : nat := match h with SHA256 => 32 | SHA384 => 48 | SHA512 => 64 end.
Definition hash_lengths (E : dienv) : Prop := forall h a, String.length (d_hash E h a) = hash_len h.
Definition collision (E : dienv) : Prop := exists h a b, a <> b /\ d_hash E h a = d_hash E h b.
Lemma app_eq_len (a b c d : string) : String.length a = String.length c -> a ++ b = c ++ d -> a = c /\ b = d.
Proof.
  revert c. induction a as [|x a IH]; intros [|y c]; cbn; try discriminate; [auto|].
  intros [= Hl] [= -> He]. destruct (IH c Hl He) as [-> ->]. auto.
Qed.
Lemma message_inj E h h' d c d' c' m : hash_lengths E -> message E h d c m -> message E h' d' c' m ->
  (h = h' /\ d_canon E h d = d_canon E h d' /\ d_canon E h c = d_canon E h c') \/ collision E.
Proof.
  intros Hi (cd & cc & H1 & H2 & ->) (cd' & cc' & H3 & H4 & He).
  pose proof (f_equal String.length He) as Hl. rewrite !append_length, !Hi in Hl.
  assert (h = h') as <- by (destruct h, h'; cbn in Hl; congruence).
  apply app_eq_len in He as [E1 E2]; [|rewrite !Hi; reflexivity].
  destruct (string_dec cc cc') as [<-|N1]; [|right; exists h, cc, cc'; auto].
  destruct (string_dec cd cd') as [<-|N2]; [|right; exists h, cd, cd'; auto].
  left. rewrite H1, H2, H3, H4. auto.
Qed.
Theorem C90_accepted_documents_were_signed :
  forall E V now m o o' vmid suite created hasexp
    (log : dkey -> gomap json -> gomap json -> Prop),   (* what the owner of each key signed: document, configuration *)
  std_suites E (dv_suites V) -> fresh o -> hash_lengths E ->
  (forall a k msg sig, d_verify E a k msg sig = true ->
     exists h d c, log k d c /\ message E h d c msg) ->
  Forall (in_frame vmid suite created hasexp) (doc_proofs (JObj m)) ->
  verify_proof E V now (JObj m) o = (o', Ok tt) ->
  forall pj, In pj (doc_proofs (JObj m)) ->
  (exists p r vm a h k d0 c0 c x, unmarshal_proof pj = Ok p
    /\ dv_resolver V = Some r /\ names r (o_purpose o) (p_vm p) vm /\ suite_key E (p_suite p) vm a h k
    /\ log k d0 c0
    /\ d_canon E h d0 = d_canon E h (mdel m "proof")
    /\ time_text E (p_created p) c /\ time_text E (p_expires p) x
    /\ d_canon E h c0 = d_canon E h (config (context_of (mdel m "proof")) (p_suite p) (p_vm p) (p_purpose p) c x
                                        (o_challenge o) (o_domain o)))
  \/ collision E.
Proof.
  intros E V now m o o' vmid suite created hasexp log Hstd Hf Hi Hlog HF H pj Hin.
  destruct (C33_proofs_verified_with_named_method _ _ _ _ _ _ _ _ _ _ Hstd Hf HF H) as [_ Hall].
  destruct (Hall pj Hin) as (p & vm & r & c & x & Hp & Hr & Hn & Hc & Hx & Hs).
  destruct Hs as (a & h & k & sig & msg & Hk & _ & Hm & Hv).
  destruct (Hlog _ _ _ _ Hv) as (h' & d0 & c0 & Hl & Hm').
  destruct (message_inj _ _ _ _ _ _ _ _ Hi Hm Hm') as [(<- & E1 & E2)|Hcol]; [left|right; auto].
  exists p, r, vm, a, h, k, d0, c0, c, x. repeat (split; [solve [auto]|]). auto.
Qed.
(** an environment with fixed-length hashes and a key that verifies exactly one message *)
Fixpoint pad (n : nat) (s : string) : string :=
  match n with O => "" | S n' => match s with "" => String "0" (pad n' "") | String c s' => String c (pad n' s') end end.
Definition cfgA : gomap json :=
  config (JStr "c") "ecdsa-2019" "did:a#k" "assertionMethod" (Some "T7") (Some "T99") "" "".
Definition msgA : string := pad 32 (ser (JObj cfgA)) ++ pad 32 (ser toy_doc).
Definition padE : dienv := {| d_parse := d_parse toyE; d_fmt := d_fmt toyE; d_canon := d_canon toyE;
  d_hash := fun h s => pad (hash_len h) s; d_mbdec := d_mbdec toyE; d_mbenc := d_mbenc toyE; d_point := d_point toyE;
  d_verify := fun _ k m sig => String.eqb (kname k) "KA" && String.eqb m msgA && String.eqb sig "sig" |}.
Definition padV : dverifier := {| dv_suites := [("ecdsa-2019", ecdsa_verifier padE)]; dv_resolver := Some toy_resolve |}.
Definition pad_doc (id : string) : gomap json :=
  [("@context", JStr "c"); ("id", JStr id); ("proof", JObj [("type", JStr "DataIntegrityProof");
     ("cryptosuite", JStr "ecdsa-2019"); ("proofPurpose", JStr "assertionMethod"); ("verificationMethod", JStr "did:a#k");
     ("created", JStr "T7"); ("expires", JStr "T99"); ("proofValue", JStr "zsig")])].
Lemma pad_length n s : String.length (pad n s) = n.
Proof. revert s. induction n; intros [|c s]; cbn; auto. Qed.
Example C90_example :
  std_suites padE (dv_suites padV) /\ hash_lengths padE /\ fresh (fresh_opts "")
  /\ (forall a k msg sig, d_verify padE a k msg sig = true ->
       exists h d c, (kname k = "KA" /\ JObj d = toy_doc /\ c = cfgA) /\ message padE h d c msg)
  /\ Forall (in_frame "did:a#k" "ecdsa-2019" "T7" true) (doc_proofs (JObj (pad_doc "urn:1")))
  /\ snd (verify_proof padE padV toy_now (JObj (pad_doc "urn:1")) (fresh_opts "")) = Ok tt
  /\ snd (verify_proof padE padV toy_now (JObj (pad_doc "urn:2")) (fresh_opts "")) <> Ok tt.
Proof.
  split. { intros n s. cbn. destruct (String.eqb_spec n "ecdsa-2019") as [->|]; [|discriminate]. intros [= <-]. left. cbn. auto. }
  split. { intros h a. apply pad_length. }
  split; [vm_compute; auto|]. split.
  { intros a k msg sig H. cbn in H. apply andb_true_iff in H as [H _]. apply andb_true_iff in H as [H1 H2].
    apply String.eqb_eq in H1, H2. subst msg. exists SHA256, [("@context", JStr "c"); ("id", JStr "urn:1")], cfgA.
    split; [auto|]. exists (ser toy_doc), (ser (JObj cfgA)). auto. }
  split. { constructor; [|constructor]. intros p Hp. vm_compute in Hp. injection Hp as <-. vm_compute. auto. }
  vm_compute. split; congruence.
Qed.

(** ** C91: the signature covers the proof's domain: false when the verifier expects no particular domain.  A domain
    written into a proof after signing is accepted, and a proof signed with a domain is rejected. *)
Definition with_domain (doc : json) (d : string) : json :=
  match doc with
  | JObj m => match mget m "proof" with Some (JObj p) => JObj (mset m "proof" (JObj (mset p "domain" (JStr d)))) | _ => JNull end
  | _ => JNull end.
Theorem C91_domain_covered_refuted :
  snd (verify_proof toyE toyV toy_now (with_domain docA "added.example") (fresh_opts "")) = Ok tt /\
  snd (verify_proof toyE toyV toy_now (signed "did:a#k" "ecdsa-2019" "shop" 7 99 toy_doc) (fresh_opts "")) <> Ok tt /\
  ~ (forall E V now m o o' vmid suite created hasexp, std_suites E (dv_suites V) -> fresh o ->
       Forall (in_frame vmid suite created hasexp) (doc_proofs (JObj m)) ->
       verify_proof E V now (JObj m) o = (o', Ok tt) -> forall pj p, In pj (doc_proofs (JObj m)) -> unmarshal_proof pj = Ok p ->
       exists vm c x, signed_by E (p_suite p) vm (mdel m "proof")
         (config (context_of (mdel m "proof")) (p_suite p) (p_vm p) (p_purpose p) c x (p_challenge p) (p_domain p)) (p_value p)).
Proof.
  split; [vm_compute; reflexivity|]. split; [vm_compute; congruence|].
  intros H.
  (* an environment in which a signature is valid only if the message does not mention a domain *)
  set (E2 := {| d_parse := fun _ => None; d_fmt := fun _ => ""; 
                d_canon := fun _ m => Ok (if mhas m "domain" then "with" else "without");
                d_hash := fun _ s => s; d_mbdec := fun s => Some s; d_mbenc := fun s => s; d_point := fun _ s => s;
                d_verify := fun _ _ m _ => String.eqb m "withoutwithout" |}).
  set (V2 := {| dv_suites := [("ecdsa-2019", ecdsa_verifier E2)]; dv_resolver := Some toy_resolve |}).
  set (pj := JObj [("type", JStr "DataIntegrityProof"); ("cryptosuite", JStr "ecdsa-2019"); ("proofPurpose", JStr "assertionMethod");
                   ("verificationMethod", JStr "did:a#k"); ("domain", JStr "added"); ("proofValue", JStr "s")]).
  assert (Hstd : std_suites E2 (dv_suites V2)).
  { intros n s. cbn. destruct (String.eqb_spec n "ecdsa-2019") as [->|]; [|discriminate]. intros [= <-]. left. cbn. auto. }
  set (p := {| p_id := ""; p_type := "DataIntegrityProof"; p_suite := "ecdsa-2019"; p_purpose := "assertionMethod";
               p_vm := "did:a#k"; p_created := ""; p_expires := ""; p_domain := "added"; p_challenge := ""; p_value := "s";
               p_prev := "" |}).
  assert (Hp : unmarshal_proof pj = Ok p) by reflexivity.
  destruct (verify_proof E2 V2 toy_now (JObj [("proof", pj)]) (fresh_opts "")) as [o' r'] eqn:Ev.
  assert (r' = Ok tt) by (vm_compute in Ev; congruence). subst r'.
  destruct (H E2 V2 toy_now [("proof", pj)] (fresh_opts "") o' "did:a#k" "ecdsa-2019" "" false Hstd) with (pj := pj) (p := p)
    as (vm & c & x & Hs); auto.
  - vm_compute. auto.
  - constructor; [|constructor]. intros q Hq. rewrite Hp in Hq. injection Hq as <-. vm_compute. auto.
  - cbn. auto.
  - destruct Hs as (a & h & k & sig & msg & _ & _ & (cd & cc & H1 & H2 & ->) & Hv).
    assert (cc = "with").
    { destruct c, x; cbn in H2; congruence. }
    assert (cd = "without") by (cbn in H1; congruence).
    subst. cbn in Hv. discriminate.
Qed.

(** ** C92: the effect of AddProof: every other member of the document is kept, the proof member is exactly one new
    proof with the requested purpose, domain, challenge and (non-empty) method. *)
Theorem C92_add_proof_effect :
  forall S m o o' out, add_proof S (JObj m) o = (o', Ok out) ->
  exists m' p, out = JObj m' /\ mget m' "proof" = Some (marshal_proof p) /\ unmarshal_proof (marshal_proof p) = Ok p
    /\ (forall k, k <> "proof" -> mget m' k = mget m k)
    /\ p_type p <> "" /\ p_purpose p <> "" /\ p_vm p <> ""
    /\ (o_domain o' <> "" -> p_domain p = o_domain o') /\ (o_challenge o' <> "" -> p_challenge p = o_challenge o').
Proof.
  intros S m o o' out H.
  apply add_proof_ok in H as (s & o1 & p & _ & _ & _ & A1 & A2 & A3 & _ & A4 & A5 & ->).
  exists (mset m "proof" (marshal_proof p)), p. split; [reflexivity|]. rewrite mget_mset, String.eqb_refl.
  split; [reflexivity|]. split; [apply unmarshal_marshal|]. split; [|auto 10].
  intros k Hk. rewrite mget_mset. destruct (String.eqb_spec k "proof"); [contradiction|reflexivity].
Qed.
Example C92_example : exists o', add_proof toyS toy_doc (toy_opts "did:a#k" "ecdsa-2019" "shop" 7 99) = (o', Ok (signed "did:a#k" "ecdsa-2019" "shop" 7 99 toy_doc)).
Proof. eexists. vm_compute. reflexivity. Qed.

(** ** C93: the method used has the id that the proof names: false, only the part after '#' is compared.  The document
    of did:c lists did:b's method first; a proof naming did:c#k is checked with did:b's key. *)
Theorem C93_method_id_equals_named_refuted :
  exists vm, resolved (dv_resolver toyV) "assertionMethod" "did:c#k" = Ok vm /\ dm_id vm = "did:b#k" /\
  (exists doc p, doc_proofs doc = [p] /\ (exists q, unmarshal_proof p = Ok q /\ p_vm q = "did:c#k") /\
     exists o', verify_proof toyE toyV toy_now doc (fresh_opts "") = (o', Ok tt) /\ o_vm o' = Some vmB).
Proof.
  exists vmB. split; [vm_compute; reflexivity|]. split; [reflexivity|].
  exists (match signed "did:c#k" "ecdsa-2019" "" 7 99 toy_doc with
          | JObj m => match mget m "proof" with
                      | Some (JObj p) => JObj (mset m "proof" (JObj (mset p "verificationMethod" (JStr "did:c#k"))))
                      | _ => JNull end
          | _ => JNull end).
  eexists. split; [vm_compute; reflexivity|]. split; [eexists; split; vm_compute; reflexivity|].
  eexists. split; vm_compute; reflexivity.
Qed.

(** ** C94: NewVerifier/NewSigner: the suite registered first for a name serves it; a later one never replaces it, and a
    name nobody lists has no suite. *)
Theorem C94_first_registration_wins : forall (S : Type) (inits : list (list string * res S)) m n,
  new_registry inits = Ok m ->
  (forall s, mget m n = Some s <->
     exists pre types post, inits = (pre ++ (types, Ok s) :: post)%list /\ In n types /\
        Forall (fun i => ~ In n (fst i)) pre).
Proof.
  intros S inits m n H s. rewrite (new_registry_spec _ _ H n). clear H m.
  induction inits as [|[types init] rest IH]; cbn [first_init].
  - split; [discriminate|]. intros (pre & t & post & He & _). destruct pre; discriminate.
  - destruct (str_in n types) eqn:Ei.
    + apply str_in_In in Ei. split.
      * destruct init as [s'|e|]; try discriminate. intros [= ->]. exists [], types, rest. repeat split; auto.
      * intros (pre & t & post & He & Hin & Hpre). destruct pre as [|i pre].
        -- injection He as -> -> ->. reflexivity.
        -- injection He as <- ->. inversion Hpre; subst. contradiction.
    + apply str_in_nIn in Ei. rewrite IH. split.
      * intros (pre & t & post & -> & Hin & Hpre). exists ((types, init) :: pre), t, post. repeat split; auto.
      * intros (pre & t & post & He & Hin & Hpre). destruct pre as [|i pre].
        -- injection He as -> -> ->. contradiction.
        -- injection He as <- ->. inversion Hpre; subst. exists pre, t, post. auto.
Qed.
Example C94_example : new_registry [(["a"; "b"], Ok 1%nat); (["b"; "c"], Ok 2%nat)] = Ok [("a", 1%nat); ("b", 1%nat); ("c", 2%nat)].
Proof. reflexivity. Qed.

Print Assumptions C33_proofs_verified_with_named_method.
Print Assumptions C34_policy_enforced.
Print Assumptions C35_history_independent_in_frame.
Print Assumptions C36_method_by_purpose.
Print Assumptions C36_signing_method.
Print Assumptions C85_empty_proof_set_accepted_refuted.
Print Assumptions C86_each_proof_own_method_refuted.
Print Assumptions C87_reused_options_refuted.
Print Assumptions C88_sign_then_verify.
Print Assumptions C89_add_proof_always_verifies_refuted.
Print Assumptions C90_accepted_documents_were_signed.
Print Assumptions C91_domain_covered_refuted.
Print Assumptions C92_add_proof_effect.
Print Assumptions C93_method_id_equals_named_refuted.
Print Assumptions C94_first_registration_wins.
