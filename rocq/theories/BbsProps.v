(** Theorems about BBS+ selective disclosure (C207-C216). *)
From Coq Require Import Permutation.
From Verif Require Import GoBase Base64 StrLemmas JwtSpec DiSpec VcSpec JwtModel JwtProofs SdSpec SdModel SdParse DiModel VcModel VcJwt VcParse VcSign VpModel
  ResSpec ResModel VcView VcProps VcText VcPanic VcAdd VcProps4 VcProps5 LdProofs SdIssueVc DiProofs VcProofs VcProps6 BbsModel BbsSpec BbsProofs.

(** ** An example processor: documents are flat objects with string members; the subject of a statement is the "id", or a
    blank node; framing keeps the members the frame names and replaces the blank node by a urn:bnid name. *)
Definition bx_keys : list string := ["@context"; "type"; "created"; "verificationMethod"; "proofPurpose"; "domain"; "ssn"; "name"; "age"].
Definition bx_subj (m : gomap json) : string := match mget m "id" with Some (JStr s) => s | _ => "_:c14n0" end.
Definition bx_line (m : gomap json) (k : string) : string :=
  match mget m k with Some (JStr v) => bx_subj m ++ " <" ++ k ++ "> " ++ v ++ " ." ++ String nl "" | _ => "" end.
Definition bx_canon (m : gomap json) : string := fold_right (fun k s => bx_line m k ++ s) "" bx_keys.
Definition bx_blank (row : string) : string :=
  if has_prefix "_:c14n0" row then "<urn:bnid:_:c14n0>" ++ str_drop 7 row else row.
Definition bx_frame (m f : gomap json) : gomap json :=
  (match mget m "id" with Some _ => [] | None => [("id", JStr "<urn:bnid:_:c14n0>")] end ++ filter (fun kv => mhas f (fst kv)) m)%list.
Definition bx_lib : bbslib :=
  {| bl_compact := fun m => Ok m; bl_frame := fun m f => Ok (bx_frame m f); bl_canon := fun m => Ok (bx_canon m); bl_blank := bx_blank;
     bl_proof := fun p => match mget p "verificationMethod", mget p "proofValue" with
                          | Some (JStr k), Some (JStr s) => Ok (Ok k, s)
                          | _, _ => Err "proof"
                          end |}.
(** a toy scheme: a signature is "sig:" and the key; a proof spells out the shown messages, the nonce and the key *)
Definition bx_pick (ms : list string) (i : nat) : string := nth i ms "?".
Definition bx_spell (shown : list string) (nonce key : string) : string := String.concat "|" shown ++ "/" ++ nonce ++ "/" ++ key.
Definition bx_derive (ms : list string) (sig nonce key : string) (idx : list nat) : res string :=
  if String.eqb sig ("sig:" ++ key) then Ok (bx_spell (map (bx_pick ms) idx) nonce key) else Err "bad signature".
Definition bx_vm : vmeth := {| vm_type := "Bls12381G2Key2020"; vm_value := "K"; vm_jwk := None |}.
Definition bx_res : resolver := fun kid iss => if String.eqb kid "did:i#k" && String.eqb iss "did:i" then Ok bx_vm else Err "unknown key".
Definition bx_creator : bbscreator := {| bc_derive := bx_derive; bc_resolve := bx_res |}.
Definition bx_proof : gomap json :=
  [("type", JStr "BbsBlsSignature2020"); ("created", JStr "2024"); ("verificationMethod", JStr "did:i#k"); ("proofPurpose", JStr "assertionMethod");
   ("proofValue", JStr "sig:K")].
Definition bx_doc (pj : json) : gomap json := [("type", JStr "Person"); ("ssn", JStr "123"); ("name", JStr "Ann"); ("age", JStr "30"); ("proof", pj)].
Definition bx_reveal : gomap json := [("type", JStr ""); ("name", JStr "")].
Definition bx_out (pj : json) (nonce : string) : gomap json :=
  match bbs_disclose bx_lib (Some bx_creator) (bx_doc pj) bx_reveal nonce with Ok m => m | _ => [] end.

(** ** C207  A disclosure is the framed document with, as "proof", an array of derived proofs: one for each proof of the
    (compacted) document whose type ends in BbsBlsSignature2020, in their order - at least one.  Each is made by deriving from
    the signature that proof carries, under the key its method resolves to for the method's own DID, and carries the nonce,
    key, purpose and time. *)
Theorem C207_disclosure_shape : forall L cr doc reveal nonce out, bbs_disclose L cr doc reveal nonce = Ok out ->
  exists c d framed pj all bbs qs,
    cr = Some c /\ bl_compact L doc = Ok d /\ bl_frame L (mdel d "proof") reveal = Ok framed
    /\ (forall k, k <> "proof" -> mget out k = mget framed k) /\ mget out "proof" = Some (JArr (map JObj qs))
    /\ mget d "proof" = Some pj /\ entries pj all /\ picks names_bbs all bbs /\ bbs <> []
    /\ Forall2 (fun p q => exists st x, made_from L c nonce p q st x) bbs qs.
Proof.
  intros L cr doc reveal nonce out H. apply disclosed_ok in H as (c & d & fr & pj & all & bbs & qs & dt & rt & -> & D). destruct D.
  exists c, d, fr, pj, all, bbs, qs. repeat (split; [first [reflexivity|assumption]|]). subst out. split.
  { intros k Hk. rewrite mget_mset. destruct (String.eqb_spec k "proof"); [contradiction|reflexivity]. }
  split; [now rewrite mget_mset, String.eqb_refl|]. repeat (split; [assumption|]).
  eapply Forall2_impl; [|eassumption]. cbn beta. intros p q (st & x & Hm & _). now exists st, x.
Qed.
Example C207_example :
  let other := [("type", JStr "Ed25519Signature2018")] in
  bbs_disclose bx_lib (Some bx_creator) (bx_doc (JArr [JObj other; JObj bx_proof])) bx_reveal "N" = Ok (bx_out (JArr [JObj other; JObj bx_proof]) "N")
  /\ map fst (bx_out (JArr [JObj other; JObj bx_proof]) "N") = ["id"; "type"; "name"; "proof"]
  /\ (exists q, mget (bx_out (JArr [JObj other; JObj bx_proof]) "N") "proof" = Some (JArr [JObj q]) /\ mget q "type" = Some (JStr "BbsBlsSignatureProof2020")
        /\ mget q "verificationMethod" = Some (JStr "did:i#k") /\ mget q "nonce" = Some (JStr (std_encode "N")))
  /\ picks names_bbs [other; bx_proof] [bx_proof].
Proof.
  split; [vm_compute; reflexivity|]. split; [vm_compute; reflexivity|]. split.
  { eexists. split; [vm_compute; reflexivity|]. repeat split; vm_compute; reflexivity. }
  apply picks_skip; [|apply picks_take; [exists ""; reflexivity|constructor]]. intros H. apply is_bls_ok in H. vm_compute in H. discriminate.
Qed.
Print Assumptions C207_disclosure_shape.

(** ** C208  What is revealed: the derivation gets the statements of the proof followed by those of the document, reveals all of
    the former, and - when every statement of the framed document is (up to naming blank nodes) one of the document's - of
    the latter exactly those the framed document states, in its order. *)
Theorem C208_reveals_the_frame : forall L c doc reveal nonce out d dt framed rt,
  bbs_disclose L (Some c) doc reveal nonce = Ok out ->
  bl_compact L doc = Ok d -> bl_canon L (mdel d "proof") = Ok dt ->
  bl_frame L (mdel d "proof") reveal = Ok framed -> bl_canon L framed = Ok rt ->
  (forall r, In r (split_lines rt) -> In r (map (bl_blank L) (split_lines dt))) ->
  forall pj all bbs qs, mget d "proof" = Some pj -> entries pj all -> picks names_bbs all bbs -> mget out "proof" = Some (JArr (map JObj qs)) ->
  Forall2 (fun p q => exists st x rows, made_from L c nonce p q st x /\ ca_msgs x = (st ++ split_lines dt)%list
    /\ Forall2 (fun i m => nth_error (ca_msgs x) i = Some m) (ca_idx x) (st ++ rows)%list
    /\ map (bl_blank L) rows = split_lines rt /\ (forall row, In row rows -> In row (split_lines dt))) bbs qs.
Proof.
  intros L c doc reveal nonce out d dt framed rt H Hc Hdt Hf Hrt Hin pj all bbs qs Hpj Hen Hpk Hq.
  apply disclosed_ok in H as (c' & d' & fr & pj' & all' & bbs' & qs' & dt' & rt' & [= <-] & D). destruct D.
  assert (d' = d) as -> by congruence. assert (dt' = dt) as -> by congruence. assert (fr = framed) as -> by congruence.
  assert (rt' = rt) as -> by congruence. assert (pj' = pj) as -> by congruence. assert (all' = all) as -> by (eapply entries_det; eassumption).
  assert (bbs' = bbs) as -> by (eapply picks_det; eassumption).
  assert (qs' = qs) as ->. { subst out. rewrite mget_mset, String.eqb_refl in Hq. injection Hq as Hq. now apply map_jobj_inj. }
  eapply Forall2_impl; [|eassumption]. cbn beta. intros p q (st & x & Hm & Hms & Hix).
  destruct (shown_rows (bl_blank L) st (split_lines dt) (split_lines rt) Hin) as (rows & H1 & H2 & H3).
  exists st, x, rows. split; [assumption|]. split; [assumption|]. split; [|split; assumption].
  rewrite Hms, Hix. apply Forall2_app; [apply shown_seq|exact H1].
Qed.
Example C208_example :
  let d := bx_doc (JObj bx_proof) in let framed := bx_frame (mdel d "proof") bx_reveal in
  bbs_disclose bx_lib (Some bx_creator) d bx_reveal "N" = Ok (bx_out (JObj bx_proof) "N")
  /\ split_lines (bx_canon (mdel d "proof")) = ["_:c14n0 <type> Person ."; "_:c14n0 <ssn> 123 ."; "_:c14n0 <name> Ann ."; "_:c14n0 <age> 30 ."]
  /\ split_lines (bx_canon framed) = ["<urn:bnid:_:c14n0> <type> Person ."; "<urn:bnid:_:c14n0> <name> Ann ."]
  /\ (forall r, In r (split_lines (bx_canon framed)) -> In r (map bx_blank (split_lines (bx_canon (mdel d "proof")))))
  /\ entries (JObj bx_proof) [bx_proof] /\ names_bbs bx_proof.
Proof.
  cbv zeta. split; [vm_compute; reflexivity|]. split; [vm_compute; reflexivity|]. split; [vm_compute; reflexivity|]. split.
  { intros r Hr. vm_compute in Hr |- *. tauto. }
  split; [constructor|exists ""; reflexivity].
Qed.
Print Assumptions C208_reveals_the_frame.

(** ** C209  (refuted) Only what the frame asks for is revealed: a statement of the framed document that is not among the
    document's statements makes the derivation reveal the document's first statement instead, and no error is reported. *)
Theorem C209_reveals_other_statement_refuted : forall L c doc reveal nonce out d dt framed rt r first rest,
  bbs_disclose L (Some c) doc reveal nonce = Ok out ->
  bl_compact L doc = Ok d -> bl_canon L (mdel d "proof") = Ok dt ->
  bl_frame L (mdel d "proof") reveal = Ok framed -> bl_canon L framed = Ok rt ->
  In r (split_lines rt) -> ~ In r (map (bl_blank L) (split_lines dt)) -> split_lines dt = first :: rest ->
  forall pj all bbs qs, mget d "proof" = Some pj -> entries pj all -> picks names_bbs all bbs -> mget out "proof" = Some (JArr (map JObj qs)) ->
  Forall2 (fun p q => exists st x i, made_from L c nonce p q st x /\ In i (ca_idx x) /\ (List.length st <= i)%nat /\ nth_error (ca_msgs x) i = Some first) bbs qs.
Proof.
  intros L c doc reveal nonce out d dt framed rt r first rest H Hc Hdt Hf Hrt Hr Hnin Hfirst pj all bbs qs Hpj Hen Hpk Hq.
  apply disclosed_ok in H as (c' & d' & fr & pj' & all' & bbs' & qs' & dt' & rt' & [= <-] & D). destruct D.
  assert (d' = d) as -> by congruence. assert (dt' = dt) as -> by congruence. assert (fr = framed) as -> by congruence.
  assert (rt' = rt) as -> by congruence. assert (pj' = pj) as -> by congruence. assert (all' = all) as -> by (eapply entries_det; eassumption).
  assert (bbs' = bbs) as -> by (eapply picks_det; eassumption).
  assert (qs' = qs) as ->. { subst out. rewrite mget_mset, String.eqb_refl in Hq. injection Hq as Hq. now apply map_jobj_inj. }
  eapply Forall2_impl; [|eassumption]. cbn beta. intros p q (st & x & Hm & Hms & Hix).
  exists st, x, (List.length st). split; [assumption|]. rewrite Hix, Hms, Hfirst. split; [|split; [lia|]].
  - apply in_or_app. right. rewrite map_map. apply in_map_iff. exists r. split; [|assumption]. rewrite <- Hfirst, statement_absent by assumption. lia.
  - rewrite nth_error_app2 by lia. now rewrite Nat.sub_diag.
Qed.
(** a frame that adds a statement: the document has no "domain", the framed document does; the derived proof shows the ssn *)
Definition by_lib : bbslib :=
  {| bl_compact := bl_compact bx_lib; bl_frame := fun m f => Ok (mset (bx_frame m f) "domain" (JStr "x")); bl_canon := bl_canon bx_lib;
     bl_blank := bl_blank bx_lib; bl_proof := bl_proof bx_lib |}.
Definition by_doc : gomap json := [("ssn", JStr "123"); ("name", JStr "Ann"); ("proof", JObj bx_proof)].
Example C209_example : exists q s,
  bbs_disclose by_lib (Some bx_creator) by_doc [("name", JStr "")] "N" = Ok [("id", JStr "<urn:bnid:_:c14n0>"); ("name", JStr "Ann"); ("domain", JStr "x"); ("proof", JArr [JObj q])]
  /\ mget q "proofValue" = Some (JStr (std_encode (s ++ "|_:c14n0 <ssn> 123 .|_:c14n0 <name> Ann ./N/K"))).
Proof.
  exists [("type", JStr "BbsBlsSignatureProof2020"); ("nonce", JStr (std_encode "N")); ("verificationMethod", JStr "did:i#k");
    ("proofPurpose", JStr "assertionMethod"); ("created", JStr "2024");
    ("proofValue", JStr (std_encode ("_:c14n0 <@context> https://w3id.org/security/v2 .|_:c14n0 <type> BbsBlsSignature2020 .|_:c14n0 <created> 2024 .|_:c14n0 <verificationMethod> did:i#k .|_:c14n0 <proofPurpose> assertionMethod ." ++ "|_:c14n0 <ssn> 123 .|_:c14n0 <name> Ann ./N/K")))].
  exists "_:c14n0 <@context> https://w3id.org/security/v2 .|_:c14n0 <type> BbsBlsSignature2020 .|_:c14n0 <created> 2024 .|_:c14n0 <verificationMethod> did:i#k .|_:c14n0 <proofPurpose> assertionMethod .".
  split; vm_compute; reflexivity.
Qed.
Print Assumptions C209_reveals_other_statement_refuted.

(** ** C210  A derived proof verifies: for a document with a plain BBS+ proof whose signature is valid over the statements of the
    proof and the document, and a frame whose statements are some of the document's, in order, the checker accepts the derived
    proof over the canonical proof options and the canonical disclosed document, under the key it was derived with. *)
Theorem C210_derived_proof_verifies : forall L C vp c doc reveal nonce out (R : resolver) descs ex vs iss,
  bbs_disclose L (Some c) doc reveal nonce = Ok out -> canon_ok L -> scheme_ok C vp c ->
  supported_ld descs "BbsBlsSignatureProof2020" = Ok l_bbsproof -> ex "BbsBlsSignatureProof2020" = Some (bbs_verify_proof C vp nonce) ->
  forall d pj all bbs qs i p q dt framed rt kid sig vm,
  bl_compact L doc = Ok d -> mget d "proof" = Some pj -> entries pj all -> picks names_bbs all bbs -> nth_error bbs i = Some p ->
  mget out "proof" = Some (JArr (map JObj qs)) -> nth_error qs i = Some q ->
  plain_bbs p -> (forall p', with_context p p' -> bl_proof L p' = Ok (Ok kid, sig)) ->
  (forall owner, before_hash kid owner -> bc_resolve c kid owner = Ok vm) -> R kid iss = Ok vm ->
  vm_type vm = "Bls12381G2Key2020" -> vm_jwk vm = None ->
  bl_canon L (mdel d "proof") = Ok dt -> bl_frame L (mdel d "proof") reveal = Ok framed -> bl_canon L framed = Ok rt ->
  mget framed "proof" = None -> (forall pre, mget framed "type" <> Some (JStr (pre ++ "BbsBlsSignatureProof2020"))) ->
  subseq (split_lines rt) (map (bl_blank L) (split_lines dt)) -> NoDup (map (bl_blank L) (split_lines dt)) ->
  (forall row, In row (split_lines dt) -> transform_blank (bl_blank L row) = Ok row) ->
  (forall o t row, proof_options p o -> bl_canon L o = Ok t -> In row (split_lines t) -> transform_blank row = Ok row) ->
  (forall o t, proof_options p o -> bl_canon L o = Ok t -> c_bbs C (vm_value vm) (split_lines t ++ split_lines dt)%list sig = true) ->
  forall o c1 c2, verify_options q o -> bbs_proof_canon L o = Ok c1 -> bbs_proof_canon L (mdel out "proof") = Ok c2 ->
  exists s, mget q "proofValue" = Some (JStr (std_encode s))
    /\ check_ld_proof R descs ex vs "BbsBlsSignatureProof2020" (Ok kid) iss (c1 ++ c2) s = Ok tt.
Proof.
  intros L C vp c doc reveal nonce out R descs ex vs iss H [Hco Hnl] Hsch Hdesc Hex d pj all bbs qs i p q dt framed rt kid sig vm Hc Hpj Hen Hpk Hip Hq Hiq
    (Hnp & Hpt & Hpl) Hnew Hrc HR Hvt Hvj Hdt Hf Hrt Hfp Hft Hsub Hnd Htb Htp Hval o c1 c2 (Hno & Ho) Hc1 Hc2.
  apply disclosed_ok in H as (c' & d' & fr & pj' & all' & bbs' & qs' & dt' & rt' & [= <-] & [Dc Dp De Db Dsome Dcan Df Drc Dout Deach]).
  assert (d' = d) as -> by congruence. assert (dt' = dt) as -> by congruence. assert (fr = framed) as -> by congruence.
  assert (rt' = rt) as -> by congruence. assert (pj' = pj) as -> by congruence. assert (all' = all) as -> by (eapply entries_det; eassumption).
  assert (bbs' = bbs) as -> by (eapply picks_det; eassumption).
  assert (qs' = qs) as ->. { subst out. rewrite mget_mset, String.eqb_refl in Hq. injection Hq as Hq. now apply map_jobj_inj. }
  destruct (forall2_nth _ _ _ Deach i p q Hip Hiq) as (st & x & [Mcall Mnonce (o0 & t0 & Ho0 & Ht0 & Hst) (p' & kid' & owner & vm' & Hp' & Hpr & Hbh & Hrv & Hkey) Mmem] & Hms & Hix).
  exists (ca_proof x). split; [now rewrite Mmem|].
  rewrite (Hnew p' Hp') in Hpr. injection Hpr as Hk1 Hk2. subst kid'. rewrite (Hrc _ Hbh) in Hrv. injection Hrv as <-.
  (* the verifier's options are those that were signed *)
  assert (E1 : c1 = t0).
  { unfold bbs_proof_canon, bbs_proof_doc in Hc1. pose proof (Ho "type") as Hot. cbn [String.eqb Ascii.eqb Bool.eqb orb] in Hot. change (String.eqb "type" "@context") with false in Hot.
    assert (Hqt : mget q "type" = Some (JStr "BbsBlsSignatureProof2020")) by (rewrite Mmem; reflexivity).
    rewrite Hqt in Hot. rewrite Hot in Hc1. change (has_suffix "BbsBlsSignatureProof2020" "BbsBlsSignatureProof2020") with true in Hc1. cbn match in Hc1.
    change (replace_first "BbsBlsSignatureProof2020" "BbsBlsSignature2020" "BbsBlsSignatureProof2020") with "BbsBlsSignature2020" in Hc1.
    rewrite (Hco _ o0) in Hc1; [congruence| | |].
    - intros k. destruct Ho0 as [_ Ho0]. rewrite mget_mset, Ho0, Ho. destruct (String.eqb_spec k "type") as [->|Hkt]; [cbn; now rewrite Hpt|].
      destruct (String.eqb_spec k "@context") as [->|Hkc]; [reflexivity|]. destruct (String.eqb_spec k "proofValue") as [->|Hkv]; [reflexivity|]. cbn [orb].
      destruct (String.eqb_spec k "nonce") as [->|Hkn].
      { specialize (Hpl "nonce"). destruct (mget p "nonce") as [j|]; [|reflexivity]. exfalso. destruct Hpl as [Hpl _].
        assert (X : Some j <> None) by discriminate. apply Hpl in X. cbn in X. intuition discriminate. }
      specialize (Hpl k). rewrite Mmem. cbn [mget].
      destruct (String.eqb_spec k "type"); [contradiction|]. destruct (String.eqb_spec k "nonce"); [contradiction|].
      destruct (String.eqb_spec k "verificationMethod") as [->|N1]; [destruct (mget p "verificationMethod"); [reflexivity|]; exfalso; apply (proj2 Hpl); cbn; tauto|].
      destruct (String.eqb_spec k "proofPurpose") as [->|N2]; [destruct (mget p "proofPurpose"); [reflexivity|]; exfalso; apply (proj2 Hpl); cbn; tauto|].
      destruct (String.eqb_spec k "created") as [->|N3]; [destruct (mget p "created"); [reflexivity|]; exfalso; apply (proj2 Hpl); cbn; tauto|].
      destruct (String.eqb_spec k "proofValue"); [contradiction|].
      destruct (mget p k) as [j|]; [|reflexivity]. exfalso. destruct Hpl as [Hpl _]. assert (X : Some j <> None) by discriminate. apply Hpl in X. cbn in X.
      intuition congruence.
    - now apply mset_nodup.
    - apply Ho0, Hnp. }
  assert (E2 : c2 = rt).
  { subst out. rewrite DiProofs.mdel_mset_new in Hc2 by assumption. unfold bbs_proof_canon, bbs_proof_doc in Hc2.
    destruct (mget framed "type") as [[]|] eqn:Et; try congruence. destruct (has_suffix "BbsBlsSignatureProof2020" s) eqn:Es; [|congruence].
    apply has_suffix_ok in Es as [pre ->]. exfalso. now apply (Hft pre). }
  subst c1 c2.
  assert (Hlines : split_lines (t0 ++ rt) = (st ++ split_lines rt)%list) by (rewrite lines_of_two, Hst; [reflexivity|now apply (Hnl o0)]).
  destruct (shown_rows (bl_blank L) st (split_lines dt) (split_lines rt) (subseq_in _ _ Hsub)) as (rows & H1 & H2 & H3).
  assert (Htr : map_res transform_blank (split_lines (t0 ++ rt)) = Ok (st ++ rows)%list).
  { rewrite Hlines, map_res_app, <- H2. rewrite (map_res_same _ st).
    - cbn [bind]. rewrite VcProofs.map_res_map. rewrite (map_res_same _ rows); [reflexivity|]. intros r Hr. apply Htb, H3, Hr.
    - intros r Hr. eapply Htp; [exact Ho0|exact Ht0|]. now rewrite Hst. }
  unfold check_ld_proof. cbn [bind]. rewrite HR. cbn [bind]. rewrite Hdesc. cbn [bind].
  assert (Hpk' : convert_to_public_key (ld_vms l_bbsproof) vm = Ok {| pk_type := BLS12381G2Type; pk_bytes := Some (vm_value vm); pk_jwk := None |}).
  { unfold convert_to_public_key, l_bbsproof. cbn [ld_vms find]. unfold svm_matches, create_public_key. rewrite Hvt, Hvj. reflexivity. }
  rewrite Hpk'. cbn [bind]. change (ld_type l_bbsproof) with "BbsBlsSignatureProof2020". rewrite Hex. unfold bbs_verify_proof. cbn [pk_bytes bind]. rewrite Htr. cbn [bind].
  unfold asked in Mcall. rewrite Mnonce, Hkey in Mcall. rewrite (Hsch (ca_msgs x) (ca_sig x) nonce (vm_value vm) (ca_idx x) (ca_proof x) (st ++ rows)%list); [reflexivity|exact Mcall| | |].
  - rewrite Hms, <- Hk2, <- Hst. now apply (Hval o0).
  - rewrite Hix. now apply idx_ascending.
  - rewrite Hms, Hix. apply Forall2_app; [apply shown_seq|exact H1].
Qed.

Print Assumptions C210_derived_proof_verifies.
Lemma bx_canon_ok : canon_ok bx_lib.
Proof.
  split.
  - intros a b H _ _. cbn [bx_lib bl_canon]. f_equal. unfold bx_canon. induction bx_keys as [|k ks IH]; [reflexivity|]. cbn [fold_right]. rewrite IH. f_equal.
    unfold bx_line, bx_subj. now rewrite !H.
  - intros m t [= <-]. unfold bx_canon. induction bx_keys as [|k ks IH]; [now left|]. cbn [fold_right].
    destruct IH as [->|[t' ->]].
    + unfold bx_line. destruct (mget m k) as [[]|]; try (now left). right. exists (bx_subj m ++ " <" ++ k ++ "> " ++ s ++ " ."). now rewrite append_nil_r, !append_assoc_s.
    + right. exists (bx_line m k ++ t'). now rewrite append_assoc_s.
Qed.
Definition bx_cenv (C : cenv) : cenv :=
  {| c_ed := c_ed C; c_ecdsa := c_ecdsa C; c_pss := c_pss C; c_pkcs1 := c_pkcs1 C; c_bbs := fun key _ sig => String.eqb sig ("sig:" ++ key);
     c_point := c_point C; c_rsakey := c_rsakey C; c_asn1 := c_asn1 C; c_jwkbytes := c_jwkbytes C |}.
Definition bx_vp (key : string) (shown : list string) (s nonce : string) : bool := String.eqb s (bx_spell shown nonce key).
Lemma bx_scheme C : scheme_ok (bx_cenv C) bx_vp bx_creator.
Proof.
  intros ms sig nonce key idx s shown H _ _ Hs. cbn [bx_creator bc_derive] in H. unfold bx_derive in H. destruct (String.eqb sig _); [|discriminate]. injection H as <-.
  assert (map (bx_pick ms) idx = shown) as ->; [|apply String.eqb_refl]. induction Hs as [|i m idx shown Hi Hs IH]; [reflexivity|]. cbn [map]. f_equal; [|exact IH].
  unfold bx_pick. apply nth_error_nth. exact Hi.
Qed.
Lemma before_hash_det kid o o' : before_hash kid o -> before_hash kid o' -> o = o'.
Proof.
  revert o o'. induction kid as [|a kid IH]; intros o o' [H1 H2] [H1' H2'].
  - assert (X : forall w, "" = w \/ (exists r, "" = w ++ "#" ++ r) -> w = "").
    { intros w [->|[r E]]; [reflexivity|]. destruct w; [discriminate E|discriminate E]. }
    now rewrite (X _ H2), (X _ H2').
  - destruct (ascii_dec a "#") as [->|Hne].
    + assert (X : forall w, ~ In "#"%char (list_ascii_of_string w) -> String "#" kid = w \/ (exists r, String "#" kid = w ++ "#" ++ r) -> w = "").
      { intros w Hw [<-|[r E]]; [exfalso; apply Hw; now left|]. destruct w as [|b w]; [reflexivity|]. injection E as <- _. exfalso. apply Hw. now left. }
      now rewrite (X _ H1 H2), (X _ H1' H2').
    + assert (X : forall w, ~ In "#"%char (list_ascii_of_string w) -> String a kid = w \/ (exists r, String a kid = w ++ "#" ++ r) ->
        exists w', w = String a w' /\ before_hash kid w').
      { intros w Hw [<-|[r E]].
        - exists kid. split; [reflexivity|]. split; [intros X; apply Hw; now right|now left].
        - destruct w as [|b w]; [injection E as E _; contradiction|]. injection E as <- E. exists w. split; [reflexivity|]. split; [intros X; apply Hw; now right|]. right. now exists r. }
      destruct (X _ H1 H2) as (w & -> & Hw), (X _ H1' H2') as (w' & -> & Hw'). f_equal. now apply IH.
Qed.
Definition bx_nonce : string := "N".
Definition bx_ex (C : cenv) : string -> option (string -> string -> pubkey -> res unit) :=
  fun t => if String.eqb t "BbsBlsSignatureProof2020" then Some (bbs_verify_proof (bx_cenv C) bx_vp bx_nonce) else None.
Definition bx_dt : string := Eval vm_compute in bx_canon (mdel (bx_doc (JObj bx_proof)) "proof").
Definition bx_framed : gomap json := Eval vm_compute in bx_frame (mdel (bx_doc (JObj bx_proof)) "proof") bx_reveal.
Definition bx_q : gomap json := Eval vm_compute in match mget (bx_out (JObj bx_proof) bx_nonce) "proof" with Some (JArr [JObj q]) => q | _ => [] end.
Definition bx_o : gomap json := [("@context", JStr "https://w3id.org/security/v2"); ("type", JStr "BbsBlsSignatureProof2020"); ("created", JStr "2024");
  ("verificationMethod", JStr "did:i#k"); ("proofPurpose", JStr "assertionMethod")].
Definition bx_c1 : string := Eval vm_compute in bx_canon (bbs_proof_doc bx_o).
Definition bx_c2 : string := Eval vm_compute in bx_canon bx_framed.
Definition bx_s : string := Eval vm_compute in bx_spell (split_lines bx_c1 ++ ["_:c14n0 <type> Person ."; "_:c14n0 <name> Ann ."])%list "N" "K".
Lemma bx_dt_lines : split_lines bx_dt = ["_:c14n0 <type> Person ."; "_:c14n0 <ssn> 123 ."; "_:c14n0 <name> Ann ."; "_:c14n0 <age> 30 ."].
Proof. vm_compute. reflexivity. Qed.
Example C210_example : forall C : cenv,
  let out := bx_out (JObj bx_proof) bx_nonce in
  bbs_disclose bx_lib (Some bx_creator) (bx_doc (JObj bx_proof)) bx_reveal bx_nonce = Ok out
  /\ canon_ok bx_lib /\ scheme_ok (bx_cenv C) bx_vp bx_creator /\ plain_bbs bx_proof
  /\ (forall p', with_context bx_proof p' -> bl_proof bx_lib p' = Ok (Ok "did:i#k", "sig:K"))
  /\ (forall owner, before_hash "did:i#k" owner -> bc_resolve bx_creator "did:i#k" owner = Ok bx_vm)
  /\ bl_canon bx_lib (mdel (bx_doc (JObj bx_proof)) "proof") = Ok bx_dt
  /\ subseq (split_lines (bx_canon bx_framed)) (map (bl_blank bx_lib) (split_lines bx_dt)) /\ NoDup (map (bl_blank bx_lib) (split_lines bx_dt))
  /\ (forall row, In row (split_lines bx_dt) -> transform_blank (bl_blank bx_lib row) = Ok row)
  /\ verify_options bx_q bx_o
  /\ bbs_proof_canon bx_lib bx_o = Ok bx_c1 /\ bbs_proof_canon bx_lib (mdel out "proof") = Ok bx_c2 /\ mget bx_q "proofValue" = Some (JStr (std_encode bx_s))
  /\ check_ld_proof bx_res [l_bbsproof] (bx_ex C) [] "BbsBlsSignatureProof2020" (Ok "did:i#k") "did:i" (bx_c1 ++ bx_c2) bx_s = Ok tt
  /\ is_err (check_ld_proof bx_res [l_bbsproof] (bx_ex C) [] "BbsBlsSignatureProof2020" (Ok "did:i#k") "did:i" (bx_c1 ++ bx_dt) bx_s) = true.
Proof.
  intros C. cbv zeta. split; [vm_compute; reflexivity|]. split; [exact bx_canon_ok|]. split; [apply bx_scheme|]. split.
  { split; [apply nodup_str_spec; vm_compute; reflexivity|]. split; [reflexivity|].
    intros k. unfold bx_proof. cbn [mget]. split.
    - intros H. cbn [In]. repeat match type of H with context [String.eqb k ?a] => destruct (String.eqb_spec k a); [subst; tauto|] end. contradiction.
    - intros H. cbn [In] in H. repeat destruct H as [<-|H]; try (vm_compute; discriminate). destruct H. }
  split. { intros p' Hp'. cbn [bx_lib bl_proof]. rewrite !Hp'. reflexivity. }
  split. { intros owner Ho. assert (owner = "did:i") as ->; [|reflexivity]. eapply before_hash_det; [exact Ho|]. split; [vm_compute; intuition discriminate|]. right. now exists "k". }
  split; [vm_compute; reflexivity|]. split; [vm_compute; repeat constructor|]. split.
  { apply nodup_str_spec. vm_compute. reflexivity. }
  split. { rewrite bx_dt_lines. intros row Hr. repeat destruct Hr as [<-|Hr]; try (vm_compute; reflexivity). destruct Hr. }
  split. { split; [apply nodup_str_spec; vm_compute; reflexivity|]. intros k. unfold bx_o, bx_q. cbn [mget].
    repeat match goal with |- context [String.eqb k ?a] => destruct (String.eqb_spec k a); [subst; reflexivity|] end. reflexivity. }
  repeat (split; [vm_compute; reflexivity|]). vm_compute. reflexivity.
Qed.

(** ** C211  (refuted) A derived proof verifies under the key the original was signed with: when the key is published as a JWK,
    the original proof type takes it and the derived proof type does not, so every derived proof is refused. *)
Theorem C211_jwk_key_refuted : forall (R : resolver) descs ex vs kid iss msg sig vm j,
  R kid iss = Ok vm -> vm_type vm = "JsonWebKey2020" \/ vm_type vm = "Bls12381G2Key2020" ->
  vm_jwk vm = Some j -> jk_kty j = "EC" -> jk_crv j = "BLS12381_G2" ->
  supported_ld descs "BbsBlsSignatureProof2020" = Ok l_bbsproof ->
  (exists pk, convert_to_public_key (ld_vms l_bbs) vm = Ok pk)
  /\ exists e, check_ld_proof R descs ex vs "BbsBlsSignatureProof2020" (Ok kid) iss msg sig = Err e.
Proof.
  intros R descs ex vs kid iss msg sig vm j HR Ht Hj Hk Hc Hd. split.
  - unfold convert_to_public_key, l_bbs. cbn [ld_vms find]. unfold svm_matches. rewrite Hj, Hk, Hc. destruct Ht as [-> | ->]; eexists; reflexivity.
  - unfold check_ld_proof. cbn [bind]. rewrite HR. cbn [bind]. rewrite Hd. cbn [bind]. unfold convert_to_public_key, l_bbsproof. cbn [ld_vms find]. unfold svm_matches.
    rewrite Hj, Hk, Hc. destruct Ht as [-> | ->]; eexists; reflexivity.
Qed.
(** (the verifier itself would take the key in either form) *)
Theorem C211_verifier_takes_both : forall C vp nonce sig msg kt kt' j b,
  c_jwkbytes C j = Some b ->
  bbs_verify_proof C vp nonce sig msg {| pk_type := kt; pk_bytes := None; pk_jwk := Some j |}
  = bbs_verify_proof C vp nonce sig msg {| pk_type := kt'; pk_bytes := Some b; pk_jwk := None |}.
Proof. intros C vp nonce sig msg kt kt' j b H. unfold bbs_verify_proof. cbn [pk_bytes pk_jwk]. now rewrite H. Qed.
Definition bj_vm : vmeth := {| vm_type := "JsonWebKey2020"; vm_value := "K"; vm_jwk := Some {| jk_kty := "EC"; jk_crv := "BLS12381_G2"; jk_key := KOther "K" |} |}.
Definition bj_creator : bbscreator := {| bc_derive := bx_derive; bc_resolve := fun _ _ => Ok bj_vm |}.
Example C211_example :
  is_ok (bbs_disclose bx_lib (Some bj_creator) (bx_doc (JObj bx_proof)) bx_reveal "N") = true
  /\ is_ok (convert_to_public_key (ld_vms l_bbs) bj_vm) = true /\ is_ok (convert_to_public_key (ld_vms l_bbsproof) bj_vm) = false.
Proof. repeat split; vm_compute; reflexivity. Qed.
Print Assumptions C211_jwk_key_refuted.

(** ** C212  Without a BBS+ proof there is no disclosure; in particular what was disclosed is not disclosed again. *)
Theorem C212_no_bbs_proof : forall L cr doc reveal nonce d,
  bl_compact L doc = Ok d ->
  mget d "proof" = None \/ mget d "proof" = Some JNull \/ (exists pj all, mget d "proof" = Some pj /\ entries pj all /\ Forall (fun p => ~ names_bbs p) all) ->
  exists e, bbs_disclose L cr doc reveal nonce = Err e.
Proof.
  intros L cr doc reveal nonce d Hc H. unfold bbs_disclose, prepare_doc. rewrite Hc. cbn [bind]. unfold fld. destruct H as [->|[->|(pj & all & -> & He & Hf)]]; [eexists; reflexivity..|].
  assert (Hg : get_proofs pj = Ok all) by (destruct He; cbn [get_proofs]; [reflexivity|apply map_res_objs]).
  assert (Hfl : filter is_bls all = []).
  { clear - Hf. induction Hf as [|p all Hp Hf IH]; cbn [filter]; [reflexivity|]. destruct (is_bls p) eqn:E; [apply is_bls_ok in E; contradiction|exact IH]. }
  assert (X : exists e, (let* bs := get_bls_proofs pj in match bs with [] => Err "no BbsBlsSignature2020 proof present" | _ => 
      let* d0 := build_doc L (mdel d "proof") reveal in
      let* ps := map_res (fun p => let* v := build_verification L p d0 in derive_one L cr nonce p v) bs in
      Ok (mset (dd_result d0) "proof" (JArr (map JObj ps))) end) = Err e).
  { unfold get_bls_proofs. rewrite Hg. cbn [bind]. rewrite Hfl. cbn [map bind]. eexists. reflexivity. }
  destruct pj; try (destruct He; fail); try exact X; inversion He.
Qed.
Theorem C212_not_again : forall L cr cr' doc reveal nonce out d reveal' nonce',
  bbs_disclose L cr doc reveal nonce = Ok out -> bl_compact L out = Ok d -> mget d "proof" = mget out "proof" ->
  exists e, bbs_disclose L cr' out reveal' nonce' = Err e.
Proof.
  intros L cr cr' doc reveal nonce out d reveal' nonce' H Hc Hp.
  apply C207_disclosure_shape in H as (c & d0 & fr & pj & all & bbs & qs & _ & _ & _ & _ & Hq & _ & _ & _ & _ & Hf).
  eapply C212_no_bbs_proof; [exact Hc|]. right. right. exists (JArr (map JObj qs)), qs. split; [congruence|]. split; [constructor|].
  clear - Hf. induction Hf as [|p q ps qs (st & x & Hm) Hf IH]; constructor; [|exact IH]. destruct Hm as [_ _ _ _ ->]. eapply names_bbs_derived; [reflexivity|reflexivity].
Qed.
Example C212_example :
  bl_compact bx_lib (bx_out (JObj bx_proof) "N") = Ok (bx_out (JObj bx_proof) "N")
  /\ bbs_disclose bx_lib (Some bx_creator) (bx_out (JObj bx_proof) "N") bx_reveal "M" = Err "no BbsBlsSignature2020 proof present"
  /\ is_err (bbs_disclose bx_lib (Some bx_creator) (bx_doc JNull) bx_reveal "M") = true.
Proof. repeat split; vm_compute; reflexivity. Qed.
Print Assumptions C212_no_bbs_proof.
Print Assumptions C212_not_again.

(** ** C213  With a creator, and processor, resolver and derivation that do not crash, BBSSelectiveDisclosure does not crash on any
    document, frame and nonce. *)
Theorem C213_no_crash : forall L c doc reveal nonce,
  (forall m, bl_compact L m <> Panic) -> (forall m f, bl_frame L m f <> Panic) -> (forall m, bl_canon L m <> Panic) ->
  (forall p, bl_proof L p <> Panic) -> (forall p q, bl_proof L p = Ok q -> fst q <> Panic) ->
  (forall k i, bc_resolve c k i <> Panic) -> (forall ms s n k ix, bc_derive c ms s n k ix <> Panic) ->
  bbs_disclose L (Some c) doc reveal nonce <> Panic.
Proof.
  intros L c doc reveal nonce H1 H2 H3 H4 H5 H6 H7.
  assert (Hds : forall m, np (doc_statements L m)) by (intros m; unfold doc_statements; apply np_bind; [apply H3|intros; apply np_ok]).
  assert (Hgp : forall j, np (get_proofs j)) by (intros []; cbn [get_proofs]; try apply np_err; [apply np_map_res; intros; apply np_objof|apply np_ok]).
  fold (np (bbs_disclose L (Some c) doc reveal nonce)). unfold bbs_disclose. apply np_bind.
  { unfold prepare_doc. apply np_bind; [apply H1|]. intros d _. destruct (fld d "proof"); [apply np_ok|apply np_err]. }
  intros dp _. apply np_bind; [unfold get_bls_proofs; apply np_bind; [apply Hgp|intros; apply np_ok]|]. intros bs _. destruct bs as [|b bs]; [apply np_err|].
  apply np_bind.
  { unfold build_doc. apply np_bind; [apply Hds|]. intros ds _. apply np_bind; [apply H2|]. intros fr _. apply np_bind; [apply Hds|]. intros; apply np_ok. }
  intros dd _. apply np_bind; [|intros; apply np_ok]. apply np_map_res. intros p. apply np_bind.
  { unfold build_verification, proof_statements. apply np_bind; [apply Hds|]. intros; apply np_ok. }
  intros v _. cbn [derive_one]. apply np_bind.
  { unfold key_and_signature. apply np_bind; [apply H4|]. intros q Hq. apply np_bind; [eapply H5; exact Hq|]. intros kid _. apply np_bind; [apply H6|]. intros; apply np_ok. }
  intros ks _. apply np_bind; [apply H7|]. intros; apply np_ok.
Qed.
Example C213_example : (forall m, bl_compact bx_lib m <> Panic) /\ (forall m f, bl_frame bx_lib m f <> Panic) /\ (forall m, bl_canon bx_lib m <> Panic)
  /\ (forall p, bl_proof bx_lib p <> Panic) /\ (forall p q, bl_proof bx_lib p = Ok q -> fst q <> Panic)
  /\ (forall k i, bc_resolve bx_creator k i <> Panic) /\ (forall ms s n k ix, bc_derive bx_creator ms s n k ix <> Panic).
Proof.
  split; [discriminate|]. split; [discriminate|]. split; [discriminate|]. split.
  { intros p. cbn. destruct (mget p "verificationMethod") as [[]|]; try discriminate. destruct (mget p "proofValue") as [[]|]; discriminate. }
  split. { intros p q. cbn. destruct (mget p "verificationMethod") as [[]|]; try discriminate. destruct (mget p "proofValue") as [[]|]; try discriminate. intros [= <-]. discriminate. }
  split; [intros k i; cbn; unfold bx_res; destruct (_ && _); discriminate|]. intros. cbn. unfold bx_derive. destruct (String.eqb s _); discriminate.
Qed.
Print Assumptions C213_no_crash.

(** ** C214  (refuted) A missing proof creator is reported as an error: it is by GenerateBBSSelectiveDisclosure, but
    BBSSelectiveDisclosure crashes with it on every document it could otherwise disclose. *)
Theorem C214_nil_creator_crashes_refuted : forall L c doc reveal nonce out,
  bbs_disclose L (Some c) doc reveal nonce = Ok out -> bbs_disclose L None doc reveal nonce = Panic.
Proof.
  intros L c doc reveal nonce out H. unfold bbs_disclose in *. destruct (prepare_doc L doc) as [dp| |]; try discriminate. cbn [bind] in *.
  destruct (get_bls_proofs (snd dp)) as [bs| |]; try discriminate. cbn [bind] in *. destruct bs as [|b bs]; [discriminate|].
  destruct (build_doc L (fst dp) reveal) as [dd| |]; try discriminate. cbn [bind map_res] in *.
  destruct (build_verification L b dd) as [v| |]; try discriminate. reflexivity.
Qed.
Theorem C214_credential_reports : forall E D sd txt L o v reveal nonce,
  exists e, bbs_disclose_cred E D sd txt L None o v reveal nonce = Err e.
Proof. intros. unfold bbs_disclose_cred. destruct (cr_proofs v); eexists; reflexivity. Qed.
Example C214_example : bbs_disclose bx_lib None (bx_doc (JObj bx_proof)) bx_reveal "N" = Panic.
Proof. vm_compute. reflexivity. Qed.
Print Assumptions C214_nil_creator_crashes_refuted.
Print Assumptions C214_credential_reports.

(** ** C215  GenerateBBSSelectiveDisclosure: the credential has a proof, its JSON object is disclosed, and the result is the
    credential of the disclosed document, with exactly the derived proofs - and validated, unless that is switched off. *)
Theorem C215_disclosed_credential : forall E D sd txt L cr o v reveal nonce v',
  bbs_disclose_cred E D sd txt L cr o v reveal nonce = Ok v' ->
  cr_proofs v <> [] /\ exists doc out qs,
    to_universal D sd v = Ok (JObj doc) /\ bbs_disclose L cr doc reveal nonce = Ok out /\ mget out "proof" = Some (JArr (map JObj qs)) /\ qs <> []
    /\ (json_text E (txt out) out -> (forall ts, decode_type (fld out "type") = Ok ts -> ~ In "EnvelopedVerifiableCredential" ts) ->
        cr_proofs v' = qs /\ Permutation (cr_json v') out /\ parse_contents (ve_time E) out false = Ok (cr_contents v') /\ cr_jwt v' = None /\ cr_cwt v' = None
        /\ (co_no_validation o = false -> validate_credential E (cr_contents v') (cr_json v') (no_proof_check o) = Ok tt)).
Proof.
  intros E D sd txt L cr o v reveal nonce v' H. unfold bbs_disclose_cred in H. destruct (cr_proofs v) as [|p0 ps0]; [discriminate|]. split; [discriminate|].
  destruct cr as [c|]; [|discriminate]. apply bind_ok in H as (j & Hj & H). destruct j as [| | | | |doc]; try discriminate. apply bind_ok in H as (out & Ho & H).
  destruct (C207_disclosure_shape _ _ _ _ _ _ Ho) as (c' & d & fr & pj & all & bbs & qs & _ & _ & _ & _ & Hq & _ & _ & _ & Hne & Hf).
  exists doc, out, qs. split; [assumption|]. split; [assumption|]. split; [assumption|]. split; [intros ->; inversion Hf; subst; contradiction|].
  intros Ht Hty. pose proof (parse_json_text _ _ _ Ht) as (ms0 & Hpj & Hperm0). assert (Hnd : NoDup (map fst out)) by (destruct Ht as (? & ? & _ & _ & _ & ? & _); assumption).
  unfold parse_credential in H. cbn [try_parsers] in H.
  assert (He : enveloped_parser E (no_proof_check o) (txt out) = Ok None).
  { unfold enveloped_parser. rewrite Hpj, (fld_perm ms0 out) by assumption. destruct (decode_type (fld out "type")) as [ts| |] eqn:Et; [|reflexivity|exfalso; now apply (np_dtype (fld out "type"))].
    specialize (Hty ts eq_refl). apply str_in_nIn in Hty. change enveloped_type with "EnvelopedVerifiableCredential". rewrite Hty. reflexivity. }
  unfold parse_with at 1 in H. rewrite He in H. cbn [bind] in H.
  destruct (json_parser_text E (no_proof_check o) (txt out) out Ht) as (ms & Hperm & Hjp). unfold parse_with in H. rewrite Hjp in H.
  apply bind_ok in H as (r & H & Hr). apply bind_ok in H as (r0 & H0 & H). apply bind_ok in H0 as (cc & Hcc & H0). apply bind_ok in H0 as (ps & Hps & H0).
  apply bind_ok in H0 as (u & Hu & H0). injection H0 as <-. cbn [no_proof_check co_no_proof bind] in H. apply bind_ok in H as (u2 & _ & H). injection H as <-. injection Hr as <-.
  cbn [cr_proofs cr_json cr_contents cr_jwt cr_cwt]. split.
  { rewrite (fld_perm ms out) in Hps by assumption. unfold fld in Hps. rewrite Hq in Hps. cbn [parse_ld_proof] in Hps. rewrite map_res_objs in Hps. congruence. }
  split; [assumption|]. split; [rewrite <- (parse_contents_perm _ ms out) by assumption; exact Hcc|]. split; [reflexivity|]. split; [reflexivity|].
  intros Hv. change (co_no_validation (no_proof_check o)) with (co_no_validation o) in Hu. rewrite Hv in Hu. now destruct u.
Qed.
Definition bc_v : credential := reset_proofs sg_cred [bx_proof].
Definition bc_frame : gomap json := [("@context", JNull); ("id", JNull); ("type", JNull); ("issuer", JNull); ("issuanceDate", JNull); ("credentialSubject", JNull)].
Definition bc_out : gomap json := Eval vm_compute in match bbs_disclose bx_lib (Some bx_creator) (to_raw_json bc_v) bc_frame "N" with Ok m => m | _ => [] end.
Definition bc_text : string := String brace "disclosed".
Definition bc_env : venv := toyV0 [] [(bc_text, rev bc_out)].
Example C215_example :
  match bbs_disclose_cred bc_env cw_senv (fun _ => Err "x") (fun _ => bc_text) bx_lib (Some bx_creator) toyO bc_v bc_frame "N" with
  | Ok w => map (fun p => mget p "type") (cr_proofs w) = [Some (JStr "BbsBlsSignatureProof2020")] /\ vc_id (cr_contents w) = "urn:1" /\ mget (cr_json w) "extra" = None
            /\ mget (cr_json bc_v) "extra" <> None
  | _ => False
  end /\ json_text bc_env bc_text bc_out /\ (forall ts, decode_type (fld bc_out "type") = Ok ts -> ~ In "EnvelopedVerifiableCredential" ts).
Proof.
  split; [vm_compute; repeat split; discriminate|]. split.
  - exists "disclosed", (rev bc_out). split; [reflexivity|]. split; [vm_compute; reflexivity|]. split; [apply Permutation_sym, Permutation_rev|].
    split; [apply nodup_str_spec; vm_compute; reflexivity|]. intros k Hk. vm_compute in Hk. repeat (destruct Hk as [<-|Hk]; [vm_compute; reflexivity|]). destruct Hk.
  - intros ts Hts. vm_compute in Hts. injection Hts as <-. cbn. intuition discriminate.
Qed.
Print Assumptions C215_disclosed_credential.

(** ** C216  (refuted) The options a verifier rebuilds from a derived proof are those of the original, which were signed: a domain or
    challenge (or any other further member) of the original is signed, but the derived proof does not carry it. *)
Theorem C216_options_lost_refuted : forall L c nonce p q st x k o o',
  made_from L c nonce p q st x -> ~ In k ["type"; "nonce"; "verificationMethod"; "proofPurpose"; "created"; "proofValue"; "@context"] -> mget p k <> None ->
  verify_options q o -> proof_options p o' -> mget o k <> mget o' k.
Proof.
  intros L c nonce p q st x k o o' Hm Hk Hp (_ & Ho) (_ & Ho'). destruct Hm as [_ _ _ _ ->]. rewrite Ho, Ho'. cbn [In] in Hk.
  destruct (String.eqb_spec k "@context"); [subst; tauto|]. destruct (String.eqb_spec k "proofValue"); [subst; tauto|]. cbn [orb].
  destruct (String.eqb_spec k "nonce"); [subst; tauto|]. cbn [mget].
  repeat match goal with |- context [String.eqb k ?a] => destruct (String.eqb_spec k a); [subst; tauto|] end. congruence.
Qed.
(** a proof with a domain: the derived proof is refused, though the original signature is valid *)
Definition bd_proof : gomap json := mset bx_proof "domain" (JStr "shop").
Definition bd_out : gomap json := Eval vm_compute in bx_out (JObj bd_proof) "N".
Definition bd_shown : list string := Eval vm_compute in split_lines (bx_canon (mdel (mset bd_proof "@context" (JStr security_context)) "proofValue")).
Example C216_example :
  mget bd_proof "domain" = Some (JStr "shop")
  /\ (exists q, mget bd_out "proof" = Some (JArr [JObj q]) /\ mget q "domain" = None /\ exists s, mget q "proofValue" = Some (JStr (std_encode s))
      /\ s = bx_spell (bd_shown ++ ["_:c14n0 <type> Person ."; "_:c14n0 <name> Ann ."])%list "N" "K")
  /\ In "_:c14n0 <domain> shop ." bd_shown /\ ~ In "_:c14n0 <domain> shop ." (split_lines (bx_c1)).
Proof.
  split; [reflexivity|]. split.
  - eexists. split; [vm_compute; reflexivity|]. split; [reflexivity|]. eexists. split; [|reflexivity]. vm_compute. reflexivity.
  - split; [vm_compute; tauto|]. vm_compute. intuition discriminate.
Qed.
Print Assumptions C216_options_lost_refuted.
