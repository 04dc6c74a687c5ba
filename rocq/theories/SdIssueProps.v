(** Property theorems: issuing SD-JWTs. *)
From Verif Require Import GoBase Base64 StrLemmas JwtSpec JwtModel JwtProofs JwtProps SdSpec SdModel SdProofs SdRun SdOrder SdParse SdParseProofs SdSubset
  SdIssueSpec SdIssueModel SdIssueEnc SdIssueTop SdIssueV2 SdIssueMain SdIssueV5.

Lemma str_in_eta sel : forall s, str_in s sel = true <-> In s sel.
Proof. intros s. apply str_in_In. Qed.
(** with everything shown, a tree reads as the original *)
Lemma erase_nn sel t : ordinary (erase t) -> (forall s, In s (all_discs t) -> sel s = true) -> reveal sel t = erase t.
Proof.
  induction t as [j|els|mems IH] using tree_ind'; intros Ho Hs; [reflexivity| |].
  - cbn [reveal erase] in *. inversion Ho as [? Hx|l Hn _|]; subst; [destruct Hx|].
    assert (Hf : filter (fun e => shown sel (fst e)) els = els).
    { clear Ho Hn. unfold all_discs in Hs. cbn [reachable] in Hs. induction els as [|[l v] els IH]; [reflexivity|]. cbn [filter fst].
      assert (shown sel l = true). { destruct l; [|reflexivity]. apply Hs. simpl. now left. }
      rewrite H. f_equal. apply IH. intros s Hi. apply Hs. simpl. apply in_app_iff. now right. }
    rewrite Hf. destruct (map snd els); [congruence|reflexivity].
  - cbn [reveal erase] in *. f_equal. rewrite all_discs_obj in Hs.
    assert (Ha : forall x, In x mems -> ordinary (erase (snd x))).
    { inversion Ho as [? Hx| |m N Ha]; subst; [destruct Hx|]. intros [[n l] t] Hi.
      apply (Ha n). apply in_map_iff. exists (n, l, t). split; [reflexivity|assumption]. }
    clear Ho. induction IH as [|[[n l] t] mems Ht _ IHm]; [reflexivity|]. cbn [flat_map map fst snd] in *.
    assert (Hov : ordinary (erase t)) by exact (Ha (n, l, t) (or_introl eq_refl)).
    rewrite Ht; [|exact Hov|].
    + rewrite IHm; [|intros s Hi; apply Hs; rewrite in_app_iff; now right|intros; apply Ha; now right].
      pose proof (ordinary_nn _ Hov). unfold reveal_member. destruct l as [s|].
      * rewrite Hs; [destruct (erase t); try congruence; reflexivity|]. apply in_app_iff. left. now left.
      * destruct (erase t); try congruence; reflexivity.
    + intros s Hi. apply Hs. apply in_app_iff. left. apply in_app_iff. now right.
Qed.
Lemma v2_all_discs_perm structured clear sel t path : v2_marked structured clear path t -> reachable sel t = all_discs t.
Proof. apply v2_reachable. Qed.

(** Issuing succeeds only through the builder. *)
Lemma new_sdjwt_inv E I v5 o iss claims payload discs : new_sdjwt E I v5 o iss claims = Ok (payload, discs) ->
  exists dm st, (if v5 then v5_create E I o "" (JObj claims) false 0 else v2_create E I o "" (JObj claims) 0) = Ok (discs, dm, st) /\
    payload = merge_custom (create_payload iss o) dm.
Proof.
  unfold new_sdjwt. intros H. apply bind_ok in H as ([] & _ & H). apply bind_ok in H as ([[ds dm] st] & Hb & H).
  injection H as <- <-. eauto.
Qed.

(** ** C22  SD-JWT v2: issuing, then verifying with any of the disclosures.
    [ok]: the strings JSON encoding preserves (valid UTF-8).  The payload [P'] is the signed one as parsed, its
    members in any order.  [T]: the claims with the hidden ones marked, as the options prescribe. *)
Theorem C22_issue_then_verify :
  forall E I o ok iss claims payload discs,
    wf_env E -> reads_back (sd_json E) (ie_enc I) ok -> (forall n s, ie_salt I n = Some s -> ok s) ->
    (forall n l, Permutation l (ie_shuffle I n l)) ->
    ordinary (JObj claims) -> texts ok (JObj claims) -> (forall jwk, io_holder o = Some jwk -> ordinary jwk) ->
    (forall k, In k (map fst claims) -> ~ In k (map fst (create_payload iss o))) ->
    new_sdjwt E I false o iss claims = Ok (payload, discs) ->
    NoDup (digests_in false (JObj payload)) ->
    exists T, erase T = JObj claims /\ v2_marked (io_structured o) (io_nonsd o) "" T /\ Permutation discs (all_discs T) /\
      forall sel P', NoDup sel -> incl sel discs -> wf_json (JObj P') -> jeq (JObj payload) (JObj P') ->
        verify_disclosures E sel P' = Ok tt /\ get_crypto_hash P' = Ok (io_hash o) /\
        forall order, visits_all order -> exists out, vp_disclosed E (io_hash o) sel order P' = Ok out /\
          jeq (JObj out) (JObj (without_alg (create_payload iss o) ++ members_of (reveal (fun s => str_in s sel) T))%list).
Proof.
  intros E I o ok iss claims payload discs HE Hrb Hsalt Hshuf Hord Ht Hh Hdis Hnew ND.
  apply new_sdjwt_inv in Hnew as (dm & st & Hc & ->).
  destruct (v2_create_ok E I o ok Hrb Hsalt Hshuf (JObj claims) "" 0 _ Hord Ht eq_refl Hc) as (mems & dec & HEnc & He & Hm & Hp).
  cbn [fst snd] in *.
  assert (Hdis2 : forall k, In k (names mems) -> ~ In k (map fst (create_payload iss o))).
  { intros k Hk. apply Hdis. cbn [erase] in He. injection He as <-. rewrite map_map. exact Hk. }
  rewrite (main_merge E o iss mems dm dec HEnc Hdis2) in *.
  exists (TObj mems). split; [assumption|]. split; [assumption|]. split; [assumption|].
  intros sel P' Ns Hi Hw Hj.
  assert (Hi2 : incl sel (all_discs (TObj mems))) by (intros s Hs; eapply Permutation_in; [exact Hp|auto]).
  destruct (main_issued E o iss HE Hh mems dm dec HEnc Hdis2 sel P') as (Hv1 & Hv2); auto.
  { rewrite <- (v2_reachable _ _ (fun _ => false) _ _ Hm).
    eapply Permutation_NoDup; [apply (main_digests E o iss Hh mems dm dec HEnc Hdis2)|exact ND]. }
  assert (HV : verify_disclosures E sel P' = Ok tt) by (apply Hv1; now rewrite (v2_reachable _ _ _ _ _ Hm)).
  split; [assumption|]. now apply Hv2.
Qed.
(** ... with all its disclosures the original claims come back ... *)
Theorem C22_all_disclosed :
  forall E I o ok iss claims payload discs,
    wf_env E -> reads_back (sd_json E) (ie_enc I) ok -> (forall n s, ie_salt I n = Some s -> ok s) ->
    (forall n l, Permutation l (ie_shuffle I n l)) ->
    ordinary (JObj claims) -> texts ok (JObj claims) -> (forall jwk, io_holder o = Some jwk -> ordinary jwk) ->
    (forall k, In k (map fst claims) -> ~ In k (map fst (create_payload iss o))) ->
    new_sdjwt E I false o iss claims = Ok (payload, discs) ->
    NoDup (digests_in false (JObj payload)) -> NoDup discs ->
    forall P' order, wf_json (JObj P') -> jeq (JObj payload) (JObj P') -> visits_all order ->
      verify_disclosures E discs P' = Ok tt /\
      exists out, vp_disclosed E (io_hash o) discs order P' = Ok out /\
        jeq (JObj out) (JObj (without_alg (create_payload iss o) ++ claims)%list).
Proof.
  intros E I o ok iss claims payload discs HE Hrb Hsalt Hshuf Hord Ht Hh Hdis Hnew ND Nd P' order Hw Hj Ho.
  destruct (C22_issue_then_verify E I o ok iss claims payload discs HE Hrb Hsalt Hshuf Hord Ht Hh Hdis Hnew ND) as (T & He & _ & Hp & HT).
  destruct (HT discs P' Nd (incl_refl _) Hw Hj) as (Hv & _ & Hout). split; [assumption|].
  destruct (Hout order Ho) as (out & Ho1 & Ho2). exists out. split; [assumption|].
  rewrite (erase_nn _ T) in Ho2; [|rewrite He; assumption|].
  - rewrite He in Ho2. exact Ho2.
  - intros s Hs. apply str_in_In. eapply Permutation_in; [apply Permutation_sym; exact Hp|exact Hs].
Qed.
(** ... and so says the verifier, when the signature (and the holder verification, if any) checks out. *)
Lemma issued_verifier D C P E order o v s sel payload t F T :
  wf_env E -> wf_denv D -> visits_all order ->
  cp_discs (parse_presentation s) = sel ->
  validate_issuer D P v (cp_jwt (parse_presentation s)) sel = Ok t -> jeq (JObj payload) (JObj (payload_of t)) ->
  (vo_typ v = "" \/ mget (tk_headers t) "typ" = Some (JStr (vo_typ v))) ->
  run_holder_verification D C P v (payload_of t) (cp_holder (parse_presentation s)) = Ok tt ->
  (forall P', wf_json (JObj P') -> jeq (JObj payload) (JObj P') ->
     verify_disclosures E sel P' = Ok tt /\ get_crypto_hash P' = Ok (io_hash o) /\
        forall order, visits_all order -> exists out, vp_disclosed E (io_hash o) sel order P' = Ok out /\
          jeq (JObj out) (JObj (F ++ members_of (reveal (fun s => str_in s sel) T))%list)) ->
  exists out, verifier_parse D C P E order v s = Ok out /\
    jeq (JObj out) (JObj (F ++ members_of (reveal (fun s => str_in s sel) T))%list).
Proof.
  intros HE HD Ho Hs Hv Hj Ht Hh HP.
  assert (Hw : wf_json (JObj (payload_of t))).
  { apply validate_issuer_inv in Hv as (j & i & _ & _ & _ & Hm & Hn & _). apply wf_obj_intro; [assumption|]. eapply HD; eauto. }
  destruct (HP _ Hw Hj) as (H1 & H2 & H3). destruct (H3 order Ho) as (out & H4 & H5).
  exists out. split; [|assumption]. unfold verifier_parse. rewrite Hs, Hv. cbn [bind]. rewrite H1. cbn [bind].
  assert (H6 : (if String.eqb (vo_typ v) "" then Ok tt else verify_typ (tk_headers t) (vo_typ v)) = Ok tt).
  { destruct (String.eqb_spec (vo_typ v) ""); [reflexivity|]. destruct Ht as [?|Ht]; [contradiction|].
    unfold verify_typ, h_typ, h_str. rewrite Ht. apply guard_ok, String.eqb_refl. }
  rewrite H6. cbn [bind]. rewrite Hh. cbn [bind]. rewrite H2. exact H4.
Qed.
Theorem C22_verifier :
  forall E I o ok iss claims payload discs,
    wf_env E -> reads_back (sd_json E) (ie_enc I) ok -> (forall n s, ie_salt I n = Some s -> ok s) ->
    (forall n l, Permutation l (ie_shuffle I n l)) ->
    ordinary (JObj claims) -> texts ok (JObj claims) -> (forall jwk, io_holder o = Some jwk -> ordinary jwk) ->
    (forall k, In k (map fst claims) -> ~ In k (map fst (create_payload iss o))) ->
    new_sdjwt E I false o iss claims = Ok (payload, discs) ->
    NoDup (digests_in false (JObj payload)) ->
    exists T, erase T = JObj claims /\ v2_marked (io_structured o) (io_nonsd o) "" T /\ Permutation discs (all_discs T) /\
      forall D C P order v s sel t, wf_denv D -> visits_all order -> NoDup sel -> incl sel discs ->
        cp_discs (parse_presentation s) = sel ->
        validate_issuer D P v (cp_jwt (parse_presentation s)) sel = Ok t -> jeq (JObj payload) (JObj (payload_of t)) ->
        (vo_typ v = "" \/ mget (tk_headers t) "typ" = Some (JStr (vo_typ v))) ->
        run_holder_verification D C P v (payload_of t) (cp_holder (parse_presentation s)) = Ok tt ->
        exists out, verifier_parse D C P E order v s = Ok out /\
          jeq (JObj out) (JObj (without_alg (create_payload iss o) ++ members_of (reveal (fun s => str_in s sel) T))%list).
Proof.
  intros E I o ok iss claims payload discs HE Hrb Hsalt Hshuf Hord Ht Hh Hdis Hnew ND.
  destruct (C22_issue_then_verify E I o ok iss claims payload discs HE Hrb Hsalt Hshuf Hord Ht Hh Hdis Hnew ND) as (T & He & Hm & Hp & HT).
  exists T. split; [assumption|]. split; [assumption|]. split; [assumption|].
  intros D C P order v s sel t HD Ho Ns Hi Hs Hv Hj Hty Hhv.
  eapply issued_verifier; eauto.
Qed.

(** *** An environment for the examples: a JSON encoder that knows the needed texts, the identity as hash. *)
Fixpoint jeqb (a b : json) {struct a} : bool :=
  match a, b with
  | JStr x, JStr y => String.eqb x y
  | JArr l, JArr l' => (fix go l l' := match l, l' with [], [] => true | x :: l, y :: l' => jeqb x y && go l l' | _, _ => false end) l l'
  | JObj m, JObj m' => (fix go m m' := match m, m' with [], [] => true | (k, x) :: m, (k', y) :: m' => String.eqb k k' && jeqb x y && go m m' | _, _ => false end) m m'
  | _, _ => false
  end.
Lemma jeqb_eq a : forall b, jeqb a b = true -> a = b.
Proof.
  induction a as [|bo|nu|x|l IH|m IH] using json_ind'; intros b H; destruct b as [|b2|n2|y|l'|m']; try discriminate; simpl in H.
  - apply String.eqb_eq in H. now subst.
  - f_equal. revert l' H. induction IH as [|x l Hx _ IHl]; intros [|y l'] H; try discriminate; [reflexivity|].
    apply andb_prop in H as [H1 H2]. f_equal; auto.
  - f_equal. revert m' H. induction IH as [|[k x] m Hx _ IHl]; intros [|[k' y] m'] H; try discriminate; [reflexivity|].
    apply andb_prop in H as [H1 H2]. apply andb_prop in H1 as [H0 H1]. apply String.eqb_eq in H0. subst. f_equal; auto.
    f_equal. now apply Hx.
Qed.
Definition tbl_env (tbl : list (string * json)) : sdenv := {| sd_sum := fun _ s => s; sd_json := mget tbl |}.
Definition tbl_ienv (tbl : list (string * json)) : ienv :=
  {| ie_salt := fun n => nth_error ["s0"; "s1"; "s2"; "s3"; "s4"; "s5"; "s6"; "s7"; "s8"; "s9"] n;
     ie_shuffle := fun _ l => rev l; ie_decoys := fun _ => O;
     ie_enc := fun j => match find (fun p => jeqb (snd p) j) tbl with Some p => Some (fst p) | None => None end |}.
Lemma tbl_wf tbl : Forall (fun p => wf_json (snd p)) tbl -> wf_env (tbl_env tbl).
Proof. intros F b j Hb. apply mget_In in Hb. rewrite Forall_forall in F. exact (F _ Hb). Qed.
Lemma tbl_reads_back tbl : NoDup (map fst tbl) -> reads_back (sd_json (tbl_env tbl)) (ie_enc (tbl_ienv tbl)) (fun _ => True).
Proof.
  intros N j b _ _ Hb. simpl in *. destruct (find _ tbl) as [[k x]|] eqn:Ef; [|discriminate]. injection Hb as <-.
  apply find_some in Ef as [Hi He]. apply jeqb_eq in He. simpl in *. subst x. exists j. split; [|apply jeq_refl].
  now apply mget_In_nodup.
Qed.
Lemma tbl_shuffle tbl n l : Permutation l (ie_shuffle (tbl_ienv tbl) n l).
Proof. apply Permutation_rev. Qed.
Lemma texts_True j : texts (fun _ => True) j.
Proof. split; intros; exact Logic.I. Qed.
Lemma scalar_ordinary s : ordinary (JStr s).
Proof. now constructor. Qed.

Definition ex2_tbl : list (string * json) :=
  [("A", JArr [JStr "s2"; JStr "name"; JStr "Ann"]); ("B", JArr [JStr "s5"; JStr "type"; JStr "BSc"])].
Definition ex2_claims : gomap json := [("name", JStr "Ann"); ("degree", JObj [("type", JStr "BSc")]); ("lang", JStr "en")].
Definition ex2_opts : iopts :=
  {| io_sub := "did:s"; io_aud := ""; io_jti := ""; io_id := ""; io_exp := Some 99%Z; io_nbf := None; io_iat := None;
     io_holder := Some (JObj [("kty", JStr "OKP")]); io_hash := SHA256; io_decoys := true; io_structured := true;
     io_nonsd := ["lang"]; io_always := []; io_rec := [] |}.
Definition ex2_payload : gomap json :=
  [("iss", JStr "did:i"); ("sub", JStr "did:s"); ("exp", jnum 99); ("cnf", JObj [("jwk", JObj [("kty", JStr "OKP")])]); ("_sd_alg", JStr "sha-256");
   ("degree", JObj [("_sd", JArr [JStr (b64_encode "s4"); JStr (b64_encode (b64_encode "B"))])]); ("lang", JStr "en");
   ("_sd", JArr [JStr (b64_encode "s1"); JStr (b64_encode (b64_encode "A"))])].
Lemma ex2_ordinary : ordinary (JObj ex2_claims).
Proof.
  apply ord_obj; [repeat constructor; simpl; intuition discriminate|].
  intros k v [[= <- <-]|[[= <- <-]|[[= <- <-]|[]]]]; (split; [unfold reserved; intuition discriminate|]); try apply scalar_ordinary.
  apply ord_obj; [repeat constructor; simpl; tauto|]. intros k v [[= <- <-]|[]]. split; [unfold reserved; intuition discriminate|apply scalar_ordinary].
Qed.
Example C22_example :
  wf_env (tbl_env ex2_tbl) /\ reads_back (sd_json (tbl_env ex2_tbl)) (ie_enc (tbl_ienv ex2_tbl)) (fun _ => True) /\
  (forall n l, Permutation l (ie_shuffle (tbl_ienv ex2_tbl) n l)) /\ ordinary (JObj ex2_claims) /\
  (forall k, In k (map fst ex2_claims) -> ~ In k (map fst (create_payload "did:i" ex2_opts))) /\
  new_sdjwt (tbl_env ex2_tbl) (tbl_ienv ex2_tbl) false ex2_opts "did:i" ex2_claims = Ok (ex2_payload, [b64_encode "B"; b64_encode "A"]) /\
  NoDup (digests_in false (JObj ex2_payload)) /\
  vp_disclosed (tbl_env ex2_tbl) SHA256 [b64_encode "A"] (fun m => map fst m) ex2_payload
  = Ok [("name", JStr "Ann"); ("iss", JStr "did:i"); ("sub", JStr "did:s"); ("exp", jnum 99); ("cnf", JObj [("jwk", JObj [("kty", JStr "OKP")])]);
        ("degree", JObj []); ("lang", JStr "en")].
Proof.
  split; [apply tbl_wf; repeat constructor|]. split; [apply tbl_reads_back; repeat constructor; simpl; intuition discriminate|].
  split; [apply tbl_shuffle|]. split; [exact ex2_ordinary|].
  split; [intros k; simpl; intuition (subst; discriminate)|]. split; [vm_compute; reflexivity|].
  split; [vm_compute; repeat constructor; simpl; intuition discriminate|]. vm_compute. reflexivity.
Qed.
Print Assumptions C22_issue_then_verify.
Print Assumptions C22_all_disclosed.
Print Assumptions C22_verifier.

(** ** C23  SD-JWT v5 (without decoy digests, see C77; claim names not empty, see C78): every set of disclosures
    that contains, with each of its disclosures, the enclosing one is accepted - no other is -, and shows what it
    should. *)
Theorem C23_issue_then_verify :
  forall E I o ok iss claims payload discs,
    wf_env E -> reads_back (sd_json E) (ie_enc I) ok -> (forall n s, ie_salt I n = Some s -> ok s) ->
    (forall n l, Permutation l (ie_shuffle I n l)) -> ok "_sd" -> ok "..." -> (forall x, ok (b64_encode x)) ->
    io_decoys o = false ->
    ordinary (JObj claims) -> texts ok (JObj claims) -> ~ name_of "" (JObj claims) ->
    (forall jwk, io_holder o = Some jwk -> ordinary jwk) ->
    (forall k, In k (map fst claims) -> ~ In k (map fst (create_payload iss o))) ->
    new_sdjwt E I true o iss claims = Ok (payload, discs) ->
    NoDup (map (get_hash E (io_hash o)) discs) ->
    exists T, erase T = JObj claims /\ v5_marked (io_structured o) (io_nonsd o) (io_always o) (io_rec o) false "" T /\
      Permutation discs (all_discs T) /\
      forall sel P', NoDup sel -> incl sel discs -> wf_json (JObj P') -> jeq (JObj payload) (JObj P') ->
        (verify_disclosures E sel P' = Ok tt <-> incl sel (reachable (fun s => str_in s sel) T)) /\
        (verify_disclosures E sel P' = Ok tt ->
         get_crypto_hash P' = Ok (io_hash o) /\
         forall order, visits_all order -> exists out, vp_disclosed E (io_hash o) sel order P' = Ok out /\
          jeq (JObj out) (JObj (without_alg (create_payload iss o) ++ members_of (reveal (fun s => str_in s sel) T))%list)).
Proof.
  intros E I o ok iss claims payload discs HE Hrb Hsalt Hshuf Hok1 Hok2 Hok3 Hdec Hord Ht Hne Hh Hdis Hnew ND.
  apply new_sdjwt_inv in Hnew as (dm & st & Hc & ->).
  destruct (v5_create_ok E I o ok Hrb Hsalt Hshuf Hok1 Hok2 Hok3 Hdec (JObj claims) "" false 0 _ Hord Ht Hne eq_refl Hc) as (mems & HEnc & He & Hm & Hp & _).
  cbn [fst snd] in *.
  assert (Hdis2 : forall k, In k (names mems) -> ~ In k (map fst (create_payload iss o))).
  { intros k Hk. apply Hdis. cbn [erase] in He. injection He as <-. rewrite map_map. exact Hk. }
  rewrite (main_merge E o iss mems dm [] HEnc Hdis2) in *.
  exists (TObj mems). split; [assumption|]. split; [assumption|]. split; [assumption|].
  intros sel P' Ns Hi Hw Hj.
  assert (Hi2 : incl sel (all_discs (TObj mems))) by (intros s Hs; eapply Permutation_in; [exact Hp|auto]).
  apply (main_issued E o iss HE Hh mems dm [] HEnc Hdis2 sel P'); auto.
  rewrite app_nil_r. eapply Permutation_NoDup; [apply Permutation_map; exact Hp|exact ND].
Qed.
(** with every disclosure: accepted, and the original claims come back *)
Theorem C23_all_disclosed :
  forall E I o ok iss claims payload discs,
    wf_env E -> reads_back (sd_json E) (ie_enc I) ok -> (forall n s, ie_salt I n = Some s -> ok s) ->
    (forall n l, Permutation l (ie_shuffle I n l)) -> ok "_sd" -> ok "..." -> (forall x, ok (b64_encode x)) ->
    io_decoys o = false ->
    ordinary (JObj claims) -> texts ok (JObj claims) -> ~ name_of "" (JObj claims) ->
    (forall jwk, io_holder o = Some jwk -> ordinary jwk) ->
    (forall k, In k (map fst claims) -> ~ In k (map fst (create_payload iss o))) ->
    new_sdjwt E I true o iss claims = Ok (payload, discs) ->
    NoDup (map (get_hash E (io_hash o)) discs) ->
    forall P' order, wf_json (JObj P') -> jeq (JObj payload) (JObj P') -> visits_all order ->
      verify_disclosures E discs P' = Ok tt /\
      exists out, vp_disclosed E (io_hash o) discs order P' = Ok out /\
        jeq (JObj out) (JObj (without_alg (create_payload iss o) ++ claims)%list).
Proof.
  intros E I o ok iss claims payload discs HE Hrb Hsalt Hshuf Hok1 Hok2 Hok3 Hdec Hord Ht Hne Hh Hdis Hnew ND P' order Hw Hj Ho.
  destruct (C23_issue_then_verify E I o ok iss claims payload discs HE Hrb Hsalt Hshuf Hok1 Hok2 Hok3 Hdec Hord Ht Hne Hh Hdis Hnew ND) as (T & He & _ & Hp & HT).
  destruct (HT discs P' (NoDup_map_inv _ _ ND) (incl_refl _) Hw Hj) as (Hv & Hout).
  assert (Hall : forall t, (forall s, In s (all_discs t) -> In s discs) -> reachable (fun s => str_in s discs) t = all_discs t).
  { clear. induction t as [j|els|mems IH] using tree_ind'; intros Hs; try reflexivity.
    rewrite all_discs_obj in Hs |- *. cbn [reachable]. induction IH as [|[[n l] t] mems Ht _ IHm]; [reflexivity|].
    cbn [flat_map fst snd] in *. rewrite IHm by (intros s Hi; apply Hs, in_app_iff; now right). f_equal. f_equal.
    destruct l as [s|]; cbn [shown opt_list] in *.
    - assert (Hd : str_in s discs = true) by (apply str_in_In, Hs, in_app_iff; left; now left). rewrite Hd.
      apply Ht. intros x Hx. apply Hs, in_app_iff. left. now right.
    - apply Ht. intros x Hx. apply Hs, in_app_iff. now left. }
  assert (Hin : forall s, In s (all_discs T) -> In s discs) by (intros s Hs; eapply Permutation_in; [apply Permutation_sym; exact Hp|exact Hs]).
  assert (HV : verify_disclosures E discs P' = Ok tt).
  { apply Hv. rewrite (Hall T Hin). intros s Hs. eapply Permutation_in; [exact Hp|exact Hs]. }
  split; [assumption|]. destruct (Hout HV) as (_ & Hout2). destruct (Hout2 order Ho) as (out & Ho1 & Ho2). exists out. split; [assumption|].
  rewrite (erase_nn _ T) in Ho2; [|rewrite He; assumption|intros s Hs; now apply str_in_In, Hin].
  rewrite He in Ho2. exact Ho2.
Qed.
(** through the verifier *)
Theorem C23_verifier :
  forall E I o ok iss claims payload discs,
    wf_env E -> reads_back (sd_json E) (ie_enc I) ok -> (forall n s, ie_salt I n = Some s -> ok s) ->
    (forall n l, Permutation l (ie_shuffle I n l)) -> ok "_sd" -> ok "..." -> (forall x, ok (b64_encode x)) ->
    io_decoys o = false ->
    ordinary (JObj claims) -> texts ok (JObj claims) -> ~ name_of "" (JObj claims) ->
    (forall jwk, io_holder o = Some jwk -> ordinary jwk) ->
    (forall k, In k (map fst claims) -> ~ In k (map fst (create_payload iss o))) ->
    new_sdjwt E I true o iss claims = Ok (payload, discs) ->
    NoDup (map (get_hash E (io_hash o)) discs) ->
    exists T, erase T = JObj claims /\ v5_marked (io_structured o) (io_nonsd o) (io_always o) (io_rec o) false "" T /\
      Permutation discs (all_discs T) /\
      forall D C P order v s sel t, wf_denv D -> visits_all order -> NoDup sel -> incl sel discs ->
        cp_discs (parse_presentation s) = sel ->
        validate_issuer D P v (cp_jwt (parse_presentation s)) sel = Ok t -> jeq (JObj payload) (JObj (payload_of t)) ->
        (vo_typ v = "" \/ mget (tk_headers t) "typ" = Some (JStr (vo_typ v))) ->
        run_holder_verification D C P v (payload_of t) (cp_holder (parse_presentation s)) = Ok tt ->
        (incl sel (reachable (fun s => str_in s sel) T) ->
         exists out, verifier_parse D C P E order v s = Ok out /\
           jeq (JObj out) (JObj (without_alg (create_payload iss o) ++ members_of (reveal (fun s => str_in s sel) T))%list)) /\
        (~ incl sel (reachable (fun s => str_in s sel) T) -> forall out, verifier_parse D C P E order v s <> Ok out).
Proof.
  intros E I o ok iss claims payload discs HE Hrb Hsalt Hshuf Hok1 Hok2 Hok3 Hdec Hord Ht Hne Hh Hdis Hnew ND.
  destruct (C23_issue_then_verify E I o ok iss claims payload discs HE Hrb Hsalt Hshuf Hok1 Hok2 Hok3 Hdec Hord Ht Hne Hh Hdis Hnew ND) as (T & He & Hm & Hp & HT).
  exists T. split; [assumption|]. split; [assumption|]. split; [assumption|].
  intros D C P order v s sel t HD Ho Ns Hi Hs Hv Hj Hty Hhv. split.
  - intros Hr. eapply issued_verifier; eauto. intros P' Hw Hj'. destruct (HT sel P' Ns Hi Hw Hj') as (H1 & H2).
    split; [now apply H1|]. apply H2. now apply H1.
  - intros Hr out Hout. apply verifier_parse_iff in Hout as (t' & Hv' & Hd & _); auto. subst sel.
    rewrite Hv in Hv'. injection Hv' as <-.
    assert (Hw : wf_json (JObj (payload_of t))).
    { apply validate_issuer_inv in Hv as (j & i & _ & _ & _ & Hmm & Hn & _). apply wf_obj_intro; [assumption|]. eapply HD; eauto. }
    destruct (HT _ _ Ns Hi Hw Hj) as (H1 & _). apply Hr, H1, Hd.
Qed.

Definition ex5_tbl : list (string * json) :=
  [("A", JArr [JStr "s0"; JStr "name"; JStr "Ann"]); ("C", JArr [JStr "s1"; JStr "city"; JStr "Rome"]);
   ("B", JArr [JStr "s3"; JStr "address"; JObj [("_sd", JArr [JStr (b64_encode (b64_encode "C"))])]]);
   ("E", JArr [JStr "s4"; JStr "it"])].
Definition ex5_claims : gomap json :=
  [("name", JStr "Ann"); ("address", JObj [("city", JStr "Rome")]); ("langs", JArr [JStr "en"; JStr "it"])].
Definition ex5_opts : iopts :=
  {| io_sub := ""; io_aud := ""; io_jti := ""; io_id := ""; io_exp := None; io_nbf := None; io_iat := None;
     io_holder := None; io_hash := SHA256; io_decoys := false; io_structured := false;
     io_nonsd := ["langs[0]"]; io_always := ["langs"]; io_rec := ["address"] |}.
Definition ex5_payload : gomap json :=
  [("iss", JStr "did:i"); ("_sd_alg", JStr "sha-256"); ("langs", JArr [JStr "en"; JObj [("...", JStr (b64_encode (b64_encode "E")))]]);
   ("_sd", JArr [JStr (b64_encode (b64_encode "B")); JStr (b64_encode (b64_encode "A"))])].
Example C23_example :
  wf_env (tbl_env ex5_tbl) /\ reads_back (sd_json (tbl_env ex5_tbl)) (ie_enc (tbl_ienv ex5_tbl)) (fun _ => True) /\
  ordinary (JObj ex5_claims) /\ ~ name_of "" (JObj ex5_claims) /\
  (forall k, In k (map fst ex5_claims) -> ~ In k (map fst (create_payload "did:i" ex5_opts))) /\
  new_sdjwt (tbl_env ex5_tbl) (tbl_ienv ex5_tbl) true ex5_opts "did:i" ex5_claims
  = Ok (ex5_payload, [b64_encode "A"; b64_encode "B"; b64_encode "C"; b64_encode "E"]) /\
  vp_disclosed (tbl_env ex5_tbl) SHA256 [b64_encode "C"; b64_encode "B"] (fun m => map fst m) ex5_payload
  = Ok [("address", JObj [("city", JStr "Rome")]); ("iss", JStr "did:i"); ("langs", JArr [JStr "en"])] /\
  (exists e, verify_disclosures (tbl_env ex5_tbl) [b64_encode "C"] ex5_payload = Err e).
Proof.
  split; [apply tbl_wf; repeat constructor; simpl; repeat split; repeat constructor; simpl; tauto|].
  split; [apply tbl_reads_back; repeat constructor; simpl; intuition discriminate|].
  split.
  { apply ord_obj; [repeat constructor; simpl; intuition discriminate|].
    intros k v [[= <- <-]|[[= <- <-]|[[= <- <-]|[]]]]; (split; [unfold reserved; intuition discriminate|]); try apply scalar_ordinary.
    - apply ord_obj; [repeat constructor; simpl; tauto|]. intros k v [[= <- <-]|[]]. split; [unfold reserved; intuition discriminate|apply scalar_ordinary].
    - apply ord_arr; [discriminate|]. intros v [<-|[<-|[]]]; apply scalar_ordinary. }
  split.
  { intros H. inversion H as [m v Hi| |m k v Hi Hn]; subst; [simpl in Hi; intuition congruence|].
    destruct Hi as [[= <- <-]|[[= <- <-]|[[= <- <-]|[]]]].
    - inversion Hn.
    - inversion Hn as [m v Hi| |m k v Hi Hn']; subst; [simpl in Hi; intuition congruence|]. destruct Hi as [[= <- <-]|[]]. inversion Hn'.
    - inversion Hn as [|l v Hi Hn'|]; subst. destruct Hi as [<-|[<-|[]]]; inversion Hn'. }
  split; [intros k; simpl; intuition (subst; discriminate)|]. split; [vm_compute; reflexivity|]. split; [vm_compute; reflexivity|].
  eexists. vm_compute. reflexivity.
Qed.
Print Assumptions C23_issue_then_verify.
Print Assumptions C23_all_disclosed.
Print Assumptions C23_verifier.
