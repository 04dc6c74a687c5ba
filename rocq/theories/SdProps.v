(** Property theorems: SD-JWT disclosure processing, holder and verifier. *)
From Verif Require Import GoBase Base64 StrLemmas JwtSpec JwtModel JwtProofs JwtProps SdSpec SdModel SdProofs SdRun SdOrder SdParse SdParseProofs SdSubset.

(** A small environment for the examples: "hashing" is the identity, three disclosures are known. *)
Definition ex_json (b : string) : option json :=
  if String.eqb b "A" then Some (JArr [JStr "salt1"; JStr "name"; JStr "Ann"]) else
  if String.eqb b "B" then Some (JArr [JStr "salt2"; JStr "address"; JObj [("_sd", JArr [JStr (b64_encode (b64_encode "C"))]); ("country", JStr "IT")]]) else
  if String.eqb b "C" then Some (JArr [JStr "salt3"; JStr "city"; JStr "Rome"]) else
  if String.eqb b "E" then Some (JArr [JStr "salt4"; JStr "it"]) else
  if String.eqb b "S" then Some (JArr [JStr "salt5"; JStr "_sd"; JArr [JStr "x"]]) else None.
Definition ex_sd : sdenv := {| sd_sum := fun _ s => s; sd_json := ex_json |}.
Definition dA := b64_encode "A".
Definition dB := b64_encode "B".
Definition dC := b64_encode "C".
Definition dE := b64_encode "E".
Definition dS := b64_encode "S".
Definition dig (s : string) : string := get_hash ex_sd SHA256 s.
Definition ex_payload : gomap json :=
  [("iss", JStr "did:i"); ("_sd_alg", JStr "sha-256"); ("_sd", JArr [JStr (dig dB); JStr "decoy"; JStr (dig dA)]);
   ("langs", JArr [JStr "en"; JObj [("...", JStr (dig dE))]])].
Lemma ex_sd_wf : wf_env ex_sd.
Proof.
  intros b j. simpl. unfold ex_json.
  repeat (match goal with |- context [String.eqb b ?x] => destruct (String.eqb b x) end;
    [intros [= <-]; simpl; repeat split; repeat constructor; simpl; intuition discriminate|]). discriminate.
Qed.
Lemma ex_payload_wf : wf_json (JObj ex_payload).
Proof. simpl. repeat split; repeat constructor; simpl; intuition discriminate. Qed.

(** ** C17  The combined formats round-trip. *)
Theorem C17_issuance :
  forall c : cf_issuance, free_of "~"%char (ci_jwt c) -> Forall (free_of "~"%char) (ci_discs c) ->
    parse_issuance (serialize_issuance c) = c.
Proof. exact parse_issuance_serialize. Qed.
Theorem C17_presentation :
  forall c : cf_presentation, free_of "~"%char (cp_jwt c) -> Forall (free_of "~"%char) (cp_discs c) ->
    free_of "~"%char (cp_holder c) -> parse_presentation (serialize_presentation c) = c.
Proof. exact parse_presentation_serialize. Qed.
(** and nothing is lost the other way round: every string is the serialization of its parts (a presentation
    that consists of a JWT and a lone separator is normalised to the JWT) *)
Theorem C17_issuance_back : forall s, serialize_issuance (parse_issuance s) = s.
Proof. exact serialize_parse_issuance. Qed.
Theorem C17_presentation_back :
  forall s, (forall j, free_of "~"%char j -> s <> j ++ "~") -> serialize_presentation (parse_presentation s) = s.
Proof. exact serialize_parse_presentation. Qed.
Example C17_example :
  serialize_presentation {| cp_jwt := "h.p.s"; cp_discs := ["d1"; "d2"]; cp_holder := "" |} = "h.p.s~d1~d2~" /\
  parse_presentation "h.p.s~d1~d2~a.b.c" = {| cp_jwt := "h.p.s"; cp_discs := ["d1"; "d2"]; cp_holder := "a.b.c" |} /\
  parse_issuance "h.p.s~d1~d2" = {| ci_jwt := "h.p.s"; ci_discs := ["d1"; "d2"] |}.
Proof. repeat split. Qed.
Print Assumptions C17_issuance.
Print Assumptions C17_presentation.
Print Assumptions C17_issuance_back.
Print Assumptions C17_presentation_back.

(** ** C18  No disclosure is accepted unless its digest is committed to. *)
Theorem C18_committed :
  forall (E : sdenv) (ds : list string) (payload : gomap json),
    wf_env E -> wf_json (JObj payload) ->
    verify_disclosures E ds payload = Ok tt ->
    exists h, get_crypto_hash payload = Ok h /\
      forall s, In s ds -> committed (Dof E h ds) (JObj payload) (get_hash E h s).
Proof.
  intros E ds payload HE Hp H. apply verify_disclosures_iff in H as (h & Hh & _ & out & dl & R & _ & Hin); auto.
  exists h. split; [assumption|]. intros s Hs. destruct (Res_committed false (Dof E h ds)) as (Hc & _). eapply Hc; eauto.
Qed.
(** the verifier and the holder only accept after that check *)
Theorem C18_verifier :
  forall D C P E order o s out, wf_env E -> wf_denv D ->
    verifier_parse D C P E order o s = Ok out ->
    exists t h, validate_issuer D P o (cp_jwt (parse_presentation s)) (cp_discs (parse_presentation s)) = Ok t /\
      get_crypto_hash (payload_of t) = Ok h /\
      forall x, In x (cp_discs (parse_presentation s)) ->
        committed (Dof E h (cp_discs (parse_presentation s))) (JObj (payload_of t)) (get_hash E h x).
Proof.
  intros D C P E order o s out HE HD H. unfold verifier_parse in H.
  apply bind_ok in H as (t & Hv & H). apply bind_ok in H as ([] & Hd & _).
  pose proof (validate_issuer_inv _ _ _ _ _ _ Hv) as (j & iss & _ & _ & _ & Hm & Hn & _).
  apply C18_committed in Hd as (h & Hh & Hc); [|assumption|apply wf_obj_intro; [assumption|eapply HD; eauto]]. eauto.
Qed.
Theorem C18_holder :
  forall D P obj E order o s claims, wf_env E -> wf_denv D ->
    holder_parse D P obj E order o s = Ok claims ->
    exists tp h, parse_and_check D (ci_jwt (parse_issuance s)) (ho_check o) true (ho_det o) false no_dest = Ok tp /\
      get_crypto_hash (payload_of (fst tp)) = Ok h /\
      forall x, In x (ci_discs (parse_issuance s)) ->
        committed (Dof E h (ci_discs (parse_issuance s))) (JObj (payload_of (fst tp))) (get_hash E h x).
Proof.
  intros D P obj E order o s claims HE HD H. unfold holder_parse in H.
  apply bind_ok in H as ([t pl] & Hv & H). apply bind_ok in H as ([] & _ & H). apply bind_ok in H as ([] & Hd & _).
  destruct (parse_and_check_inv _ _ _ _ _ _ _ _ _ Hv) as (j & _ & _ & _ & _ & _ & Hm & _).
  destruct (Hm eq_refl) as (m & Hm1 & Hnd & Hm2). cbn [fst] in *.
  assert (Hpl : payload_of t = m) by (unfold payload_of; now rewrite Hm1). rewrite Hpl in *.
  apply C18_committed in Hd as (h & Hh & Hc); [|assumption|apply wf_obj_intro; [assumption|eapply HD; eauto]].
  exists (t, pl), h. cbn [fst]. rewrite Hpl. auto.
Qed.
Example C18_example :
  verify_disclosures ex_sd [dA; dC; dB] ex_payload = Ok tt /\
  verify_disclosures ex_sd [dA; dC] ex_payload = Err "disclosure digest not found in SD-JWT disclosure digests".
Proof. split; vm_compute; reflexivity. Qed.
Print Assumptions C18_committed.
Print Assumptions C18_verifier.
Print Assumptions C18_holder.

(** ** C19  A digest occurring in two places is rejected.
    [value_of s]: what disclosure [s] discloses.  All digest occurrences of the payload and of the disclosed
    values are pairwise different once the disclosures have been accepted. *)
Definition value_of (E : sdenv) (s : string) : json :=
  match dsp E s with Some c => disclosed_value c | None => JNull end.
Theorem C19_no_repeated_digest :
  forall (E : sdenv) (ds : list string) (payload : gomap json) h,
    wf_env E -> wf_json (JObj payload) -> get_crypto_hash payload = Ok h -> NoDup (map (get_hash E h) ds) ->
    verify_disclosures E ds payload = Ok tt ->
    NoDup (digests_in false (JObj payload) ++ flat_map (fun s => digests_in false (value_of E s)) ds)%list.
Proof.
  intros E ds payload h HE Hp Hh N H. apply verify_disclosures_iff in H as (h' & Hh' & Hall & out & dl & R & Nd & Hin); auto.
  assert (h' = h) by congruence. subst h'.
  destruct (Res_perm false (Dof E h ds)) as (Pm & _). specialize (Pm _ _ _ R).
  apply Permutation_NoDup in Pm; [|assumption].
  assert (G : exists rest, Permutation dl (map (get_hash E h) ds ++ rest)%list).
  { clear - N Hin. revert dl Hin. induction ds as [|s ds IH]; simpl in *; intros dl Hin; [exists dl; apply Permutation_refl|].
    inversion N; subst. destruct (in_split (get_hash E h s) dl) as (l1 & l2 & ->); [auto|].
    destruct (IH H2 (l1 ++ l2)%list) as (rest & Pr).
    { intros s' Hs'. assert (Hi : In (get_hash E h s') (l1 ++ get_hash E h s :: l2)%list) by auto.
      apply in_app_iff in Hi. apply in_or_app. destruct Hi as [?|[Hi|?]]; auto.
      exfalso. apply H1. rewrite Hi. now apply in_map. }
    exists rest. rewrite <- Pr. symmetry. apply Permutation_middle. }
  destruct G as (rest & Pr).
  assert (Hf : flat_map (occD false (Dof E h ds)) (map (get_hash E h) ds) = flat_map (fun s => digests_in false (value_of E s)) ds).
  { assert (Hd : forall s, In s ds -> Dof E h ds (get_hash E h s) = dsp E s).
    { intros s Hs. apply supplied_unique; auto. }
    clear - Hd. assert (G : forall l, incl l ds -> flat_map (occD false (Dof E h ds)) (map (get_hash E h) l) = flat_map (fun s => digests_in false (value_of E s)) l).
    { induction l as [|s l IH]; intros Hi; [reflexivity|]. simpl. rewrite IH by (intros x Hx; apply Hi; now right).
      f_equal. unfold occD, value_of. rewrite Hd by (apply Hi; now left). destruct (dsp E s); reflexivity. }
    apply G, incl_refl. }
  rewrite <- Hf. eapply Permutation_NoDup in Pm.
  2:{ apply Permutation_app_head. apply Permutation_flat_map. exact Pr. }
  rewrite flat_map_app, app_assoc in Pm. eapply NoDup_app_r. eapply Permutation_NoDup; [apply Permutation_app_comm|exact Pm].
Qed.
(** in other words: repeating a digest in the payload, or in the payload and a disclosure, is rejected *)
Theorem C19_rejects :
  forall (E : sdenv) (ds : list string) (payload : gomap json) h d,
    wf_env E -> wf_json (JObj payload) -> get_crypto_hash payload = Ok h -> NoDup (map (get_hash E h) ds) ->
    (1 < count_occ String.string_dec (digests_in false (JObj payload) ++ flat_map (fun s => digests_in false (value_of E s)) ds)%list d)%nat ->
    verify_disclosures E ds payload <> Ok tt.
Proof.
  intros E ds payload h d HE Hp Hh N Hc H. apply C19_no_repeated_digest with (h := h) in H; auto.
  apply (NoDup_count_occ String.string_dec) with (x := d) in H. lia.
Qed.
Example C19_example :
  let P := [("_sd_alg", JStr "sha-256"); ("_sd", JArr [JStr (dig dB)]); ("a", JObj [("_sd", JArr [JStr (dig dC)])])] in
  verify_disclosures ex_sd [dC] P = Ok tt /\ verify_disclosures ex_sd [dB; dC] P = Err "digest has been included in more than one place".
Proof. split; vm_compute; reflexivity. Qed.
Print Assumptions C19_no_repeated_digest.
Print Assumptions C19_rejects.

(** ** C20  Disclosure processing terminates on every input.
    The model bounds the depth of the mutual recursion by [fuel]; one more than the number of disclosures is
    always enough - any larger bound gives the same answer and the bound is never hit - for every value and
    every state, cyclic disclosure graphs included. *)
Theorem C20_value_terminates :
  forall (clean : bool) (fuel : nat) (j : json) (st : rst), (List.length (rs_discs st) < fuel)%nat ->
    disclose clean fuel j st = disclose_top clean j st /\ disclose_top clean j st <> Err fuel_error.
Proof. exact disclose_enough. Qed.
Theorem C20_claims_terminate :
  forall (fuel : nat) (order : list string) (st : rst), (List.length (rs_discs st) < fuel)%nat ->
    set_all fuel order st = set_all (S (List.length (rs_discs st))) order st /\ set_all fuel order st <> Err fuel_error.
Proof. exact set_all_enough. Qed.
Example C20_example : (* a disclosure that contains its own digest *)
  let E := {| sd_sum := fun _ _ => "d"; sd_json := fun _ => Some (JArr [JStr "s"; JStr "n"; JObj [("_sd", JArr [JStr (b64_encode "d")])]]) |} in
  verify_disclosures E [dA] [("_sd_alg", JStr "sha-256"); ("_sd", JArr [JStr (b64_encode "d")])]
  = Err "digest has been included in more than one place".
Proof. vm_compute. reflexivity. Qed.
Print Assumptions C20_value_terminates.
Print Assumptions C20_claims_terminate.

(** ** C21  Disclosure processing does not depend on map iteration order. *)
Theorem C21_verification :
  forall E E' ds P P', wf_env E -> wf_env E' -> wf_json (JObj P) -> wf_json (JObj P') ->
    (* the same objects up to the order of members: in the payload and in the decoded disclosures *)
    same_decoding E E' -> jeq (JObj P) (JObj P') ->
    (verify_disclosures E ds P = Ok tt <-> verify_disclosures E' ds P' = Ok tt).
Proof.
  intros E E' ds P P' HE HE' HP HP' HS J. split; intros H.
  - eapply verify_disclosures_order; [exact HE| |exact HP| |exact HS|exact J|exact H]; auto.
  - eapply verify_disclosures_order; [exact HE'| |exact HP'| | | |exact H]; auto; [now apply same_decoding_sym|now apply jeq_sym].
Qed.
Theorem C21_claims :
  forall E E' ds P P' h order order', wf_env E -> wf_env E' -> wf_json (JObj P) -> wf_json (JObj P') ->
    same_decoding E E' -> jeq (JObj P) (JObj P') ->
    (* any two orders of visiting the disclosure map *)
    visits_all order -> visits_all order' ->
    verify_disclosures E ds P = Ok tt -> get_crypto_hash P = Ok h ->
    exists out out', vp_disclosed E h ds order P = Ok out /\ vp_disclosed E' h ds order' P' = Ok out' /\ jeq (JObj out) (JObj out').
Proof.
  intros E E' ds P P' h order order' HE HE' HP HP' HS J Ho Ho' Hv Hh.
  assert (Hv' : verify_disclosures E' ds P' = Ok tt) by (apply (C21_verification E E' ds P P'); assumption).
  assert (Hh' : get_crypto_hash P' = Ok h) by (rewrite <- Hh; now apply crypto_hash_jeq).
  destruct (disclosed_after_verify E h ds P order HE HP Ho Hv Hh) as (m & Hm & _ & _ & _ & out & dl & Hg & R).
  destruct (disclosed_after_verify E' h ds P' order' HE' HP' Ho' Hv' Hh') as (m' & Hm' & _ & _ & _ & out' & dl' & Hg' & R').
  exists out, out'. unfold vp_disclosed. rewrite Hm, Hm'. cbn [bind]. split; [assumption|]. split; [assumption|].
  destruct (Res_jeq true _ _ (Dof_same E E' h ds HS) (wfD_Dof E h ds HE)) as (HR & _).
  destruct (HR _ _ _ R _ HP J) as (o2 & dl2 & R2 & J2 & _). destruct (Res_det _ _ _ _ _ _ _ R' R2) as [-> _]. assumption.
Qed.
(** the whole verifier: every order of visiting the disclosure map gives the same outcome *)
Theorem C21_verifier :
  forall D C P E order order' o s, wf_env E -> wf_denv D -> visits_all order -> visits_all order' ->
    forall out, verifier_parse D C P E order o s = Ok out <-> verifier_parse D C P E order' o s = Ok out.
Proof. intros D C P E order order' o s HE HD Ho Ho' out. rewrite !verifier_parse_iff by assumption. reflexivity. Qed.
Example C21_example :
  let P' := rev ex_payload in
  jeq (JObj ex_payload) (JObj P') /\
  vp_disclosed ex_sd SHA256 [dA; dC; dB; dE] (fun m => map fst m) ex_payload
  = Ok [("address", JObj [("city", JStr "Rome"); ("country", JStr "IT")]); ("name", JStr "Ann"); ("iss", JStr "did:i"); ("langs", JArr [JStr "en"; JStr "it"])] /\
  vp_disclosed ex_sd SHA256 [dA; dC; dB; dE] (fun m => rev (map fst m)) P'
  = Ok [("address", JObj [("city", JStr "Rome"); ("country", JStr "IT")]); ("name", JStr "Ann"); ("langs", JArr [JStr "en"; JStr "it"]); ("iss", JStr "did:i")].
Proof.
  split; [|split; vm_compute; reflexivity].
  apply jeq_obj with (p := rev ex_payload); [apply Permutation_rev|]. generalize (rev ex_payload). clear.
  intros l. induction l as [|[k v] l IH]; constructor; auto. split; [reflexivity|apply jeq_refl].
Qed.
Print Assumptions C21_verification.
Print Assumptions C21_claims.
Print Assumptions C21_verifier.

(** ** C24  Undisclosed claims do not leak.
    Every scalar and every member name of the verified output is in the signed payload or in the value (or is
    the name) of a supplied disclosure ... *)
Theorem C24_no_leak :
  forall D C P E order o s out, wf_env E -> wf_denv D -> visits_all order ->
    verifier_parse D C P E order o s = Ok out ->
    exists j m, de_jws D (cp_jwt (parse_presentation s)) (vo_det o) = Ok j /\ de_members D (jws_payload j) = Some m /\
      (forall x, scalar_of x (JObj out) -> x <> JNull ->
         scalar_of x (JObj m) \/
         exists sd c, In sd (cp_discs (parse_presentation s)) /\ dsp E sd = Some c /\ scalar_of x (disclosed_value c)) /\
      (forall n, name_of n (JObj out) ->
         name_of n (JObj m) \/
         exists sd c, In sd (cp_discs (parse_presentation s)) /\ dsp E sd = Some c /\
           (name_of n (disclosed_value c) \/ exists v, c = CMember n v)).
Proof.
  intros D C P E order o s out HE HD Ho H. apply verifier_parse_iff in H as (t & Hv & _ & _ & _ & h & dl & Hh & R); auto.
  apply validate_issuer_inv in Hv as (j & iss & Hj & _ & _ & Hm & _). exists j, (payload_of t).
  split; [assumption|]. split; [assumption|]. split.
  - intros x Hx Hn. destruct (Res_scalars (Dof E h (cp_discs (parse_presentation s)))) as (Hs & _).
    destruct (Hs _ _ _ R x Hx Hn) as [?|(d & c & Hd & Hc)]; [auto|].
    right. apply Dof_In in Hd as (sd & Hi & _ & Hds). eauto.
  - intros n Hx. destruct (Res_names (Dof E h (cp_discs (parse_presentation s)))) as (Hs & _).
    destruct (Hs _ _ _ R n Hx) as [?|[(d & c & Hd & Hc)|(d & v & Hd)]]; [auto| |];
      right; apply Dof_In in Hd as (sd & Hi & _ & Hds); exists sd; eauto 8.
Qed.
(** ... and no digest remains, provided that no disclosure is named [_sd] or [...] and that array elements that
    are not placeholders contain no digests (C69, C70: what happens otherwise). *)
Theorem C24_no_digest :
  forall D C P E order o s out t, wf_env E -> wf_denv D -> visits_all order ->
    verifier_parse D C P E order o s = Ok out ->
    validate_issuer D P o (cp_jwt (parse_presentation s)) (cp_discs (parse_presentation s)) = Ok t ->
    tidy (JObj (payload_of t)) ->
    (forall sd c, In sd (cp_discs (parse_presentation s)) -> dsp E sd = Some c ->
       tidy (disclosed_value c) /\
       (forall n v, c = CMember n v -> n <> "_sd" /\ n <> "...") /\
       (forall m, c = CElem (JObj m) -> mget m "..." = None)) ->
    forall d, ~ digest_anywhere d (JObj out).
Proof.
  intros D C P E order o s out t HE HD Ho H Hv Ht Hd. apply verifier_parse_iff in H as (t' & Hv' & _ & _ & _ & h & dl & Hh & R); auto.
  assert (t' = t) by congruence. subst t'.
  assert (G : forall d c, Dof E h (cp_discs (parse_presentation s)) d = Some c -> exists sd, In sd (cp_discs (parse_presentation s)) /\ dsp E sd = Some c).
  { intros d c Hc. apply Dof_In in Hc as (sd & ? & _ & ?). eauto. }
  destruct (Res_no_digest (Dof E h (cp_discs (parse_presentation s)))) as (Hn & _).
  - intros d c Hc. apply G in Hc as (sd & Hi & Hs). now apply (Hd _ _ Hi Hs).
  - intros d n v Hc. apply G in Hc as (sd & Hi & Hs). eapply (Hd _ _ Hi Hs); eauto.
  - intros d m Hc. apply G in Hc as (sd & Hi & Hs). eapply (Hd _ _ Hi Hs); eauto.
  - eapply Hn; eauto.
Qed.
(** an environment in which tokens are (the identity-encoded) payloads *)
Definition ex_denv (m : gomap json) : denv :=
  {| de_compact := fun _ => true;
     de_jws := fun tok _ => Ok {| jws_headers := [("alg", JStr "EdDSA"); ("typ", JStr "kb+jwt")]; jws_payload := tok; jws_input := tok; jws_sig := "sig:" ++ tok |};
     de_members := fun b => if String.eqb b "H" then Some [("nonce", JStr "n1"); ("aud", JStr "v"); ("iat", jnum 100)] else Some m;
     de_gstr := fun _ => "" |}.
Definition ex_penv : penv :=
  {| pe_now := 100 * second; pe_num := fun _ => ""; pe_weak := fun _ => Err ""; pe_rest := fun _ => true;
     pe_jwk := fun j => match j with JStr _ => Some {| jk_kty := "OKP"; jk_crv := "Ed25519"; jk_key := KEd ex_key |} | _ => None end |}.
Definition ex_vopts (req : bool) : vopts :=
  {| vo_det := None; vo_check := noop_checker; vo_ialgs := ["EdDSA"]; vo_halgs := ["EdDSA"]; vo_required := req;
     vo_aud := "v"; vo_nonce := "n1"; vo_leeway := 0; vo_typ := "" |}.
Example C24_example :
  let o := ex_vopts false in
  verifier_parse (ex_denv ex_payload) ex_cenv ex_penv ex_sd (fun m => map fst m) o ("T~" ++ dB ++ "~")
  = Ok [("address", JObj [("country", JStr "IT")]); ("iss", JStr "did:i"); ("langs", JArr [JStr "en"])].
Proof. vm_compute. reflexivity. Qed.
Print Assumptions C24_no_leak.
Print Assumptions C24_no_digest.

(** ** C25  The holder's presentation reveals exactly the selected disclosures. *)
Theorem C25_presentation :
  forall (s : string) (sel : list string) (hv : option (res string)) (p : string),
    create_presentation s sel hv = Ok p ->
    incl sel (ci_discs (parse_issuance s)) /\
    exists hb, match hv with None => hb = "" | Some r => r = Ok hb end /\
      p = serialize_presentation {| cp_jwt := ci_jwt (parse_issuance s); cp_discs := sel; cp_holder := hb |} /\
      (* what a verifier reads back *)
      (free_of "~"%char hb ->
       parse_presentation p = {| cp_jwt := ci_jwt (parse_issuance s); cp_discs := sel; cp_holder := hb |}).
Proof.
  intros s sel hv p H. unfold create_presentation in H. apply bind_ok in H as ([] & Hn & H).
  apply bind_ok in H as ([] & Hs & H). apply bind_ok in H as (hb & Hb & H). injection H as <-.
  apply guard_ok in Hs. rewrite forallb_forall in Hs.
  assert (Hi : incl sel (ci_discs (parse_issuance s))) by (intros x Hx; apply str_in_In; auto).
  split; [assumption|]. exists hb. split; [destruct hv; congruence|]. split; [reflexivity|].
  intros Hf. destruct (parse_issuance_parts s) as [H1 H2]. apply parse_presentation_serialize; auto. simpl.
  apply Forall_forall. intros x Hx. rewrite Forall_forall in H2. auto.
Qed.
Theorem C25_succeeds_iff :
  forall s sel hv,
    (exists p, create_presentation s sel hv = Ok p) <->
    ci_discs (parse_issuance s) <> [] /\ incl sel (ci_discs (parse_issuance s)) /\
    match hv with None => True | Some r => exists hb, r = Ok hb end.
Proof.
  intros s sel hv. unfold create_presentation. split.
  - intros (p & H). apply bind_ok in H as ([] & Hn & H). apply bind_ok in H as ([] & Hs & H). apply bind_ok in H as (hb & Hb & H).
    apply guard_ok in Hs, Hn. rewrite forallb_forall in Hs. split; [intros E; rewrite E in Hn; discriminate|].
    split; [intros x Hx; apply str_in_In; auto|]. destruct hv; eauto.
  - intros (Hn & Hi & Hv). destruct (ci_discs (parse_issuance s)) as [|d l] eqn:E; [congruence|].
    cbn [List.length Nat.eqb negb guard bind]. replace (forallb (fun d0 => str_in d0 (d :: l)) sel) with true.
    2:{ symmetry. apply forallb_forall. intros x Hx. apply str_in_In. auto. }
    cbn [guard bind]. destruct hv as [r|]; [destruct Hv as (hb & ->)|]; cbn [bind]; eauto.
Qed.
Example C25_example :
  create_presentation "h.p.s~d1~d2" ["d2"] (Some (Ok "a.b.c")) = Ok "h.p.s~d2~a.b.c" /\
  create_presentation "h.p.s~d1~d2" ["d3"] None = Err "disclosure not found in SD-JWT" /\
  create_presentation "h.p.s~d1~d2" [] None = Ok "h.p.s".
Proof. repeat split. Qed.
Print Assumptions C25_presentation.
Print Assumptions C25_succeeds_iff.

(** ** C26  Holder binding is enforced when required. *)
(** the text of a claim value under weakly typed decoding *)
Definition text_of (P : penv) (v : json) : option string :=
  match v with
  | JStr s => Some s
  | JBool b => Some (if b then "1" else "0")
  | JNum q => Some (pe_num P q)
  | JNull => Some ""
  | _ => None
  end.
(** [claim m k v]: [v] is the member called [k], or, if there is none, one whose name differs in case only *)
Definition claim (m : gomap json) (k : string) (v : json) : Prop :=
  mget m k = Some v \/ mget m k = None /\ exists k', In (k', v) m /\ to_lower k' = to_lower k.
Definition times_ok (now leeway : Z) (m : gomap json) : Prop :=
  (forall q, mget m "nbf" = Some (JNum q) -> Z.quot (Qnum q) (Zpos (Qden q)) * second <= now + leeway) /\
  (forall q, mget m "exp" = Some (JNum q) -> now - leeway <= Z.quot (Qnum q) (Zpos (Qden q)) * second) /\
  (forall q, mget m "iat" = Some (JNum q) -> Z.quot (Qnum q) (Zpos (Qden q)) * second <= now + leeway).

Lemma ms_string_claim P m k s : ms_string P m k = Ok s -> s <> "" -> exists v, claim m k v /\ text_of P v = Some s.
Proof.
  unfold ms_string, ms_field, claim. intros H Hs. destruct (mget m k) as [v|] eqn:E.
  - exists v. split; [auto|]. destruct v; simpl in *; congruence.
  - destruct (find (fun kv => equal_fold (fst kv) k) m) as [[k' v]|] eqn:F; [|congruence].
    apply find_some in F as [Hi Hf]. unfold equal_fold in Hf. apply String.eqb_eq in Hf. simpl in *.
    exists v. split; [right; eauto|]. destruct v; simpl in *; congruence.
Qed.
Lemma verify_jwt_times P m l : verify_jwt P m l = Ok tt -> times_ok (pe_now P) l m.
Proof.
  unfold verify_jwt. intros H. apply bind_ok in H as ([] & _ & H). apply bind_ok in H as (e & He & H).
  apply bind_ok in H as (n & Hn & H). apply bind_ok in H as (i & Hi & H). apply bind_ok in H as ([] & H1 & H).
  apply bind_ok in H as ([] & H2 & H3). apply guard_ok in H1, H2, H3. unfold ms_date, ms_field, qtrunc in *.
  repeat split; intros q Hq; rewrite Hq in *.
  - injection Hn as <-. apply negb_true_iff, Z.ltb_ge in H1. lia.
  - injection He as <-. apply negb_true_iff, Z.ltb_ge in H2. lia.
  - injection Hi as <-. apply negb_true_iff, Z.ltb_ge in H3. lia.
Qed.
Lemma verify_signing_alg_ok h algs : verify_signing_alg h algs = Ok tt <->
  exists alg, mget h "alg" = Some (JStr alg) /\ alg <> "none" /\ In alg algs.
Proof.
  unfold verify_signing_alg, h_alg, h_str. split.
  - destruct (mget h "alg") as [[| | |alg| |]|]; try discriminate. intros Ha.
    apply bind_ok in Ha as ([] & Ha1 & Ha2). apply guard_ok in Ha1, Ha2. apply negb_true_iff, String.eqb_neq in Ha1.
    apply str_in_In in Ha2. eauto.
  - intros (alg & -> & Hn & Hi). apply String.eqb_neq in Hn. rewrite Hn. apply str_in_In in Hi. rewrite Hi. reflexivity.
Qed.

Theorem C26_holder_binding :
  forall D C P E order o s out, wf_env E -> wf_denv D -> visits_all order ->
    vo_required o = true ->
    verifier_parse D C P E order o s = Ok out ->
    exists iss_jws payload cnf jwkv k hv_jws hm alg sc,
      (* the issuer-signed payload names the key *)
      de_jws D (cp_jwt (parse_presentation s)) (vo_det o) = Ok iss_jws /\
      de_members D (jws_payload iss_jws) = Some payload /\
      (mget payload "cnf" = Some (JObj cnf) \/
       mget payload "cnf" = None /\ exists vc, mget payload "vc" = Some (JObj vc) /\ mget vc "cnf" = Some (JObj cnf)) /\
      mget cnf "jwk" = Some jwkv /\ pe_jwk P jwkv = Some k /\
      (* the holder JWT is there and is signed with that key *)
      cp_holder (parse_presentation s) <> "" /\
      de_jws D (cp_holder (parse_presentation s)) None = Ok hv_jws /\
      mget (jws_headers hv_jws) "alg" = Some (JStr alg) /\ alg_scheme alg sc /\
      scheme_jwk sc (jk_kty k) (jk_crv k) /\
      prim_ok C (jwk_vm k) sc (jws_input hv_jws) (jws_sig hv_jws) /\
      (* with an allowed algorithm, valid times, and the expected nonce and audience *)
      alg <> "none" /\ In alg (vo_halgs o) /\
      de_members D (jws_payload hv_jws) = Some hm /\
      times_ok (pe_now P) (vo_leeway o) hm /\
      (vo_nonce o <> "" -> exists v, claim hm "nonce" v /\ text_of P v = Some (vo_nonce o)) /\
      (vo_aud o <> "" -> exists v, claim hm "aud" v /\ text_of P v = Some (vo_aud o)).
Proof.
  intros D C P E order o s out HE HD Ho Hreq H.
  apply verifier_parse_iff in H as (t & Hv & _ & _ & Hh & _); auto.
  apply validate_issuer_inv in Hv as (j & iss & Hj & _ & _ & Hm & _).
  unfold run_holder_verification in Hh. rewrite Hreq in Hh. cbn [andb] in Hh.
  destruct (String.eqb_spec (cp_holder (parse_presentation s)) "") as [|Hne]; [discriminate|].
  apply bind_ok in Hh as (pc & Hpc & Hh). apply bind_ok in Hh as ([ht hpl] & Hp & Hh). apply bind_ok in Hh as ([] & Hcp & Hh).
  unfold cnf_checker in Hpc. apply bind_ok in Hpc as (cnf & Hcnf & Hpc).
  destruct (mget cnf "jwk") as [jwkv|] eqn:Ej; [|discriminate]. destruct (pe_jwk P jwkv) as [k|] eqn:Ek; [|discriminate].
  injection Hpc as <-.
  unfold jwt_parse in Hp. apply bind_ok in Hp as ([] & _ & Hp). unfold parse_jwt in Hp. apply bind_ok in Hp as (hj & Hhj & Hp).
  unfold map_jws in Hp. apply bind_ok in Hp as ([] & _ & Hp). apply bind_ok in Hp as (pl & Hpl & Hp). apply bind_ok in Hp as ([] & _ & Hp).
  injection Hp as <- <-. unfold rmap in Hpl.
  destruct (payload_to_map D (jws_payload hj)) as [hm| |] eqn:Epm; try discriminate. injection Hpl as <-.
  unfold payload_to_map in Epm. destruct (de_members D (jws_payload hj)) as [hm'|] eqn:Edm; [|discriminate].
  destruct (nodup_str (map fst hm')) eqn:End; [|discriminate]. injection Epm as ->.
  unfold check_proof in Hcp. rewrite Hhj in Hcp. cbn [bind] in Hcp. unfold jose_verify in Hcp. cbn [bind] in Hcp.
  rewrite cnf_checker_default in Hcp. apply C31_embedded in Hcp as (alg & sc & Ha & Hs & Hjk & Hpr).
  cbn [fst] in Hh. unfold verify_holder_jwt in Hh. apply bind_ok in Hh as ([] & Hal & Hh). apply bind_ok in Hh as ([] & Hjt & Hh).
  assert (Hb : verify_binding P o hm = Ok tt).
  { cbn [tk_headers payload_of tk_payload] in Hh. destruct (h_typ (jws_headers hj)) as [ty|]; [|exact Hh].
    repeat (match type of Hh with context [match ?x with _ => _ end] => destruct x; try exact Hh end). }
  cbn [tk_headers payload_of tk_payload] in Hal, Hjt.
  apply verify_signing_alg_ok in Hal as (alg' & Ha' & Hnone & Hin). assert (alg' = alg) by congruence. subst alg'.
  unfold verify_binding in Hb. apply bind_ok in Hb as (nonce & Hnonce & Hb). apply bind_ok in Hb as (aud & Haud & Hb).
  apply bind_ok in Hb as (d & _ & Hb). apply bind_ok in Hb as ([] & Hb1 & Hb2). apply guard_ok in Hb1, Hb2.
  exists j, (payload_of t), cnf, jwkv, k, hj, hm, alg, sc.
  split; [assumption|]. split; [assumption|]. split.
  { unfold get_cnf, get_key_from_vc in Hcnf. destruct (mget (payload_of t) "cnf") as [x|] eqn:Ec.
    - destruct x; try discriminate. injection Hcnf as ->. auto.
    - right. split; [reflexivity|]. destruct (mget (payload_of t) "vc") as [[| | | | |vc]|]; try discriminate.
      destruct (mget vc "cnf") as [[| | | | |c]|] eqn:Ev; try discriminate. injection Hcnf as <-. eauto. }
  repeat (split; [assumption|]). split; [now apply verify_jwt_times|]. split.
  - intros Hn. apply String.eqb_neq in Hn. rewrite Hn in Hb1. simpl in Hb1. apply String.eqb_eq in Hb1. subst nonce.
    apply ms_string_claim; [assumption|]. now apply String.eqb_neq.
  - intros Hn. apply String.eqb_neq in Hn. rewrite Hn in Hb2. simpl in Hb2. apply String.eqb_eq in Hb2. subst aud.
    apply ms_string_claim; [assumption|]. now apply String.eqb_neq.
Qed.
(** the converse: a holder JWT that satisfies all this is accepted *)
Theorem C26_accepts :
  forall D C P o payload hv cnf jwkv k hj hm alg sc e n i, hv <> "" ->
    mget payload "cnf" = Some (JObj cnf) -> mget cnf "jwk" = Some jwkv -> pe_jwk P jwkv = Some k ->
    de_compact D hv = true -> de_jws D hv None = Ok hj -> check_headers (jws_headers hj) = Ok tt ->
    de_members D (jws_payload hj) = Some hm -> NoDup (map fst hm) -> pe_rest P hm = true ->
    mget (jws_headers hj) "alg" = Some (JStr alg) -> alg_scheme alg sc -> scheme_jwk sc (jk_kty k) (jk_crv k) ->
    prim_ok C (jwk_vm k) sc (jws_input hj) (jws_sig hj) -> alg <> "none" -> In alg (vo_halgs o) ->
    mget hm "exp" = Some (jnum e) -> mget hm "nbf" = Some (jnum n) -> mget hm "iat" = Some (jnum i) ->
    n * second <= pe_now P + vo_leeway o -> pe_now P - vo_leeway o <= e * second -> i * second <= pe_now P + vo_leeway o ->
    mget hm "nonce" = Some (JStr (vo_nonce o)) -> mget hm "aud" = Some (JStr (vo_aud o)) ->
    run_holder_verification D C P o payload hv = Ok tt.
Proof.
  intros D C P o payload hv cnf jwkv k hj hm alg sc e n i Hne Hcnf Hjwk Hk Hcomp Hjws Hhd Hmem Hnd Hrest Ha Hs Hjk Hpr Hnone Hin He Hn Hi T1 T2 T3 Hnon Haud.
  unfold run_holder_verification. apply String.eqb_neq in Hne. rewrite Hne, andb_false_r.
  unfold cnf_checker, get_cnf. rewrite Hcnf. cbn [bind]. rewrite Hjwk, Hk. cbn [bind].
  unfold jwt_parse, parse_jwt, map_jws. rewrite Hcomp. cbn [guard bind]. rewrite Hjws. cbn [bind]. rewrite Hhd. cbn [bind].
  unfold payload_to_map. rewrite Hmem. apply nodup_str_spec in Hnd. rewrite Hnd. cbn [rmap bind no_dest guard].
  unfold check_proof. rewrite Hjws. cbn [bind]. unfold jose_verify. cbn [bind]. rewrite cnf_checker_default.
  assert (Hc : check_jwt_embedded (jwk_vm k) default_jdescs (default_verifiers C) (jws_headers hj) "" (jws_input hj) (jws_sig hj) = Ok tt).
  { unfold check_jwt_embedded, h_alg, h_str. rewrite Ha.
    destruct (verify_with_complete C alg sc k (jwk_vm k) (jws_input hj) (jws_sig hj) Hs eq_refl eq_refl Hjk Hpr) as (d & -> & Hv). exact Hv. }
  rewrite Hc. cbn [bind fst]. unfold verify_holder_jwt. cbn [tk_headers payload_of tk_payload].
  assert (Hal : verify_signing_alg (jws_headers hj) (vo_halgs o) = Ok tt) by (apply verify_signing_alg_ok; eauto).
  rewrite Hal. cbn [bind].
  assert (Hq : forall z, qtrunc (inject_Z z) = z) by (intros z; unfold qtrunc; simpl; apply Z.quot_1_r).
  assert (Hj : verify_jwt P hm (vo_leeway o) = Ok tt).
  { unfold verify_jwt, ms_date, ms_field. rewrite Hrest, He, Hn, Hi. unfold jnum. cbn [guard bind]. rewrite !Hq.
    replace (pe_now P + vo_leeway o <? n * second) with false by (symmetry; apply Z.ltb_ge; lia).
    replace (e * second <? pe_now P - vo_leeway o) with false by (symmetry; apply Z.ltb_ge; lia).
    replace (pe_now P + vo_leeway o <? i * second) with false by (symmetry; apply Z.ltb_ge; lia). reflexivity. }
  unfold payload_of. cbn [tk_payload]. rewrite Hj. cbn [bind].
  assert (Hb : verify_binding P o hm = Ok tt).
  { unfold verify_binding, ms_string, ms_date, ms_field. rewrite Hnon, Haud, Hi. unfold jnum. cbn [bind].
    rewrite !String.eqb_refl, !orb_true_r. reflexivity. }
  rewrite Hb. destruct (h_typ (jws_headers hj)) as [ty|]; [|reflexivity].
  repeat (match goal with |- context [match ?x with _ => _ end] => destruct x; try reflexivity end).
Qed.
(** a presentation without a holder JWT is refused when one is required *)
Theorem C26_required :
  forall D C P E order o s out, wf_env E -> wf_denv D -> visits_all order ->
    vo_required o = true -> cp_holder (parse_presentation s) = "" -> verifier_parse D C P E order o s <> Ok out.
Proof.
  intros D C P E order o s out HE HD Ho Hr Hh H. apply verifier_parse_iff in H as (t & _ & _ & _ & H & _); auto.
  unfold run_holder_verification in H. rewrite Hr, Hh in H. discriminate.
Qed.
Definition ex_cnf_payload : gomap json := ("cnf", JObj [("jwk", JStr "key")]) :: ex_payload.
Example C26_example :
  let run s := verifier_parse (ex_denv ex_cnf_payload) ex_cenv ex_penv ex_sd (fun m => map fst m) (ex_vopts true) s in
  is_ok (run ("T~" ++ dA ++ "~H")) = true /\
  run ("T~" ++ dA ++ "~") = Err "holder verification is required" /\
  (* a JWT (here: the issuer's own) without the expected nonce *)
  run ("T~" ++ dA ++ "~T") = Err "nonce value does not match".
Proof. repeat split; vm_compute; reflexivity. Qed.
Print Assumptions C26_holder_binding.
Print Assumptions C26_accepts.
Print Assumptions C26_required.

(** ** C27  alg none and unlisted algorithms are never accepted, whatever the proof checker answers. *)
Theorem C27_issuer_alg :
  forall D C P E order o s out,
    verifier_parse D C P E order o s = Ok out ->
    exists j alg, de_jws D (cp_jwt (parse_presentation s)) (vo_det o) = Ok j /\
      mget (jws_headers j) "alg" = Some (JStr alg) /\ alg <> "none" /\ In alg (vo_ialgs o).
Proof.
  intros D C P E order o s out H. unfold verifier_parse in H. apply bind_ok in H as (t & Hv & _).
  apply validate_issuer_inv in Hv as (j & iss & Hj & _ & _ & _ & _ & _ & _ & (alg & ? & ? & ?) & _). eauto 7.
Qed.
(** the policy itself: exactly the listed names other than none *)
Theorem C27_policy :
  forall (h : headers) (algs : list string),
    verify_signing_alg h algs = Ok tt <-> exists alg, mget h "alg" = Some (JStr alg) /\ alg <> "none" /\ In alg algs.
Proof. exact verify_signing_alg_ok. Qed.
Example C27_example :
  vo_ialgs default_vopts = ["EdDSA"; "RS256"] /\
  verify_signing_alg [("alg", JStr "none")] ["none"; "EdDSA"] = Err "alg value cannot be 'none'" /\
  verify_signing_alg [("alg", JStr "ES256")] ["EdDSA"; "RS256"] = Err "alg is not in the allowed list" /\
  verify_signing_alg [("alg", JStr "EdDSA")] ["EdDSA"; "RS256"] = Ok tt.
Proof. repeat split. Qed.
Print Assumptions C27_issuer_alg.
Print Assumptions C27_policy.

(** ** C28  Duplicate disclosures are rejected by the verifier. *)
Theorem C28_no_duplicates :
  forall D C P E order o s out, verifier_parse D C P E order o s = Ok out -> NoDup (cp_discs (parse_presentation s)).
Proof.
  intros D C P E order o s out H. unfold verifier_parse in H. apply bind_ok in H as (t & Hv & _).
  apply validate_issuer_inv in Hv as (j & iss & H0). tauto.
Qed.
Theorem C28_only_duplicates : forall l, check_for_duplicates l = Ok tt <-> NoDup l.
Proof. exact check_dups_iff. Qed.
Example C28_example :
  check_for_duplicates ["a"; "b"; "a"] = Err "duplicate values found" /\ check_for_duplicates ["a"; "b"; "c"] = Ok tt /\
  verifier_parse (ex_denv ex_payload) ex_cenv ex_penv ex_sd (fun m => map fst m) (ex_vopts false) ("T~" ++ dA ++ "~" ++ dA ++ "~")
  = Err "duplicate values found".
Proof. repeat split; vm_compute; reflexivity. Qed.
Print Assumptions C28_no_duplicates.
Print Assumptions C28_only_duplicates.

(** ** C69 (refuted)  A disclosure whose claim name is [_sd] or [...] should be rejected; it is accepted, and its
    value ends up in the verified claims under that name. *)
Lemma mget_sd_alg_hash a h rest : parse_hash_alg a = Ok h -> get_crypto_hash (("_sd_alg", JStr a) :: rest) = Ok h.
Proof. intros H. exact H. Qed.
Theorem C69_reserved_name_refuted :
  forall E s n v order, wf_env E -> visits_all order -> dsp E s = Some (CMember n (JStr v)) -> (n = "_sd" \/ n = "...") ->
    let P := [("_sd_alg", JStr "sha-256"); ("_sd", JArr [JStr (get_hash E SHA256 s)])] in
    verify_disclosures E [s] P = Ok tt /\ vp_disclosed E SHA256 [s] order P = Ok [(n, JStr v)].
Proof.
  intros E s n v order HE Ho Hs Hn P.
  assert (Hw : wf_json (JObj P)). { simpl. repeat split; repeat constructor; simpl; intuition discriminate. }
  assert (HD : Dof E SHA256 [s] (get_hash E SHA256 s) = Some (CMember n (JStr v))).
  { unfold Dof. simpl. now rewrite String.eqb_refl. }
  assert (Hk : forall c, plain_key c n = negb (String.eqb n "_sd") && true).
  { intros c. unfold plain_key. destruct Hn as [-> | ->]; destruct c; reflexivity. }
  assert (R : forall clean, Res clean (Dof E SHA256 [s]) (JObj P)
      (JObj (with_hidden clean [(n, JStr v)] [] ++ if clean then [] else [("_sd_alg", JStr "sha-256")])%list) [get_hash E SHA256 s]).
  { intros clean. refine (eq_rect (([get_hash E SHA256 s] ++ [])%list) (Res clean (Dof E SHA256 [s]) (JObj P) _) _ _ eq_refl).
    eapply Res_obj with (sds := [get_hash E SHA256 s]).
    - reflexivity.
    - eapply Nm_disclosed with (ds1 := []) (ds := []); [exact HD|now constructor|constructor].
    - destruct clean.
      + apply Mb_skip; [reflexivity|]. apply Mb_skip; [reflexivity|]. constructor.
      + apply (Mb_keep false _ "_sd_alg" (JStr "sha-256") (JStr "sha-256") _ [] [] []); [reflexivity|now constructor|].
        apply Mb_skip; [reflexivity|]. constructor.
    - simpl. constructor; [simpl; tauto|constructor].
    - intros k Hi Hp [<-|[]]. simpl in Hi, Hp. destruct Hn as [-> | ->].
      + discriminate.
      + destruct Hi as [?|[?|[]]]; discriminate. }
  assert (Hv : verify_disclosures E [s] P = Ok tt).
  { apply verify_disclosures_iff; auto. exists SHA256. split; [reflexivity|]. split; [intros x [<-|[]]; congruence|].
    eexists _, _. split; [exact (R false)|]. split; [constructor; [simpl; tauto|constructor]|].
    intros x [<-|[]]. now left. }
  split; [assumption|].
  destruct (disclosed_after_verify E SHA256 [s] P order HE Hw Ho Hv eq_refl) as (m & Hm & _ & _ & _ & out & ds' & Hg & R').
  unfold vp_disclosed. rewrite Hm. cbn [bind]. rewrite Hg. destruct (Res_det _ _ _ _ _ _ _ (R true) R') as [[= ->] _]. reflexivity.
Qed.
Example C69_example :
  let P := [("_sd_alg", JStr "sha-256"); ("_sd", JArr [JStr (dig dS)])] in
  verify_disclosures ex_sd [dS] P = Ok tt /\
  vp_disclosed ex_sd SHA256 [dS] (fun m => map fst m) P = Ok [("_sd", JArr [JStr "x"])].
Proof. split; vm_compute; reflexivity. Qed.
Print Assumptions C69_reserved_name_refuted.

(** ** C70 (refuted)  Objects inside arrays are not processed: their [_sd] digests stay in the output. *)
Lemma Members_keep clean D m mem ds k v v' dv : Members clean D m mem ds -> NoDup (map fst m) -> In (k, v) m -> plain_key clean k = true ->
  Res clean D v v' dv -> v' <> JNull -> In (k, v') mem.
Proof.
  induction 1; intros N Hi Hp R Hn; [destruct Hi| |].
  - inversion N; subst. destruct Hi as [[= -> ->]|Hi]; [congruence|auto].
  - inversion N; subst. destruct Hi as [[= -> ->]|Hi].
    + destruct (Res_det _ _ _ _ _ _ _ H0 R) as [-> _]. destruct v'0; try congruence; now left.
    + assert (In (k, v') out) by auto. destruct v'0; try assumption; now right.
Qed.
Theorem C70_array_objects_refuted :
  forall E ds payload h order out k l, wf_env E -> wf_json (JObj payload) -> visits_all order ->
    verify_disclosures E ds payload = Ok tt -> get_crypto_hash payload = Ok h ->
    vp_disclosed E h ds order payload = Ok out ->
    In (k, JArr l) payload -> k <> "_sd" -> k <> "_sd_alg" -> l <> [] -> (forall v, In v l -> digest_elem v = None) ->
    In (k, JArr l) out.
Proof.
  intros E ds payload h order out k l HE Hw Ho Hv Hh Hd Hi Hk1 Hk2 Hl Hpl.
  destruct (disclosed_after_verify E h ds payload order HE Hw Ho Hv Hh) as (m & Hm & _ & _ & _ & out' & ds' & Hg & R).
  unfold vp_disclosed in Hd. rewrite Hm in Hd. cbn [bind] in Hd. rewrite Hg in Hd. injection Hd as <-.
  inversion R as [? Hx| |m0 sds named hid ds1 mem ds2 Hsd HN HM Hnd Hdis]; subst; [destruct Hx|].
  apply in_or_app. right. eapply Members_keep; [exact HM| |exact Hi| | |].
  - now apply wf_obj in Hw as [? _].
  - unfold plain_key. apply String.eqb_neq in Hk1, Hk2. now rewrite Hk1, Hk2.
  - assert (He : Elems true (Dof E h ds) l l []).
    { clear - Hpl. induction l as [|v l IH]; [constructor|]. constructor; [apply Hpl; now left|]. apply IH. intros w Hw. apply Hpl. now right. }
    replace (JArr l) with (arr_or_null l) at 2 by (destruct l; [congruence|reflexivity]). constructor. exact He.
  - discriminate.
Qed.
Example C70_example :
  let P ds := [("_sd_alg", JStr "sha-256"); ("persons", JArr [JObj [("_sd", JArr [JStr (dig dA)]); ("id", JStr "1")]])] in
  (* the digest stays ... *)
  vp_disclosed ex_sd SHA256 [] (fun m => map fst m) (P tt)
  = Ok [("persons", JArr [JObj [("_sd", JArr [JStr (dig dA)]); ("id", JStr "1")]])] /\
  (* ... and the disclosure cannot be presented *)
  verify_disclosures ex_sd [dA] (P tt) = Err "disclosure digest not found in SD-JWT disclosure digests".
Proof. split; vm_compute; reflexivity. Qed.
Print Assumptions C70_array_objects_refuted.

(** ** C71 (refuted)  Clear-text claims should survive verification; null and empty-array claims are dropped. *)
Lemma Members_src clean D m mem ds : Members clean D m mem ds -> NoDup (map fst m) -> forall k v v' dv,
  In (k, v) m -> Res clean D v v' dv -> v' = JNull -> ~ In k (map fst mem).
Proof.
  intros H N k v v' dv Hi R Hn Hin. apply in_map_iff in Hin as ([k' w] & He & Hw). simpl in He. subst k' v'.
  revert Hw Hi. induction H as [|k0 v0 m out ds Hpk HM IH|k0 v0 v0' m out ds1 ds Hpk HR HM IH]; intros Hw Hi; [destruct Hw| |].
  - simpl in N. inversion N; subst. destruct Hi as [[= -> ->]|Hi]; [|auto].
    apply Members_in with (k := k) (v' := w) in HM as (v1 & ? & Hi1 & _); [|assumption]. apply H1. exact (in_map fst _ _ Hi1).
  - simpl in N. inversion N; subst.
    assert (Hw' : (k0, v0') = (k, w) \/ In (k, w) out) by (destruct v0'; auto; destruct Hw; auto).
    destruct Hi as [[= -> ->]|Hi].
    + destruct (Res_det _ _ _ _ _ _ _ HR R) as [E' _]. subst v0'.
      apply Members_in with (k := k) (v' := w) in HM as (v1 & ? & Hi1 & _); [|assumption]. apply H1. exact (in_map fst _ _ Hi1).
    + destruct Hw' as [[= -> ->]|Hw']; [|auto]. apply H1. exact (in_map fst _ _ Hi).
Qed.
Theorem C71_empty_claims_refuted :
  forall E ds payload h order out k v, wf_env E -> wf_json (JObj payload) -> visits_all order ->
    verify_disclosures E ds payload = Ok tt -> get_crypto_hash payload = Ok h ->
    vp_disclosed E h ds order payload = Ok out ->
    In (k, v) payload -> k <> "_sd" -> k <> "_sd_alg" -> (v = JNull \/ v = JArr []) ->
    ~ In k (map fst out).
Proof.
  intros E ds payload h order out k v HE Hw Ho Hv Hh Hd Hi Hk1 Hk2 Hl.
  destruct (disclosed_after_verify E h ds payload order HE Hw Ho Hv Hh) as (m & Hm & _ & _ & _ & out' & ds' & Hg & R).
  unfold vp_disclosed in Hd. rewrite Hm in Hd. cbn [bind] in Hd. rewrite Hg in Hd. injection Hd as <-.
  inversion R as [? Hx| |m0 sds named hid ds1 mem ds2 Hsd HN HM Hnd Hdis]; subst; [destruct Hx|].
  rewrite map_app. intros Hin. apply in_app_iff in Hin as [Hin|Hin].
  - simpl in Hin. apply (Hdis k); [exact (in_map fst _ _ Hi)| |assumption].
    unfold plain_key. apply String.eqb_neq in Hk1, Hk2. now rewrite Hk1, Hk2.
  - apply wf_obj in Hw as [N _]. eapply Members_src; [exact HM|exact N|exact Hi| |reflexivity|exact Hin].
    destruct Hl as [-> | ->]; [now constructor|].
    apply (Res_arr _ _ [] [] []). constructor.
Qed.
Example C71_example :
  vp_disclosed ex_sd SHA256 [] (fun m => map fst m) [("_sd_alg", JStr "sha-256"); ("aliases", JArr []); ("middle", JNull); ("a", JStr "b")]
  = Ok [("a", JStr "b")].
Proof. vm_compute. reflexivity. Qed.
Print Assumptions C71_empty_claims_refuted.

(** ** C72 (refuted)  verifier.Parse should return an error when no signature verifier is configured; it panics
    on every well-formed token that has an issuer claim. *)
Theorem C72_nil_verifier_refuted :
  forall D C P E order o s t pl iss,
    vo_check o = nil_checker ->
    jwt_parse D (cp_jwt (parse_presentation s)) (vo_det o) false no_dest = Ok (t, pl) -> gjson_get D pl "iss" = Some iss ->
    verifier_parse D C P E order o s = Panic.
Proof.
  intros D C P E order o s t pl iss Ho Hp Hi. unfold verifier_parse, validate_issuer, parse_and_check.
  rewrite Hp. cbn [bind snd]. rewrite Hi. cbn [bind]. unfold check_proof.
  unfold jwt_parse in Hp. apply bind_ok in Hp as (? & _ & Hp). unfold parse_jwt in Hp. apply bind_ok in Hp as (j & Hj & _).
  rewrite Hj. cbn [bind]. unfold jose_verify. cbn [bind]. rewrite Ho. reflexivity.
Qed.
Example C72_example :
  vo_check default_vopts = nil_checker /\
  verifier_parse (ex_denv ex_payload) ex_cenv ex_penv ex_sd (fun m => map fst m) default_vopts "T" = Panic.
Proof. split; reflexivity. Qed.
Print Assumptions C72_nil_verifier_refuted.

(** ** C73  Selective presentation: of an accepted set of disclosures, exactly the self-contained subsets are accepted. *)
Theorem C73_subsets :
  forall (E : sdenv) (ds sel : list string) (payload : gomap json) h,
    wf_env E -> wf_json (JObj payload) -> get_crypto_hash payload = Ok h ->
    NoDup (map (get_hash E h) ds) -> NoDup sel -> incl sel ds ->
    verify_disclosures E ds payload = Ok tt ->
    (verify_disclosures E sel payload = Ok tt <->
     forall s, In s sel -> committed (Dof E h sel) (JObj payload) (get_hash E h s)).
Proof. intros E ds sel payload h HE Hp Hh N Ns Hi Hv. now apply (verify_subset E ds). Qed.
Example C73_example : (* the city needs its address *)
  verify_disclosures ex_sd [dA; dB; dC; dE] ex_payload = Ok tt /\
  verify_disclosures ex_sd [dB; dC] ex_payload = Ok tt /\
  verify_disclosures ex_sd [dC] ex_payload = Err "disclosure digest not found in SD-JWT disclosure digests".
Proof. repeat split; vm_compute; reflexivity. Qed.
Print Assumptions C73_subsets.

(** ** C74  holder.Parse returns one claim per disclosure, with its fully resolved value. *)
Theorem C74_holder_claims :
  forall D P obj E order o s claims, wf_env E -> wf_denv D -> visits_all order ->
    holder_parse D P obj E order o s = Ok claims ->
    exists t h, parse_and_check D (ci_jwt (parse_issuance s)) (ho_check o) true (ho_det o) false no_dest = Ok t /\
      get_crypto_hash (payload_of (fst t)) = Ok h /\
      let ds := ci_discs (parse_issuance s) in
      (* every claim comes from a disclosure, with that disclosure's name, its value resolved *)
      (forall c, In c claims -> In (hc_disclosure c) ds /\
         exists c0 dl, Dof E h ds (get_hash E h (hc_disclosure c)) = Some c0 /\
           Res true (Dof E h ds) (disclosed_value c0) (hc_value c) dl /\
           hc_name c = match c0 with CMember n _ => n | _ => "" end) /\
      (* every disclosure yields a claim *)
      (forall d, In d ds -> exists c, In c claims /\ get_hash E h (hc_disclosure c) = get_hash E h d) /\
      (* no digest twice *)
      NoDup (map (fun c => get_hash E h (hc_disclosure c)) claims).
Proof.
  intros D P obj E order o s claims HE HD Ho H. unfold holder_parse in H.
  apply bind_ok in H as ([t pl] & Hv & H). apply bind_ok in H as ([] & _ & H). apply bind_ok in H as ([] & Hd & H).
  apply bind_ok in H as (h & Hh & H). cbn [fst] in *.
  destruct (parse_and_check_inv _ _ _ _ _ _ _ _ _ Hv) as (j & _ & _ & _ & _ & _ & Hm & _).
  destruct (Hm eq_refl) as (pm & Hm1 & Hnd & Hm2).
  assert (Hpl : payload_of t = pm) by (unfold payload_of; now rewrite Hm1).
  assert (Hw : wf_json (JObj (payload_of t))) by (rewrite Hpl; apply wf_obj_intro; [assumption|eapply HD; eauto]).
  destruct (disclosed_after_verify E h (ci_discs (parse_issuance s)) (payload_of t) order HE Hw Ho Hd Hh)
    as (m & Hmm & Nm & Hkeys & Hvals & _).
  unfold get_claims in H. rewrite Hmm in H. cbn [bind] in H. injection H as <-.
  exists (t, pl), h. cbn [fst]. split; [assumption|]. split; [assumption|]. split; [|split].
  - intros c Hc. apply in_map_iff in Hc as ([k c'] & <- & Hi). simpl. destruct (Hvals _ _ Hi) as (H1 & H2 & c0 & dl & H3 & H4 & H5).
    split; [assumption|]. exists c0, dl. rewrite H2. split; [assumption|]. split; [assumption|]. destruct c0; assumption.
  - intros d Hdi. assert (Hk : In (get_hash E h d) (map fst m)) by (apply Hkeys; eauto).
    apply in_map_iff in Hk as ([k c'] & Hk & Hi). simpl in Hk. subst k.
    eexists. split; [apply in_map_iff; exists (get_hash E h d, c'); split; [reflexivity|exact Hi]|]. simpl.
    now destruct (Hvals _ _ Hi) as (_ & H2 & _).
  - rewrite map_map. simpl. erewrite map_ext_in; [exact Nm|]. intros [k c'] Hi. simpl. now destruct (Hvals _ _ Hi) as (_ & H2 & _).
Qed.
Example C74_example :
  holder_parse (ex_denv ex_payload) ex_penv (fun _ => true) ex_sd (fun m => map fst m) default_hopts ("T~" ++ dC ++ "~" ++ dB ++ "~" ++ dE)
  = Ok [ {| hc_disclosure := dC; hc_name := "city"; hc_value := JStr "Rome" |};
         {| hc_disclosure := dB; hc_name := "address"; hc_value := JObj [("city", JStr "Rome"); ("country", JStr "IT")] |};
         {| hc_disclosure := dE; hc_name := ""; hc_value := JStr "it" |} ].
Proof. vm_compute. reflexivity. Qed.
Print Assumptions C74_holder_claims.

(** ** C75  With V5 validation the holder refuses an SD-JWT that comes with a key binding JWT. *)
Lemma split_dot3 a b c : free_of "."%char a -> free_of "."%char b -> free_of "."%char c ->
  split_on "." (a ++ "." ++ b ++ "." ++ c) = [a; b; c].
Proof.
  intros Ha Hb Hc. change (a ++ "." ++ b ++ "." ++ c) with (a ++ String "."%char (b ++ String "."%char c)).
  rewrite split_on_app by assumption. rewrite split_on_app by assumption. now rewrite split_on_free.
Qed.
Theorem C75_key_binding_refused :
  forall D P obj E order o s x y c claims,
    ho_v5 o = true -> obj x = true -> obj y = true -> free_of "."%char c ->
    (* the last part has the form of a (signed or unsecured) JWT: two base64url-encoded JSON objects and a signature *)
    last (ci_discs (parse_issuance s)) "" = b64_encode x ++ "." ++ b64_encode y ++ "." ++ c ->
    holder_parse D P obj E order o s <> Ok claims.
Proof.
  intros D P obj E order o s x y c claims Hv5 Hx Hy Hc Hl H. unfold holder_parse in H.
  apply bind_ok in H as ([t pl] & Hv & H). rewrite Hv5 in H. apply bind_ok in H as ([] & H1 & _).
  unfold v5_validation in H1. apply bind_ok in H1 as ([] & H1 & _). apply guard_ok in H1. rewrite Hl in H1.
  assert (Hfd : forall z, free_of "."%char (b64_encode z)).
  { intros z Hz. now apply b64_encode_chars in Hz as [_ Hz]. }
  assert (Hj : forall z, obj z = true -> is_valid_json obj (b64_encode z) = true).
  { intros z Hz. unfold is_valid_json. now rewrite b64_decode_encode. }
  unfold is_jws, is_jwt_unsecured in H1. rewrite split_dot3, !Hj in H1 by auto. cbn [andb] in H1.
  destruct (String.eqb c ""); discriminate.
Qed.
Example C75_example :
  let kb := b64_encode "{}" ++ "." ++ b64_encode "{}" ++ "." ++ "sig" in
  let o := {| ho_det := None; ho_check := noop_checker; ho_algs := ["EdDSA"]; ho_v5 := true; ho_typ := ""; ho_leeway := 0%Z |} in
  let obj := String.eqb "{}" in
  holder_parse (ex_denv ex_payload) ex_penv obj ex_sd (fun m => map fst m) o ("T~" ++ dC ++ "~" ++ dB ++ "~" ++ kb)
  = Err "unexpected key binding JWT supplied" /\
  exists cs, holder_parse (ex_denv ex_payload) ex_penv obj ex_sd (fun m => map fst m) o ("T~" ++ dC ++ "~" ++ dB) = Ok cs.
Proof. split; [vm_compute; reflexivity|]. eexists. vm_compute. reflexivity. Qed.
Print Assumptions C75_key_binding_refused.
