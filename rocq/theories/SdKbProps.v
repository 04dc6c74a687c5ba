(** Property theorems: the order of disclosures in a presentation, and what a key binding JWT binds.
    Everything is about the model of sdjwt/verifier/verifier.go in SdParse.v. *)
From Verif Require Import GoBase Base64 JwtSpec JwtModel SdSpec SdModel SdProofs SdRun SdOrder SdParse SdParseProofs SdSubset JwtProps SdProps.

Section Ext.
Variables (clean : bool) (D D' : string -> option dcontent).
Hypothesis Heq : forall d, D' d = D d.
Lemma Res_ext :
  (forall j out ds, Res clean D j out ds -> Res clean D' j out ds) /\
  (forall l out ds, Elems clean D l out ds -> Elems clean D' l out ds) /\
  (forall l out hid ds, Named clean D l out hid ds -> Named clean D' l out hid ds) /\
  (forall m out ds, Members clean D m out ds -> Members clean D' m out ds).
Proof. apply Res_mutind; intros; econstructor; eauto; rewrite Heq; assumption. Qed.
End Ext.

Lemma NoDup_hash (f : string -> string) ds : NoDup ds -> (forall x y, In x ds -> In y ds -> f x = f y -> x = y) -> NoDup (map f ds).
Proof.
  induction ds as [|a ds IH]; simpl; intros N H; [constructor|]. inversion N; subst. constructor; [|apply IH; auto].
  intros Hi. apply in_map_iff in Hi as (b & Hb & Hi). assert (b = a) by (apply H; auto). subst. contradiction.
Qed.
Lemma Dof_perm E h ds ds' : NoDup (map (get_hash E h) ds) -> (forall s, In s ds -> dsp E s <> None) -> Permutation ds ds' ->
  forall d, Dof E h ds' d = Dof E h ds d.
Proof.
  intros N Hc Hp d. unfold Dof.
  assert (N' : NoDup (map (get_hash E h) ds')) by (eapply Permutation_NoDup; [apply Permutation_map; exact Hp|assumption]).
  assert (Hc' : forall s, In s ds' -> dsp E s <> None).
  { intros s Hs. apply Hc. eapply Permutation_in; [apply Permutation_sym; exact Hp|assumption]. }
  destruct (in_dec String.string_dec d (map (get_hash E h) ds)) as [Hd|Hd].
  - apply in_map_iff in Hd as (s & <- & Hs). rewrite !supplied_unique; auto. eapply Permutation_in; eauto.
  - rewrite !supplied_none; auto. intros Hi. apply Hd. eapply Permutation_in; [|exact Hi].
    apply Permutation_map, Permutation_sym, Hp.
Qed.
Lemma validate_issuer_perm D P o tok ds ds' : Permutation ds ds' -> forall t,
  validate_issuer D P o tok ds = Ok t -> validate_issuer D P o tok ds' = Ok t.
Proof.
  intros Hp t. unfold validate_issuer. intros H. apply bind_ok in H as (tp & -> & H). cbn [bind].
  apply bind_ok in H as ([] & -> & H). cbn [bind]. apply bind_ok in H as ([] & -> & H). cbn [bind].
  apply bind_ok in H as ([] & H1 & H). apply check_dups_iff in H1.
  assert (E : check_for_duplicates ds' = Ok tt) by (apply check_dups_iff; eapply Permutation_NoDup; eauto).
  rewrite E. exact H.
Qed.

(** ** C301  The order of the disclosures of a presentation carries no meaning: presenting the same disclosures in
    another order is accepted exactly when the first order is, with the same claims.  (No two of the
    disclosures may collide under the hash.) *)
Lemma order_half D C P E order o s s' out : wf_env E -> wf_denv D -> visits_all order ->
  cp_jwt (parse_presentation s') = cp_jwt (parse_presentation s) ->
  cp_holder (parse_presentation s') = cp_holder (parse_presentation s) ->
  Permutation (cp_discs (parse_presentation s)) (cp_discs (parse_presentation s')) ->
  (forall h x y, In x (cp_discs (parse_presentation s)) -> In y (cp_discs (parse_presentation s)) ->
     get_hash E h x = get_hash E h y -> x = y) ->
  verifier_parse D C P E order o s = Ok out -> verifier_parse D C P E order o s' = Ok out.
Proof.
  intros HE HD Ho Hj Hh Hp Hc H. apply verifier_parse_iff in H as (t & Hv & Hd & Ht & Hr & h & dl & Hha & R); auto.
  assert (Hw : wf_json (JObj (payload_of t))).
  { apply validate_issuer_inv in Hv as (j & iss & _ & _ & _ & Hm & Hn & _). apply wf_obj_intro; [assumption|]. eapply HD; eauto. }
  assert (Hnd : NoDup (cp_discs (parse_presentation s))) by (apply validate_issuer_inv in Hv; destruct Hv as (? & ? & Hv); tauto).
  apply verify_disclosures_iff in Hd as (h' & Hh' & Hall & out0 & dl0 & R0 & N & Hin); auto.
  assert (h' = h) by congruence. subst h'.
  assert (Hds : forall d, Dof E h (cp_discs (parse_presentation s')) d = Dof E h (cp_discs (parse_presentation s)) d).
  { apply Dof_perm; auto. apply NoDup_hash; auto. intros x y. apply Hc. }
  apply verifier_parse_iff; auto. exists t. rewrite Hj, Hh. split; [eapply validate_issuer_perm; eauto|].
  assert (Hpi : forall x, In x (cp_discs (parse_presentation s')) -> In x (cp_discs (parse_presentation s))).
  { intros x. apply Permutation_in, Permutation_sym, Hp. }
  split.
  { apply verify_disclosures_iff; auto. exists h. split; [assumption|]. split; [auto|]. exists out0, dl0.
    split; [|auto]. eapply (proj1 (Res_ext false _ _ Hds)). exact R0. }
  split; [assumption|]. split; [assumption|]. exists h, dl. split; [assumption|]. eapply (proj1 (Res_ext true _ _ Hds)). exact R.
Qed.
Theorem C301_disclosure_order :
  forall D C P E order o s s' out, wf_env E -> wf_denv D -> visits_all order ->
    (* the same issuer-signed JWT, the same holder JWT, the same disclosures in another order *)
    cp_jwt (parse_presentation s') = cp_jwt (parse_presentation s) ->
    cp_holder (parse_presentation s') = cp_holder (parse_presentation s) ->
    Permutation (cp_discs (parse_presentation s)) (cp_discs (parse_presentation s')) ->
    (* no hash collision *)
    (forall h x y, In x (cp_discs (parse_presentation s)) -> In y (cp_discs (parse_presentation s)) ->
       get_hash E h x = get_hash E h y -> x = y) ->
    (verifier_parse D C P E order o s = Ok out <-> verifier_parse D C P E order o s' = Ok out).
Proof.
  intros D C P E order o s s' out HE HD Ho Hj Hh Hp Hc. split; intros H.
  - eapply order_half; eauto.
  - eapply order_half; [..|exact H]; auto; [now apply Permutation_sym|].
    intros h x y Hx Hy. apply Hc; (eapply Permutation_in; [apply Permutation_sym; exact Hp|assumption]).
Qed.
Example C301_example :
  let run s := verifier_parse (ex_denv ex_payload) ex_cenv ex_penv ex_sd (fun m => map fst m) (ex_vopts false) s in
  run ("T~" ++ dC ++ "~" ++ dB ++ "~" ++ dE ++ "~") = run ("T~" ++ dE ++ "~" ++ dB ++ "~" ++ dC ++ "~") /\
  is_ok (run ("T~" ++ dC ++ "~" ++ dB ++ "~" ++ dE ++ "~")) = true.
Proof. split; vm_compute; reflexivity. Qed.
Print Assumptions C301_disclosure_order.

(** ** C302  Holder binding only ever refuses: whatever is accepted with holder binding (required or not) is
    accepted, with the same claims, when the holder JWT is taken off and none is required. *)
Definition unrequired (o : vopts) : vopts :=
  {| vo_det := vo_det o; vo_check := vo_check o; vo_ialgs := vo_ialgs o; vo_halgs := vo_halgs o; vo_required := false;
     vo_aud := vo_aud o; vo_nonce := vo_nonce o; vo_leeway := vo_leeway o; vo_typ := vo_typ o |}.
Theorem C302_binding_only_refuses :
  forall D C P E order o s s' out, wf_env E -> wf_denv D -> visits_all order ->
    cp_jwt (parse_presentation s') = cp_jwt (parse_presentation s) ->
    cp_discs (parse_presentation s') = cp_discs (parse_presentation s) ->
    cp_holder (parse_presentation s') = "" ->
    verifier_parse D C P E order o s = Ok out ->
    verifier_parse D C P E order (unrequired o) s' = Ok out.
Proof.
  intros D C P E order o s s' out HE HD Ho Hj Hd Hh H. apply verifier_parse_iff in H as (t & Hv & Hdi & Ht & Hr & R); auto.
  apply verifier_parse_iff; auto. exists t. rewrite Hj, Hd, Hh. split; [exact Hv|]. split; [assumption|]. split; [exact Ht|].
  split; [reflexivity|exact R].
Qed.
Example C302_example :
  let run o s := verifier_parse (ex_denv ex_cnf_payload) ex_cenv ex_penv ex_sd (fun m => map fst m) o s in
  is_ok (run (ex_vopts true) ("T~" ++ dA ++ "~H")) = true /\
  run (unrequired (ex_vopts true)) ("T~" ++ dA ++ "~") = run (ex_vopts true) ("T~" ++ dA ++ "~H") /\
  is_ok (run (ex_vopts true) ("T~" ++ dA ++ "~")) = false.
Proof. repeat split; vm_compute; reflexivity. Qed.
Print Assumptions C302_binding_only_refuses.

(** ** C303 (refuted)  A key binding JWT ought to be bound to the presentation it was made for (the SD-JWT
    specification has it carry [sd_hash], the hash of the JWT and of the disclosures presented).  It is not: a
    holder JWT seen in one accepted presentation can be moved to any other set of disclosures, and to any other
    SD-JWT with the same confirmation key, that the same verifier would accept without a holder JWT. *)
Definition confirmation (payload : gomap json) (cnf : gomap json) : Prop :=
  mget payload "cnf" = Some (JObj cnf) \/
  mget payload "cnf" = None /\ exists vc, mget payload "vc" = Some (JObj vc) /\ mget vc "cnf" = Some (JObj cnf).
Lemma confirmation_get m c : confirmation m c <-> get_cnf m = Ok c.
Proof.
  unfold confirmation, get_cnf, get_key_from_vc. split.
  - intros [->|(-> & vc & -> & ->)]; reflexivity.
  - destruct (mget m "cnf") as [x|]; [destruct x; try discriminate; intros [= ->]; auto|].
    destruct (mget m "vc") as [[| | | | |vc]|]; try discriminate.
    destruct (mget vc "cnf") as [[| | | | |x]|] eqn:Ev; try discriminate. intros [= ->]. right. eauto 6.
Qed.
Theorem C303_moved_binding_refuted :
  forall D C P E order o s1 s2 s3 out1 out2, wf_env E -> wf_denv D -> visits_all order ->
    (* s1: a presentation that was accepted with its holder JWT *)
    verifier_parse D C P E order o s1 = Ok out1 -> cp_holder (parse_presentation s1) <> "" ->
    (* s2: an SD-JWT with disclosures, without holder JWT, otherwise acceptable *)
    verifier_parse D C P E order (unrequired o) s2 = Ok out2 ->
    (* the same confirmation key *)
    (forall j1 j2 m1 m2, de_jws D (cp_jwt (parse_presentation s1)) (vo_det o) = Ok j1 -> de_members D (jws_payload j1) = Some m1 ->
       de_jws D (cp_jwt (parse_presentation s2)) (vo_det o) = Ok j2 -> de_members D (jws_payload j2) = Some m2 ->
       forall c, confirmation m1 c -> confirmation m2 c) ->
    (* s3: s2 with the holder JWT of s1 *)
    cp_jwt (parse_presentation s3) = cp_jwt (parse_presentation s2) ->
    cp_discs (parse_presentation s3) = cp_discs (parse_presentation s2) ->
    cp_holder (parse_presentation s3) = cp_holder (parse_presentation s1) ->
    verifier_parse D C P E order o s3 = Ok out2.
Proof.
  intros D C P E order o s1 s2 s3 out1 out2 HE HD Ho H1 Hne H2 Hc Hj Hd Hh.
  apply verifier_parse_iff in H1 as (t1 & Hv1 & _ & _ & Hr1 & _); auto.
  apply verifier_parse_iff in H2 as (t2 & Hv2 & Hd2 & Ht2 & _ & R2); auto.
  apply verifier_parse_iff; auto. exists t2. rewrite Hj, Hd, Hh.
  split; [exact Hv2|]. split; [exact Hd2|]. split; [exact Ht2|]. split; [|exact R2].
  apply String.eqb_neq in Hne. unfold run_holder_verification in *. rewrite Hne, andb_false_r in *.
  apply bind_ok in Hr1 as (pc & Hpc & Hr1).
  assert (Hpc2 : cnf_checker C P (payload_of t2) = Ok pc).
  { apply validate_issuer_inv in Hv1 as (j1 & ? & Hj1 & _ & _ & Hm1 & _).
    assert (Hv2' : validate_issuer D P o (cp_jwt (parse_presentation s2)) (cp_discs (parse_presentation s2)) = Ok t2) by exact Hv2.
    apply validate_issuer_inv in Hv2' as (j2 & ? & Hj2 & _ & _ & Hm2 & _).
    unfold cnf_checker in *. apply bind_ok in Hpc as (cnf & Hcnf & Hpc).
    apply confirmation_get in Hcnf. pose proof (Hc _ _ _ _ Hj1 Hm1 Hj2 Hm2 _ Hcnf) as Hcnf2.
    apply confirmation_get in Hcnf2. rewrite Hcnf2. exact Hpc. }
  rewrite Hpc2. exact Hr1.
Qed.
Example C303_example : (* the binding made for the name is used for the address *)
  let run o s := verifier_parse (ex_denv ex_cnf_payload) ex_cenv ex_penv ex_sd (fun m => map fst m) o s in
  is_ok (run (ex_vopts true) ("T~" ++ dA ++ "~H")) = true /\
  is_ok (run (unrequired (ex_vopts true)) ("T~" ++ dB ++ "~" ++ dC ++ "~")) = true /\
  run (ex_vopts true) ("T~" ++ dB ++ "~" ++ dC ++ "~H") = run (unrequired (ex_vopts true)) ("T~" ++ dB ++ "~" ++ dC ++ "~").
Proof. repeat split; vm_compute; reflexivity. Qed.
Print Assumptions C303_moved_binding_refuted.
