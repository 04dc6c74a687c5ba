(** Property theorems for SD-JWT credentials: displaying (C187-C193). *)
From Coq Require Import Permutation.
From Verif Require Import GoBase Base64 StrLemmas JwtSpec DiSpec VcSpec JwtModel JwtProofs SdSpec SdModel SdProofs SdRun SdOrder SdSubset SdParse SdParseProofs
  SdIssueModel SdIssueEnc SdIssueTop DiModel VcModel VcJwt VcParse VcProofs VcView VcText VcSign VcSignProofs DiProps JwtProps VcProps VcProps2 VcSd VcSdProofs VcProps6
  DispSpec VcDispProofs.

(** An SD-JWT credential as ParseCredential returns it, with at least one disclosure and the hash algorithm in the credential
    object itself (C193: what happens when it is in the subject only). *)
Definition parsed_sd (E : venv) (o : copts) (text : string) (v : credential) (je : jenvelope) (h : hashalg) : Prop :=
  parse_credential E o text = Ok v /\ cr_jwt v = Some je /\ vc_sdalg (cr_contents v) = Some h /\
  wf_env (ve_sd E) /\ visits_all (ve_order E) /\ wf_json (JObj (cr_json v)) /\ mget (cr_json v) "vc" = None /\
  mhas (cr_json v) "_sd_alg" = true /\ je_discs je <> [].
(** the disclosures it came with, by digest *)
Definition carried (E : venv) (h : hashalg) (je : jenvelope) : string -> option dcontent := Dof (ve_sd E) h (map dc_str (je_discs je)).
Definition compatible (d : dpopts) : Prop := dp_all d = true -> dp_given d = [].
Lemma compatible_test d : compatible d -> dp_all d && negb (is_empty (dp_given d)) = false.
Proof. unfold compatible. destruct (dp_all d); [|reflexivity]. intros H. now rewrite H. Qed.
Lemma Res_ext_D D D' j out ds : (forall d, D d = D' d) -> Res true D j out ds -> Res true D' j out ds.
Proof. intros. eapply Res_D_ext; eauto. Qed.
Lemma resolved_ext D D' c0 c : (forall d, D d = D' d) -> resolved_content D c0 c -> resolved_content D' c0 c.
Proof.
  intros Hd. destruct c0, c; cbn [resolved_content]; auto.
  - intros (ds & R). exists ds. eapply Res_ext_D; eauto.
  - intros (Hn & ds & R). split; [assumption|]. exists ds. eapply Res_ext_D; eauto.
Qed.
Lemma shown_ext D D' ok V : (forall d, D d = D' d) -> shown_content D ok V -> shown_content D' ok V.
Proof.
  intros Hd H d c. rewrite (H d c). split; intros (c0 & H1 & H2 & H3); exists c0.
  - split; [congruence|]. split; [assumption|]. eapply resolved_ext; eauto.
  - split; [congruence|]. split; [assumption|]. eapply resolved_ext; [|exact H3]. intros; congruence.
Qed.

(** ** C187  What CreateDisplayCredentialMap shows: the token's credential, in which the digests of exactly the chosen disclosures
    are replaced by what they disclose and all other digests dropped; empty objects of the subject are left out. *)
Theorem C187_display_exact : forall (E : venv) (o : copts) (text : string) (v : credential) (je : jenvelope) (h : hashalg) (d : dpopts),
  parsed_sd E o text v je h -> compatible d ->
  exists V out shown, shown_content (carried E h je) (fun n => dp_all d = true \/ In n (dp_given d)) V
    /\ Put V (JObj (cr_json v)) (JObj out) /\ subject_pruned out shown /\ display_map E v d = Ok shown.
Proof.
  intros E o text v je h d (Hp & Hje & Hal & HE & Hord & Hwf & Hvc & Hsa & Hne) Hc.
  destruct (parse_sd_facts E o text v je h Hp Hje Hal HE Hord Hwf Hvc Hsa Hne) as (ds & m & F).
  destruct (display_object_spec E v je h ds m d HE Hord Hwf F) as (V & out & HV & HP & Ho).
  exists V, out, (clear_subject out). split; [|split; [assumption|split; [apply clear_subject_spec|]]].
  - eapply shown_ext; [|exact HV]. intros x. symmetry. now apply (facts_D E v je h ds m).
  - unfold display_map. rewrite compatible_test, Hal, Hje by assumption. exact Ho.
Qed.

(** the credential of VcProps6: disclosures name, home (with the disclosure city inside), city (of home), city (of work) *)
Lemma sdx_wf_env : wf_env (ve_sd sdx_env).
Proof.
  intros b j. cbn [sdx_env with_sdenv ve_sd sdx_sd sd_json]. unfold sdx_json.
  repeat (match goal with |- context [if ?c then _ else _] => destruct c end); [injection 1 as <-..|discriminate]; cbn; repeat split; auto;
    try (repeat constructor; cbn; intuition discriminate).
Qed.
Fixpoint wfb (j : json) : bool :=
  match j with
  | JArr l => forallb wfb l
  | JObj m => nodupb (map fst m) && forallb (fun kv => wfb (snd kv)) m
  | _ => true
  end.
Lemma wfb_wf j : wfb j = true -> wf_json j.
Proof.
  induction j using json_ind'; intros Hb; try exact I.
  - apply wf_arr. cbn [wfb] in Hb. rewrite forallb_forall in Hb. apply Forall_forall. intros x Hx. rewrite Forall_forall in H. auto.
  - apply wf_obj. cbn [wfb] in Hb. apply andb_prop in Hb as [Hn Hb]. split; [now apply nodup_str|].
    rewrite forallb_forall in Hb. apply Forall_forall. intros x Hx. rewrite Forall_forall in H. auto.
Qed.
Lemma sdx_parsed : parsed_sd sdx_env ex_copts sdx_text sdx_cred sdx_je SHA256.
Proof.
  split; [exact sdx_parse|]. split; [exact (proj1 sdx_jwt)|]. split; [exact (proj2 sdx_jwt)|]. split; [exact sdx_wf_env|].
  split; [intros m k Hk; exact Hk|]. split; [apply wfb_wf; vm_compute; reflexivity|].
  split; [vm_compute; reflexivity|]. split; [vm_compute; reflexivity|]. vm_compute. discriminate.
Qed.
Example C187_example : parsed_sd sdx_env ex_copts sdx_text sdx_cred sdx_je SHA256
  /\ (exists m, display_map sdx_env sdx_cred {| dp_all := false; dp_given := ["name"] |} = Ok m
        /\ mget m "credentialSubject" = Some (JObj [("name", JStr "n"); ("id", JStr "did:s"); ("work", JObj [("firm", JStr "w")])])).
Proof. split; [exact sdx_parsed|]. eexists. split; [vm_compute; reflexivity|vm_compute; reflexivity]. Qed.
Print Assumptions C187_display_exact.

(** ** C188  With DisplayAllDisclosures the result is the resolved credential, and no digest is left in it. *)
Theorem C188_display_all : forall (E : venv) (o : copts) (text : string) (v : credential) (je : jenvelope) (h : hashalg),
  parsed_sd E o text v je h ->
  exists out ds shown, Res true (carried E h je) (JObj (cr_json v)) (JObj out) ds /\ subject_pruned out shown
    /\ display_map E v {| dp_all := true; dp_given := [] |} = Ok shown.
Proof.
  intros E o text v je h (Hp & Hje & Hal & HE & Hord & Hwf & Hvc & Hsa & Hne).
  destruct (parse_sd_facts E o text v je h Hp Hje Hal HE Hord Hwf Hvc Hsa Hne) as (ds & m & F).
  destruct (display_all_spec E v je h ds m {| dp_all := true; dp_given := [] |} HE Hord Hwf F eq_refl) as (out & ds' & R & Ho).
  exists out, ds', (clear_subject out). split; [|split; [apply clear_subject_spec|]].
  - eapply Res_ext_D; [|exact R]. intros x. symmetry. now apply (facts_D E v je h ds m).
  - unfold display_map. cbn [dp_all dp_given is_empty negb andb]. now rewrite Hal, Hje.
Qed.
Lemma Pruned_digest m m' : Pruned m m' -> forall d, digest_anywhere d (JObj m') -> digest_anywhere d (JObj m).
Proof.
  induction 1 as [|k v m m' Hv P IH|k o m m' Po IHo P IH|k o o' m m' Po IHo Hne P IH]; intros d Hd; auto.
  - inversion Hd as [? l H1 H2|?|? k0 v0 H1 H2|?]; subst.
    + destruct H1 as [[= -> ->]|H1]; [eapply da_sd; [now left|assumption]|].
      assert (Q : digest_anywhere d (JObj m)) by (apply IH; eapply da_sd; eauto).
      inversion Q; subst; [eapply da_sd; [right; eassumption|assumption]|eapply da_member; [right; eassumption|assumption]].
    + destruct H1 as [[= -> ->]|H1]; [eapply da_member; [now left|assumption]|].
      assert (Q : digest_anywhere d (JObj m)) by (apply IH; eapply da_member; eauto).
      inversion Q; subst; [eapply da_sd; [right; eassumption|assumption]|eapply da_member; [right; eassumption|assumption]].
  - assert (Q : digest_anywhere d (JObj m)) by auto.
    inversion Q; subst; [eapply da_sd; [right; eassumption|assumption]|eapply da_member; [right; eassumption|assumption]].
  - inversion Hd as [? l H1 H2|?|? k0 v0 H1 H2|?]; subst.
    + destruct H1 as [H1|H1]; [discriminate|].
      assert (Q : digest_anywhere d (JObj m)) by (apply IH; eapply da_sd; eauto).
      inversion Q; subst; [eapply da_sd; [right; eassumption|assumption]|eapply da_member; [right; eassumption|assumption]].
    + destruct H1 as [[= -> <-]|H1]; [eapply da_member; [now left|auto]|].
      assert (Q : digest_anywhere d (JObj m)) by (apply IH; eapply da_member; eauto).
      inversion Q; subst; [eapply da_sd; [right; eassumption|assumption]|eapply da_member; [right; eassumption|assumption]].
Qed.
Lemma mset_In_inv {V} (m : gomap V) k x k0 v0 : In (k0, v0) (mset m k x) -> In (k0, v0) m \/ (k0 = k /\ v0 = x).
Proof.
  induction m as [|[k1 v1] m IH]; cbn [mset].
  - intros [[= <- <-]|[]]. auto.
  - destruct (String.eqb_spec k k1).
    + intros [[= <- <-]|H]; [auto|left; now right].
    + intros [[= <- <-]|H]; [left; now left|]. apply IH in H as [?|?]; [left; now right|auto].
Qed.
Lemma subject_pruned_digest m m' : subject_pruned m m' -> forall d, digest_anywhere d (JObj m') -> digest_anywhere d (JObj m).
Proof.
  intros [(s & s' & Hs & P & ->)|(_ & ->)]; [|auto]. intros d Hd. apply mget_In in Hs.
  inversion Hd as [? l H1 H2|?|? k0 v0 H1 H2|?]; subst; apply mset_In_inv in H1 as [H1|[E1 E2]].
  - eapply da_sd; eauto.
  - discriminate.
  - eapply da_member; eauto.
  - subst. eapply da_member; [exact Hs|]. eapply Pruned_digest; eauto.
Qed.
Theorem C188_no_digest : forall (E : venv) (o : copts) (text : string) (v : credential) (je : jenvelope) (h : hashalg) (shown : gomap json),
  parsed_sd E o text v je h -> display_map E v {| dp_all := true; dp_given := [] |} = Ok shown ->
  tidy (JObj (cr_json v)) ->
  (forall d c, carried E h je d = Some c -> tidy (disclosed_value c) /\ (forall n x, c = CMember n x -> n <> "_sd" /\ n <> "...")
     /\ (forall m, c = CElem (JObj m) -> mget m "..." = None)) ->
  forall d, ~ digest_anywhere d (JObj shown).
Proof.
  intros E o text v je h shown Hp Hs Ht Hd d Hda.
  destruct (C188_display_all E o text v je h Hp) as (out & ds & shown' & R & Pr & Hs'). assert (shown' = shown) by congruence. subst shown'.
  apply (subject_pruned_digest _ _ Pr) in Hda. revert Hda.
  destruct (Res_no_digest (carried E h je)) as (Hn & _).
  - intros x c Hc. now apply Hd in Hc.
  - intros x n y Hc. apply Hd in Hc as (_ & H & _). eauto.
  - intros x m Hc. apply Hd in Hc as (_ & _ & H). eauto.
  - eapply Hn; eauto.
Qed.
Example C188_example : parsed_sd sdx_env ex_copts sdx_text sdx_cred sdx_je SHA256
  /\ (exists m, display_map sdx_env sdx_cred {| dp_all := true; dp_given := [] |} = Ok m
        /\ mget m "credentialSubject" = Some (JObj [("home", JObj [("city", JStr "p"); ("country", JStr "F")]); ("name", JStr "n"); ("id", JStr "did:s");
                                                    ("work", JObj [("city", JStr "q"); ("firm", JStr "w")])])).
Proof. split; [exact sdx_parsed|]. eexists. split; [vm_compute; reflexivity|vm_compute; reflexivity]. Qed.
Print Assumptions C188_display_all.
Print Assumptions C188_no_digest.

(** ** C189  Nothing else is shown: every value and every member name displayed is one of the token, or belongs to a disclosure
    that was chosen (its own nested disclosures included, C192). *)
Definition from_chosen (E : venv) (h : hashalg) (je : jenvelope) (d : dpopts) (P : dcontent -> Prop) : Prop :=
  exists dg c0 c, carried E h je dg = Some c0 /\ (dp_all d = true \/ In (content_name c0) (dp_given d))
    /\ resolved_content (carried E h je) c0 c /\ P c.
Theorem C189_nothing_else : forall (E : venv) (o : copts) (text : string) (v : credential) (je : jenvelope) (h : hashalg) (d : dpopts) (shown : gomap json),
  parsed_sd E o text v je h -> display_map E v d = Ok shown ->
  (forall x, scalar_of x (JObj shown) -> x <> JNull ->
     scalar_of x (JObj (cr_json v)) \/ from_chosen E h je d (fun c => scalar_of x (disclosed_value c)))
  /\ (forall n, name_of n (JObj shown) ->
     name_of n (JObj (cr_json v)) \/ from_chosen E h je d (fun c => content_name c = n \/ name_of n (disclosed_value c))).
Proof.
  intros E o text v je h d shown Hp Hs.
  assert (Hc : compatible d).
  { unfold display_map in Hs. intros Ha. rewrite Ha in Hs. cbn [andb] in Hs. destruct (dp_given d); [reflexivity|discriminate]. }
  destruct (C187_display_exact E o text v je h d Hp Hc) as (V & out & shown' & HV & HP & Pr & Hs'). assert (shown' = shown) by congruence. subst shown'.
  destruct (subject_pruned_sub _ _ Pr) as [P1 P2]. split.
  - intros x Hx Hn. apply P1 in Hx. destruct (Put_scalars V) as (Q & _). destruct (Q _ _ HP x Hx Hn) as [?|(dg & c & Hc' & Hx')]; [auto|].
    right. apply HV in Hc' as (c0 & H1 & H2 & H3). exists dg, c0, c. auto.
  - intros n Hx. apply P2 in Hx. destruct (Put_names V) as (Q & _). destruct (Q _ _ HP n Hx) as [?|(dg & c & Hc' & Hx')]; [auto|].
    right. apply HV in Hc' as (c0 & H1 & H2 & H3). exists dg, c0, c. auto.
Qed.
Example C189_example : parsed_sd sdx_env ex_copts sdx_text sdx_cred sdx_je SHA256
  /\ (exists m, display_map sdx_env sdx_cred {| dp_all := false; dp_given := [] |} = Ok m
        /\ mget m "credentialSubject" = Some (JObj [("id", JStr "did:s"); ("work", JObj [("firm", JStr "w")])])).
Proof. split; [exact sdx_parsed|]. eexists. split; [vm_compute; reflexivity|vm_compute; reflexivity]. Qed.
Print Assumptions C189_nothing_else.

(** ** C190  CreateDisplayCredential gives the same document without its proof member, as a credential of that document: no envelope,
    no proofs, contents read from it. *)
Theorem C190_display_credential : forall (E : venv) (o : copts) (text : string) (v : credential) (je : jenvelope) (h : hashalg) (d : dpopts) (shown : gomap json),
  parsed_sd E o text v je h -> display_map E v d = Ok shown ->
  (forall c, display_credential E v d = Ok c ->
     mget (cr_json c) "proof" = None /\ (forall k, k <> "proof" -> mget (cr_json c) k = mget shown k)
     /\ cr_proofs c = [] /\ cr_jwt c = None /\ cr_cwt c = None
     /\ parse_contents (ve_time E) (cr_json c) false = Ok (cr_contents c))
  /\ ((exists c, display_credential E v d = Ok c) <-> (exists cc, parse_contents (ve_time E) (mdel shown "proof") false = Ok cc)).
Proof.
  intros E o text v je h d shown (Hp & Hje & Hal & _) Hs. unfold display_map in Hs. unfold display_credential.
  destruct (dp_all d && negb (is_empty (dp_given d))); [discriminate|]. rewrite Hal, Hje in *. rewrite Hs. cbn [bind]. split.
  - intros c Hc. apply bind_ok in Hc as (cc & Hcc & Hc). injection Hc as <-. cbn [plain cr_json cr_proofs cr_jwt cr_cwt cr_contents].
    split; [now rewrite mget_mdel, String.eqb_refl|]. split.
    + intros k Hk. rewrite mget_mdel. destruct (String.eqb_spec k "proof"); [contradiction|reflexivity].
    + auto.
  - split.
    + intros (c & Hc). apply bind_ok in Hc as (cc & Hcc & _). eauto.
    + intros (cc & Hcc). rewrite Hcc. cbn [bind]. eauto.
Qed.
Definition sdp_members : list (string * json) :=
  [("iss", JStr "did:i"); ("nbf", jnum 7);
   ("vc", JObj [("@context", JStr v1_context); ("type", JStr "VerifiableCredential"); ("issuer", JStr "did:i"); ("_sd_alg", JStr "sha-256");
                ("proof", JObj [("type", JStr "x")]);
                ("credentialSubject", JObj [("id", JStr "did:s"); ("_sd", JArr [JStr (sdx_dg dA)])])])].
Definition sdp_env : venv := with_sdenv (toyV0 [(ex_tok "good", ex_jws "sig:m")] [("P", sdp_members); ("{}", [])]) sdx_sd.
Definition sdp_text : string := serialize_issuance {| ci_jwt := ex_tok "good"; ci_discs := [dA] |}.
Example C190_example :
  exists v c, parse_credential sdp_env ex_copts sdp_text = Ok v /\ display_credential sdp_env v {| dp_all := true; dp_given := [] |} = Ok c
    /\ mget (cr_json v) "proof" <> None /\ cr_proofs v <> [] /\ mget (cr_json c) "proof" = None /\ cr_proofs c = []
    /\ mget (cr_json c) "credentialSubject" = Some (JObj [("name", JStr "n"); ("id", JStr "did:s")]).
Proof.
  eexists. eexists. split; [vm_compute; reflexivity|]. split; [vm_compute; reflexivity|].
  split; [vm_compute; discriminate|]. split; [vm_compute; discriminate|]. split; [vm_compute; reflexivity|]. split; vm_compute; reflexivity.
Qed.
Print Assumptions C190_display_credential.

(** ** C191  A credential that is not an SD-JWT credential is displayed as it is; DisplayAllDisclosures together with
    DisplayGivenDisclosures of some name is refused, for every credential. *)
Theorem C191_other_credentials : forall (E : venv) (v : credential) (d : dpopts),
  (compatible d -> vc_sdalg (cr_contents v) = None \/ cr_jwt v = None ->
     display_map E v d = Ok (cr_json v) /\ display_credential E v d = Ok v)
  /\ (dp_all d = true -> dp_given d <> [] -> (exists e, display_map E v d = Err e) /\ (exists e, display_credential E v d = Err e)).
Proof.
  intros E v d. split.
  - intros Hc Hn. unfold display_map, display_credential. rewrite compatible_test by assumption.
    destruct Hn as [-> | ->]; [auto|]. destruct (vc_sdalg (cr_contents v)); auto.
  - intros Ha Hg. unfold display_map, display_credential. rewrite Ha. destruct (dp_given d); [congruence|]. cbn [is_empty negb andb]. eauto.
Qed.
Example C191_example :
  display_map sdx_env (create_credential toyT sdx_none [("a", JStr "b")]) {| dp_all := true; dp_given := [] |}
  = Ok (cr_json (create_credential toyT sdx_none [("a", JStr "b")]))
  /\ is_err (display_map sdx_env sdx_cred {| dp_all := true; dp_given := ["name"] |}) = true.
Proof. split; vm_compute; reflexivity. Qed.
Print Assumptions C191_other_credentials.

(** ** C192  Claimed: a disclosure whose claim name was not given to DisplayGivenDisclosures is not shown.  It is, when it is nested in
    one that was: the values of the disclosures were completed when the credential was parsed. *)
Fixpoint names_in (j : json) : list string :=
  match j with
  | JArr l => flat_map names_in l
  | JObj m => flat_map (fun kv => fst kv :: names_in (snd kv)) m
  | _ => []
  end.
Lemma names_in_of n j : name_of n j -> In n (names_in j).
Proof.
  induction 1; cbn [names_in]; apply in_flat_map; eauto.
  - exists (n, v). split; [assumption|now left].
  - exists (k, v). split; [assumption|now right].
Qed.
Theorem C192_only_given_names_refuted :
  ~ (forall (E : venv) (o : copts) (text : string) (v : credential) (je : jenvelope) (h : hashalg) (d : dpopts) (shown : gomap json) (n : string),
      parsed_sd E o text v je h -> display_map E v d = Ok shown -> dp_all d = false ->
      name_of n (JObj shown) -> name_of n (JObj (cr_json v)) \/ (exists dg c, carried E h je dg = Some c /\ name_of n (disclosed_value c)) \/ In n (dp_given d)).
Proof.
  intros H.
  destruct (display_map sdx_env sdx_cred {| dp_all := false; dp_given := ["home"] |}) as [m| |] eqn:Em; [|vm_compute in Em; discriminate..].
  assert (Hs : mget m "credentialSubject" = Some (JObj [("home", JObj [("city", JStr "p"); ("country", JStr "F")]); ("id", JStr "did:s"); ("work", JObj [("firm", JStr "w")])])).
  { vm_compute in Em. injection Em as <-. vm_compute. reflexivity. }
  assert (Hc : name_of "city" (JObj m)).
  { apply mget_In in Hs. eapply no_obj; [exact Hs|]. eapply no_obj; [left; reflexivity|]. eapply no_here. left. reflexivity. }
  destruct (H _ _ _ _ _ _ _ m "city" sdx_parsed Em eq_refl Hc) as [Hn|[Hn|Hn]]; clear Hc.
  - apply names_in_of, str_in_In in Hn. vm_compute in Hn. discriminate.
  - destruct Hn as (dg & c & Hc & Hn). unfold carried in Hc. apply Dof_In in Hc as (s & Hs' & _ & Hds).
    assert (G : forallb (fun s => match dsp (ve_sd sdx_env) s with Some c => negb (str_in "city" (names_in (disclosed_value c))) | None => true end)
                  (map dc_str (je_discs sdx_je)) = true) by (vm_compute; reflexivity).
    rewrite forallb_forall in G. specialize (G _ Hs'). rewrite Hds in G. apply names_in_of, str_in_In in Hn. now rewrite Hn in G.
  - destruct Hn as [Hn|[]]. discriminate.
Qed.
Print Assumptions C192_only_given_names_refuted.

(** ** C193  Claimed: an SD-JWT credential accepted by ParseCredential can be displayed.  Not when the hash algorithm is given in the
    subject, where ParseCredential finds it. *)
Definition sdq_members : list (string * json) :=
  [("iss", JStr "did:i"); ("nbf", jnum 7);
   ("vc", JObj [("@context", JStr v1_context); ("type", JStr "VerifiableCredential"); ("issuer", JStr "did:i");
                ("credentialSubject", JObj [("id", JStr "did:s"); ("_sd_alg", JStr "sha-256"); ("_sd", JArr [JStr (sdx_dg dA)])])])].
Definition sdq_env : venv := with_sdenv (toyV0 [(ex_tok "good", ex_jws "sig:m")] [("P", sdq_members); ("{}", [])]) sdx_sd.
Theorem C193_display_total_refuted :
  ~ (forall (E : venv) (o : copts) (text : string) (v : credential) (je : jenvelope) (h : hashalg),
      parse_credential E o text = Ok v -> cr_jwt v = Some je -> vc_sdalg (cr_contents v) = Some h -> je_discs je <> [] ->
      exists m, display_map E v {| dp_all := true; dp_given := [] |} = Ok m).
Proof.
  intros H.
  destruct (parse_credential sdq_env ex_copts sdp_text) as [v| |] eqn:Ev; [|vm_compute in Ev; discriminate..].
  assert (G : match parse_credential sdq_env ex_copts sdp_text with
    | Ok w => match cr_jwt w with Some je => vc_sdalg (cr_contents w) = Some SHA256 /\ je_discs je <> [] | None => False end
              /\ is_err (display_map sdq_env w {| dp_all := true; dp_given := [] |}) = true | _ => False end).
  { vm_compute. split; [split; [reflexivity|discriminate]|reflexivity]. }
  rewrite Ev in G. destruct G as [G1 G2]. destruct (cr_jwt v) as [je|] eqn:Ej; [|contradiction]. destruct G1 as [G1 G3].
  destruct (H _ _ _ _ _ _ Ev Ej G1 G3) as (m & Hm). rewrite Hm in G2. discriminate.
Qed.
Print Assumptions C193_display_total_refuted.
