(** Property theorems for SD-JWT credentials: presenting (C128-C132). *)
From Coq Require Import Permutation.
From Verif Require Import GoBase Base64 StrLemmas JwtSpec DiSpec VcSpec JwtModel JwtProofs SdSpec SdModel SdProofs SdRun SdOrder SdSubset SdParse SdParseProofs
  SdIssueModel SdIssueEnc SdIssueTop DiModel VcModel VcJwt VcParse VcProofs VcView VcText VcSign VcSignProofs DiProps JwtProps VcProps VcProps2 VcSd VcSdProofs.

(** ** Example: a credential with four disclosures, two of them called "city" (one of those nested in "home"). *)
Definition sdx_dg (s : string) : string := b64_encode s.
Definition dA : string := b64_encode "a".
Definition dB : string := b64_encode "b".
Definition dC : string := b64_encode "c".
Definition dD : string := b64_encode "d".
Definition sdx_json (b : string) : option json :=
  if String.eqb b "a" then Some (JArr [JStr "s1"; JStr "name"; JStr "n"])
  else if String.eqb b "b" then Some (JArr [JStr "s2"; JStr "home"; JObj [("_sd", JArr [JStr (sdx_dg dC)]); ("country", JStr "F")]])
  else if String.eqb b "c" then Some (JArr [JStr "s3"; JStr "city"; JStr "p"])
  else if String.eqb b "d" then Some (JArr [JStr "s4"; JStr "city"; JStr "q"]) else None.
Definition sdx_sd : sdenv := {| sd_sum := fun _ s => s; sd_json := sdx_json |}.
Definition sdx_members : list (string * json) :=
  [("iss", JStr "did:i"); ("nbf", jnum 7);
   ("vc", JObj [("@context", JStr v1_context); ("type", JStr "VerifiableCredential"); ("issuer", JStr "did:i"); ("_sd_alg", JStr "sha-256");
                ("credentialSubject", JObj [("id", JStr "did:s"); ("_sd", JArr [JStr (sdx_dg dB); JStr (sdx_dg dA)]);
                                            ("work", JObj [("_sd", JArr [JStr (sdx_dg dD)]); ("firm", JStr "w")])])])].
Definition with_sdenv (E : venv) (S : sdenv) : venv := {|
  ve_time := ve_time E; ve_jwt := ve_jwt E; ve_members := ve_members E; ve_obj := ve_obj E; ve_sd := S; ve_order := ve_order E;
  ve_cose := ve_cose E; ve_hex := ve_hex E; ve_cbor := ve_cbor E; ve_schema := ve_schema E; ve_valid := ve_valid E; ve_jsonld := ve_jsonld E;
  ve_ext := ve_ext E; ve_ldproofs := ve_ldproofs E; ve_ldmsg := ve_ldmsg E; ve_di := ve_di E; ve_now := ve_now E; ve_related := ve_related E |}.
Definition sdx_env : venv := with_sdenv (toyV0 [(ex_tok "good", ex_jws "sig:m")] [("P", sdx_members); ("{}", [])]) sdx_sd.
Definition sdx_text : string := serialize_issuance {| ci_jwt := ex_tok "good"; ci_discs := [dA; dB; dC; dD] |}.
Definition sdx_none : contents := {| vc_context := []; vc_custom_ctx := []; vc_id := ""; vc_types := []; vc_subject := []; vc_issuer := None;
  vc_issued := None; vc_expired := None; vc_status := []; vc_schemas := []; vc_evidence := None; vc_terms := []; vc_refresh := None;
  vc_sdalg := None; vc_related := [] |}.
Definition sdx_cred : credential := Eval vm_compute in
  match parse_credential sdx_env ex_copts sdx_text with Ok v => v | _ => create_credential toyT sdx_none [] end.

Definition sdx_je : jenvelope := Eval vm_compute in
  match cr_jwt sdx_cred with Some je => je | None => envelope "" [] end.
Lemma sdx_parse : parse_credential sdx_env ex_copts sdx_text = Ok sdx_cred.
Proof. vm_compute. reflexivity. Qed.
Lemma sdx_jwt : cr_jwt sdx_cred = Some sdx_je /\ vc_sdalg (cr_contents sdx_cred) = Some SHA256.
Proof. split; [vm_compute; reflexivity|vm_compute; reflexivity]. Qed.
Definition toyI : ienv := {| ie_salt := fun _ => None; ie_shuffle := fun _ l => l; ie_decoys := fun _ => O; ie_enc := fun _ => None |}.
Definition sdx_opts (all : bool) (ifav req : list string) (b : option (res string)) : mdopts :=
  {| md_all := all; md_if := ifav; md_req := req; md_binding := b; md_signer := None; md_kid := ""; md_v5 := false |}.

(** ** C128  MarshalWithDisclosure of a parsed SD-JWT credential sends the token unchanged, exactly the disclosures whose
    claim names were asked for (all, with DiscloseAll), and the holder binding; a missing required claim is an error. *)
Definition asked (o : mdopts) (d : disc) : Prop := md_all o = true \/ In (dc_name d) (md_if o) \/ In (dc_name d) (md_req o).
(** the claim names asked for are unambiguous among the disclosures of the credential *)
Definition unambiguous (o : mdopts) (ds : list disc) : Prop :=
  forall d e a b c, ds = (a ++ d :: b ++ e :: c)%list -> asked o d -> asked o e -> dc_name d <> dc_name e.
Definition binding_text (o : mdopts) (je : jenvelope) (hb : string) : Prop :=
  match md_binding o with None => hb = je_binding je | Some r => r = Ok hb end.
Lemma unambiguous_nodup o ds : md_all o = false -> unambiguous o ds -> NoDup (map dc_name (filter (wanted o) ds)).
Proof.
  intros Ha U. assert (Hw : forall d, wanted o d = true -> asked o d).
  { intros d H. unfold wanted in H. apply str_in_In, in_app_iff in H. right. exact H. }
  revert U. induction ds as [|y ds IH]; intros U; [constructor|]. cbn [filter].
  assert (U' : unambiguous o ds) by (intros d e a b c -> Hd He; apply (U d e (y :: a) b c); auto).
  destruct (wanted o y) eqn:Ey; [|auto]. cbn [map]. constructor; [|auto].
  intros Hi. apply in_map_iff in Hi as (e & He & Hi). apply filter_In in Hi as [Hi Hwe]. apply in_split in Hi as (b & c & ->).
  apply (U y e [] b c); auto.
Qed.
Lemma nodup_unambiguous o ds : md_all o = false -> NoDup (map dc_name (filter (wanted o) ds)) -> unambiguous o ds.
Proof.
  intros Ha N d e a b c -> Hd He Hn.
  assert (Hw : forall x, asked o x -> wanted o x = true).
  { intros x [H|H]; [congruence|]. unfold wanted. now apply str_in_In, in_app_iff. }
  rewrite filter_app in N. cbn [filter] in N. rewrite (Hw d Hd), filter_app in N. cbn [filter] in N. rewrite (Hw e He), map_app in N. cbn [map] in N.
  rewrite map_app in N. cbn [map] in N. apply NoDup_remove_2 in N. apply N. rewrite Hn, !in_app_iff. cbn [In]. auto.
Qed.
Fixpoint nodupb (l : list string) : bool := match l with [] => true | x :: l' => negb (str_in x l') && nodupb l' end.
Lemma nodup_str l : nodupb l = true -> NoDup l.
Proof.
  induction l as [|x l IH]; intros H; [constructor|]. cbn [nodupb] in H. apply andb_prop in H as [H1 H2]. constructor; [|auto].
  apply str_in_nIn. now destruct (str_in x l).
Qed.
Theorem C128_exact_selection : forall (E : venv) (I : ienv) (W : walk) (o : copts) (text : string) (v : credential) (je : jenvelope) (h : hashalg) (mo : mdopts) (hb : string),
  parse_credential E o text = Ok v -> cr_jwt v = Some je -> vc_sdalg (cr_contents v) = Some h ->
  (forall l, Permutation l (W l)) ->
  (md_all mo = true -> md_if mo = [] /\ md_req mo = []) ->
  binding_text mo je hb -> free_of tilde hb ->
  (md_all mo = true \/ unambiguous mo (je_discs je)) ->
  ((forall n, In n (md_req mo) -> In n (map dc_name (je_discs je))) ->
     exists s sel, marshal_with_disclosure E I W v mo = Ok s
       /\ parse_presentation s = {| cp_jwt := je_jwt je; cp_discs := map dc_str sel; cp_holder := hb |}
       /\ NoDup sel /\ (forall d, In d sel <-> In d (je_discs je) /\ asked mo d))
  /\ ((exists n, In n (md_req mo) /\ ~ In n (map dc_name (je_discs je))) ->
        exists e, marshal_with_disclosure E I W v mo = Err e).
Proof.
  intros E I W o text v je h mo hb Hp Hje Hal HW Hcomp Hb Hbf Hun.
  destruct (parse_sd_inv E o text v je h Hp Hje Hal) as ((ds & S) & _).
  pose proof (sd_cred_discs_free E v je ds S) as Hfree.
  assert (Hmw : marshal_with_disclosure E I W v mo = filter_sdjwt W je mo).
  { unfold marshal_with_disclosure. rewrite Hje, Hal. destruct (md_all mo); [|reflexivity]. destruct (Hcomp eq_refl) as [-> ->]. reflexivity. }
  assert (Hhb : (match md_binding mo with None => Ok (je_binding je) | Some r => r end) = Ok hb).
  { unfold binding_text in Hb. destruct (md_binding mo); congruence. }
  assert (Hfin : forall sel, disclosure_codes W (je_discs je) mo = Ok (map dc_str sel) -> (forall d, In d sel -> In d (je_discs je)) ->
     exists s, filter_sdjwt W je mo = Ok s /\ parse_presentation s = {| cp_jwt := je_jwt je; cp_discs := map dc_str sel; cp_holder := hb |}).
  { intros sel Hs Hi. unfold filter_sdjwt. rewrite Hs. cbn [bind]. rewrite Hhb. cbn [bind]. eexists. split; [reflexivity|].
    apply parse_presentation_serialize; cbn [cp_jwt cp_discs cp_holder]; auto; [apply S|].
    apply Forall_forall. intros x Hx. apply in_map_iff in Hx as (d & <- & Hd). now apply Hfree, Hi. }
  assert (Nd : NoDup (je_discs je)).
  { pose proof (sc_discs _ _ _ _ S) as P. destruct ds as [|x ds]; cbn [parse_disclosures] in P; [injection P as <-; constructor|]. rewrite Hal in P.
    destruct (get_disclosure_claims (ve_sd E) h (x :: ds) (ve_order E)) as [m| |] eqn:Em; cbn [rmap] in P; [|discriminate..].
    injection P as <-. pose proof (disclosure_claims_strs _ _ _ _ _ Em) as Hk.
    assert (Nk : NoDup (map fst m)).
    { unfold get_disclosure_claims in Em. apply bind_ok in Em as (m0 & H0 & Em). apply bind_ok in Em as (st & H1 & Em). injection Em as <-.
      apply set_all_keeps in H1 as [-> _]. cbn [rs_discs]. pose proof (get_disclosure_map_spec (ve_sd E) h (x :: ds) []) as Sp.
      rewrite H0 in Sp. destruct Sp as (_ & _ & S3 & _). apply S3. constructor. }
    apply (NoDup_of_map (fun d => get_hash (ve_sd E) h (dc_str d))). rewrite map_map.
    rewrite (map_ext_in _ fst); [assumption|]. intros [k c] Hi. now apply Hk in Hi. }
  rewrite Hmw. destruct (md_all mo) eqn:Ea.
  - destruct (Hcomp eq_refl) as [H1 H2]. split.
    + intros _. destruct (Hfin (je_discs je)) as (s & Hs & Hps); [unfold disclosure_codes; now rewrite Ea|auto|].
      exists s, (je_discs je). split; [assumption|]. split; [assumption|]. split; [assumption|]. intros d. unfold asked. rewrite Ea. tauto.
    + rewrite H2. intros (n & [] & _).
  - destruct Hun as [|Hun]; [discriminate|]. pose proof (unambiguous_nodup mo _ Ea Hun) as N. split.
    + intros Hreq. destruct (filter_disclosures_exact W (je_discs je) mo HW N Hreq) as (sel & Hs & Hperm).
      assert (Hin : forall d, In d sel <-> In d (je_discs je) /\ asked mo d).
      { intros d. rewrite (Permutation_in' eq_refl Hperm), filter_In. unfold wanted, asked. rewrite Ea, str_in_In, in_app_iff. intuition discriminate. }
      destruct (Hfin sel) as (s & Hs' & Hps); [unfold disclosure_codes; now rewrite Ea, Hs|intros d Hd; now apply Hin|].
      exists s, sel. split; [assumption|]. split; [assumption|]. split; [|assumption].
      eapply Permutation_NoDup; [apply Permutation_sym, Hperm|]. now apply NoDup_filter.
    + intros (n & Hn & Hni). destruct (filter_disclosures_missing W (je_discs je) (md_if mo) (md_req mo) n HW Hn Hni) as (e & He).
      exists e. unfold filter_sdjwt, disclosure_codes. now rewrite Ea, He.
Qed.
Example C128_example :
  parse_credential sdx_env ex_copts sdx_text = Ok sdx_cred /\ cr_jwt sdx_cred = Some sdx_je
  /\ map dc_name (je_discs sdx_je) = ["name"; "home"; "city"; "city"]
  /\ unambiguous (sdx_opts false ["home"; "nick"] ["name"] None) (je_discs sdx_je)
  /\ marshal_with_disclosure sdx_env toyI (fun l => l) sdx_cred (sdx_opts false ["home"; "nick"] ["name"] None)
     = Ok (ex_tok "good" ++ "~" ++ dB ++ "~" ++ dA ++ "~").
Proof.
  split; [exact sdx_parse|]. split; [exact (proj1 sdx_jwt)|]. split; [vm_compute; reflexivity|]. split; [|vm_compute; reflexivity].
  apply nodup_unambiguous; [reflexivity|]. apply nodup_str. vm_compute. reflexivity.
Qed.
Print Assumptions C128_exact_selection.

(** ** C129  What MarshalWithDisclosure produces can be parsed again exactly when every disclosure sent is reachable from
    the token through disclosures sent with it; the credential read back is the same one, with those disclosures. *)
Lemma occurs_mset d m k a : mget m k = None -> k <> "_sd" -> (occurs d (JObj (mset m k a)) <-> occurs d (JObj m) \/ occurs d a).
Proof.
  intros Hn Hk. assert (Em : mset m k a = (m ++ [(k, a)])%list).
  { apply VcProofs.mset_new. now apply mget_None. }
  split.
  - intros H. inversion H as [m' l H1 H2|l m' H1 H2|m' k' v H1 H2 H3]; subst.
    + left. rewrite mget_mset in H1. destruct (String.eqb_spec "_sd" k); [congruence|]. now apply (occ_sd d m l).
    + rewrite Em in H1. apply in_app_iff in H1 as [H1|[[= <- <-]|[]]]; [left; eapply occ_member; eauto|now right].
  - intros [H|H].
    + inversion H as [m' l H1 H2|l m' H1 H2|m' k' v H1 H2 H3]; subst.
      * apply (occ_sd _ _ l); [|assumption]. rewrite mget_mset. destruct (String.eqb_spec "_sd" k); [congruence|assumption].
      * eapply occ_member; eauto. rewrite Em. apply in_app_iff. now left.
    + apply (occ_member d _ k a); auto. rewrite Em. apply in_app_iff. right. now left.
Qed.

Lemma committed_payload D m h d : get_crypto_hash (sd_payload m) = Ok h -> (committed D (JObj (sd_payload m)) d <-> committed D (JObj m) d).
Proof.
  intros Hh. assert (O : forall x, occurs x (JObj (sd_payload m)) <-> occurs x (JObj m)).
  { intros x. unfold sd_payload in *. unfold mhas in *. destruct (mget m "_sd_alg") eqn:Em; [reflexivity|].
    destruct (mget m "credentialSubject") as [[| | | | |s]|]; try reflexivity. destruct (mget s "_sd_alg") as [a|]; [|reflexivity].
    rewrite occurs_mset; [|assumption|discriminate]. split; [|tauto]. intros [H|H]; [assumption|].
    unfold get_crypto_hash, get_key_from_vc in Hh. rewrite mget_mset, String.eqb_refl in Hh. destruct a; try discriminate. inversion H. }
  split; (induction 1; [apply com_here; now apply O|eapply com_nested; eauto]).
Qed.
(** every disclosure sent is committed to by the credential, or by a disclosure sent that is *)
Definition reachable (E : venv) (h : hashalg) (m : gomap json) (sent : list string) : Prop :=
  forall x, In x sent -> committed (Dof (ve_sd E) h sent) (JObj m) (get_hash (ve_sd E) h x).
Lemma codes_sub W je mo sel : permutes W -> disclosure_codes W (je_discs je) mo = Ok sel -> NoDup (map dc_str (je_discs je)) ->
  NoDup sel /\ incl sel (map dc_str (je_discs je)).
Proof.
  intros HW H N. unfold disclosure_codes in H. apply bind_ok in H as (l & Hl & H). injection H as <-.
  destruct (md_all mo); [injection Hl as <-; split; [assumption|apply incl_refl]|].
  assert (Hreq : forall n, In n (md_req mo) -> In n (map dc_name (je_discs je))).
  { intros n Hn. destruct (in_dec string_dec n (map dc_name (je_discs je))) as [|Hni]; [assumption|].
    destruct (filter_disclosures_missing W (je_discs je) (md_if mo) (md_req mo) n HW Hn Hni) as (e & He). congruence. }
  destruct (filter_disclosures_ok W (je_discs je) (md_if mo) (md_req mo) HW Hreq) as (l' & Hl' & Nl & Hi).
  assert (l' = l) by congruence. subst l'.
  assert (Hin : forall d, In d l -> In d (je_discs je)) by (intros d Hd; apply Hi in Hd as [_ Hd]; now apply last_named_In in Hd).
  split.
  - clear - N Nl Hin. induction l as [|d l IH]; [constructor|]. inversion Nl; subst. cbn [map]. constructor; [|apply IH; auto; intros; apply Hin; now right].
    intros Hi. apply in_map_iff in Hi as (e & He & Hi). assert (e = d); [|subst; contradiction].
    apply (NoDup_map_inj dc_str (je_discs je)); auto; apply Hin; [now right|now left].
  - intros x Hx. apply in_map_iff in Hx as (d & <- & Hd). now apply in_map, Hin.
Qed.
Theorem C129_presented_parses_back : forall (E : venv) (I : ienv) (W : walk) (o : copts) (text : string) (v : credential) (je : jenvelope) (h : hashalg)
    (mo : mdopts) (hb s : string),
  parse_credential E o text = Ok v -> cr_jwt v = Some je -> vc_sdalg (cr_contents v) = Some h ->
  wf_env (ve_sd E) -> visits_all (ve_order E) -> (forall l, Permutation l (W l)) ->
  wf_json (JObj (cr_json v)) -> mget (cr_json v) "vc" = None ->
  binding_text mo je hb -> free_of tilde hb -> (hb = "" \/ is_jws (ve_obj E) hb = true) ->
  marshal_with_disclosure E I W v mo = Ok s ->
  let sent := cp_discs (parse_presentation s) in
  ve_members E s = None -> (sent <> [] \/ hb <> "") ->
  (reachable E h (cr_json v) sent ->
     exists ds', parse_credential E o s = Ok (with_sd v je ds' hb) /\ Permutation (map dc_str ds') sent)
  /\ (~ reachable E h (cr_json v) sent -> forall v', parse_credential E o s <> Ok v').
Proof.
  intros E I W o text v je h mo hb s Hp Hje Hal HE Hord HW Hwf Hvc Hb Hbf Hbj Hms sent Hm Hne.
  destruct (parse_sd_inv E o text v je h Hp Hje Hal) as ((ds & S) & Hck & Hrel).
  pose proof (sd_cred_discs_free E v je ds S) as Hfree.
  assert (Hmw : filter_sdjwt W je mo = Ok s).
  { unfold marshal_with_disclosure in Hms. rewrite Hje, Hal in Hms. destruct (md_all mo && _); [discriminate|assumption]. }
  assert (Hhb : (match md_binding mo with None => Ok (je_binding je) | Some r => r end) = Ok hb).
  { unfold binding_text in Hb. destruct (md_binding mo); congruence. }
  unfold filter_sdjwt in Hmw. apply bind_ok in Hmw as (sel & Hsel & Hmw). rewrite Hhb in Hmw. cbn [bind] in Hmw. injection Hmw as <-.
  set (c := {| cp_jwt := je_jwt je; cp_discs := sel; cp_holder := hb |}) in *.
  assert (Hsd : incl sel (map dc_str (je_discs je))).
  { unfold disclosure_codes in Hsel. apply bind_ok in Hsel as (l & Hl & Hs). injection Hs as <-. intros x Hx. apply in_map_iff in Hx as (d & <- & Hd).
    apply in_map. destruct (md_all mo); [injection Hl as <-; assumption|]. unfold filter_disclosures in Hl. apply bind_ok in Hl as (r & Hr & Hl). injection Hl as <-.
    apply in_app_iff in Hd as [Hd|Hd].
    - apply in_flat_map in Hd as (n & _ & Hd). rewrite fill_get in Hd. destruct (mget _ n) as [x|] eqn:En; [|destruct Hd].
      rewrite mdels_get, names_map_get in En. destruct (str_in n (md_req mo)); [discriminate|]. destruct (str_in n (md_if mo)); [|discriminate]. injection En as <-.
      destruct (last_named (je_discs je) n None) as [d'|] eqn:El; [|destruct Hd]. destruct Hd as [<-|[]]. now apply last_named_In in El.
    - apply map_res_forall2 in Hr. clear - Hr Hd. induction Hr as [|n y l r Hy _ IH]; [destruct Hd|]. destruct Hd as [->|Hd]; [|auto].
      rewrite fill_get, names_map_get in Hy. destruct (str_in n (md_req mo)); [|discriminate].
      destruct (last_named (je_discs je) n None) as [d'|] eqn:El; [|discriminate]. injection Hy as ->. now apply last_named_In in El. }
  assert (Hself : Forall (free_of tilde) sel).
  { apply Forall_forall. intros x Hx. apply Hsd, in_map_iff in Hx as (d & <- & Hd). now apply Hfree. }
  assert (Hsent : sent = sel).
  { unfold sent. rewrite (parse_presentation_serialize c); [reflexivity| | |]; cbn [c cp_jwt cp_discs cp_holder]; auto. apply S. }
  rewrite Hsent in *. clear Hsent sent.
  (* the original disclosures *)
  assert (Hpair : (mhas (cr_json v) "_sd_alg" = true \/ exists s, mget (cr_json v) "credentialSubject" = Some (JObj s)) /\
     (ds = [] \/ (verify_disclosures (ve_sd E) ds (sd_payload (cr_json v)) = Ok tt /\ get_crypto_hash (sd_payload (cr_json v)) = Ok h)) \/ ds = []).
  { pose proof (sc_valid _ _ _ _ S) as V. destruct ds as [|x l]; [now right|]. left. apply validate_disclosures_ok in V as [V A]. split; [assumption|].
    right. split; [assumption|]. pose proof V as V'. apply verify_disclosures_iff in V' as (h' & Hh' & _); [|assumption|now apply wf_sd_payload].
    rewrite Hh'. f_equal. eapply sdalg_payload; eauto. apply S. }
  destruct ds as [|x0 ds0] eqn:Eds.
  - (* none to send *)
    assert (sel = []). { pose proof (sc_discs _ _ _ _ S) as P. cbn [parse_disclosures] in P. injection P as P. rewrite <- P in Hsd. now apply incl_l_nil in Hsd. }
    subst sel. split; [|intros Hn; exfalso; apply Hn; intros y []]. intros _. exists []. split; [|constructor].
    apply (parse_again E o v je [] [] hb []); auto.
  - destruct Hpair as [(Hsub & [Hbad|(Hver & Hh)])|Hbad]; [discriminate| |discriminate]. rewrite <- Eds in *. clear Eds x0 ds0.
    pose proof (wf_sd_payload _ Hwf) as Hwp.
    destruct (disclosed_after_verify (ve_sd E) h ds (sd_payload (cr_json v)) (ve_order E) HE Hwp Hord Hver Hh) as (m & Hg & _).
    destruct (kept_verifies (ve_sd E) h ds (sd_payload (cr_json v)) (ve_order E) m HE Hwp Hord Hver Hh Hg) as (NL & VL & _ & _).
    assert (Hdm : je_discs je = map snd m \/ ds = []).
    { pose proof (sc_discs _ _ _ _ S) as P. destruct ds as [|y ys]; [now right|]. cbn [parse_disclosures] in P. rewrite Hal, Hg in P. cbn [rmap] in P. injection P as P. now left. }
    assert (Hdm' : je_discs je = map snd m).
    { destruct Hdm as [|Hds]; [assumption|]. pose proof (sc_discs _ _ _ _ S) as P. rewrite Hds in P, Hg. cbn [parse_disclosures] in P. injection P as P.
      rewrite <- P. unfold get_disclosure_claims in Hg. cbn in Hg. clear - Hg. unfold get_disclosure_claims in Hg.
      apply bind_ok in Hg as (st & Hst & Hg). injection Hg as <-. apply set_all_keeps in Hst as [K _]. cbn [rs_discs map] in K.
      now destruct (rs_discs st). }
    rewrite <- Hdm' in NL, VL.
    assert (Nst : NoDup (map dc_str (je_discs je))) by (eapply NoDup_of_map; exact NL).
    destruct (codes_sub W je mo sel HW Hsel Nst) as (Ns & _).
    pose proof (verify_subset (ve_sd E) (map dc_str (je_discs je)) sel (sd_payload (cr_json v)) h HE Hwp Hh NL Ns Hsd VL) as VS.
    assert (HR : (forall x, In x sel -> committed (Dof (ve_sd E) h sel) (JObj (sd_payload (cr_json v))) (get_hash (ve_sd E) h x)) <-> reachable E h (cr_json v) sel).
    { unfold reachable. split; intros H x Hx; specialize (H x Hx); [rewrite (committed_payload _ _ h) in H|rewrite (committed_payload _ _ h)]; auto. }
    rewrite HR in VS. split.
    + intros R. apply VS in R as Vs.
      destruct (disclosed_after_verify (ve_sd E) h sel (sd_payload (cr_json v)) (ve_order E) HE Hwp Hord Vs Hh) as (m' & Hg' & Nm' & Km' & Vm' & _).
      assert (HP : Permutation (map dc_str (map snd m')) sel).
      { destruct (kept_verifies (ve_sd E) h sel (sd_payload (cr_json v)) (ve_order E) m' HE Hwp Hord Vs Hh Hg') as (NL' & _ & Hi' & _).
        apply NoDup_Permutation; [eapply NoDup_of_map; exact NL'|assumption|]. intros x. split; [apply Hi'|]. intros Hx.
        assert (Hk : In (get_hash (ve_sd E) h x) (map fst m')) by (apply Km'; eauto). apply in_map_iff in Hk as ([k c0] & Hk & Hi). cbn [fst] in Hk. subst k.
        destruct (Vm' _ _ Hi) as (V1 & V2 & _). assert (dc_str c0 = x).
        { apply (NoDup_map_inj (get_hash (ve_sd E) h) (map dc_str (je_discs je))); auto. }
        rewrite map_map. apply in_map_iff. exists (get_hash (ve_sd E) h x, c0). auto. }
      exists (map snd m'). split; [|assumption].
      apply (parse_again E o v je ds sel hb (map snd m')); auto.
      * now apply validate_disclosures_intro.
      * destruct sel as [|y ys]; [apply Permutation_sym, Permutation_nil in HP; destruct (map snd m'); [reflexivity|discriminate]|].
        cbn [parse_disclosures]. now rewrite Hal, Hg'.
    + intros Hn v' Hv'. apply Hn, VS.
      unfold parse_credential in Hv'. cbn [try_parsers] in Hv'. unfold parse_with at 1 in Hv'. rewrite (enveloped_not_json _ _ _ Hm) in Hv'. cbn [bind] in Hv'.
      assert (Hj : json_parser E o (serialize_presentation c) =
         let* hm := (let* _ := validate_disclosures E (cr_json v) sel in Ok (Some (je_headers je, cr_json v))) in
         match hm with None => Ok None | Some (hd, m0) =>
           let* ct := parse_contents (ve_time E) m0 true in let* ps := parse_ld_proof (fld m0 "proof") in
           let* ds := parse_disclosures E sel (vc_sdalg ct) in
           Ok (Some {| cr_json := m0; cr_contents := ct; cr_proofs := ps;
                  cr_jwt := Some {| je_jwt := je_jwt je; je_headers := hd; je_discs := ds; je_binding := hb |}; cr_cwt := None |}) end).
      { unfold json_parser. rewrite (unwrap_not_json E _ Hm); [|apply (serialize_unquoted (ve_obj E) c); apply (sc_jws _ _ _ _ S)].
        assert (Ht : try_parse_jws E (serialize_presentation c) = {| jv_jws := true; jv_sd := true; jv_jwt := je_jwt je; jv_discs := sel; jv_binding := hb |}).
        { apply (try_parse_sd E c); cbn [c cp_jwt cp_discs cp_holder]; auto; apply S. }
        rewrite Ht. cbn [jv_jws jv_sd jv_jwt jv_discs jv_binding]. rewrite (sc_hdr _ _ _ _ S). cbn [bind snd orb].
        destruct (validate_disclosures E (cr_json v) sel) as [[]| |]; reflexivity. }
      unfold parse_with at 1 in Hv'. rewrite Hj in Hv'.
      destruct (validate_disclosures E (cr_json v) sel) as [[]| |] eqn:Ev; [|discriminate..].
      destruct sel as [|y ys]; [exfalso; apply Hn; intros z []|]. now apply validate_disclosures_ok in Ev.
Qed.
(** example: sending "home" and "name" parses back; sending only the nested "city" does not *)
Definition sdy_text : string := serialize_issuance {| ci_jwt := ex_tok "good"; ci_discs := [dA; dB; dC] |}.
Definition sdy_cred : credential := Eval vm_compute in
  match parse_credential sdx_env ex_copts sdy_text with Ok v => v | _ => create_credential toyT sdx_none [] end.
Example C129_example :
  parse_credential sdx_env ex_copts sdy_text = Ok sdy_cred /\ wf_env (ve_sd sdx_env) /\ mget (cr_json sdy_cred) "vc" = None
  /\ (exists s v', marshal_with_disclosure sdx_env toyI (fun l => l) sdy_cred (sdx_opts false ["city"] ["home"] None) = Ok s
        /\ ve_members sdx_env s = None /\ cp_discs (parse_presentation s) = [dC; dB]
        /\ parse_credential sdx_env ex_copts s = Ok v' /\ cr_json v' = cr_json sdy_cred)
  /\ (exists s, marshal_with_disclosure sdx_env toyI (fun l => l) sdy_cred (sdx_opts false [] ["city"] None) = Ok s
        /\ is_err (parse_credential sdx_env ex_copts s) = true).
Proof.
  split; [vm_compute; reflexivity|]. split.
  - intros b j. cbn [sdx_env with_sdenv ve_sd sdx_sd sd_json]. unfold sdx_json.
    repeat (match goal with |- context [if ?c then _ else _] => destruct c end); [injection 1 as <-..|discriminate]; cbn; repeat split; auto;
      try (repeat constructor; cbn; intuition discriminate).
  - split; [vm_compute; reflexivity|]. split.
    + eexists. eexists. split; [vm_compute; reflexivity|]. split; [vm_compute; reflexivity|]. split; [vm_compute; reflexivity|].
      split; [vm_compute; reflexivity|]. vm_compute; reflexivity.
    + eexists. split; [vm_compute; reflexivity|]. vm_compute; reflexivity.
Qed.
Print Assumptions C129_presented_parses_back.

(** ** C130  Claimed: every disclosure whose claim name was asked for is sent.  When two disclosures of the credential have
    the same name only the last one is. *)
Theorem C130_all_of_a_name_refuted :
  ~ (forall (E : venv) (I : ienv) (W : walk) (o : copts) (text : string) (v : credential) (je : jenvelope) (h : hashalg) (mo : mdopts) (s : string),
      parse_credential E o text = Ok v -> cr_jwt v = Some je -> vc_sdalg (cr_contents v) = Some h ->
      (forall l, Permutation l (W l)) -> marshal_with_disclosure E I W v mo = Ok s ->
      forall d, In d (je_discs je) -> asked mo d -> In (dc_str d) (cp_discs (parse_presentation s))).
Proof.
  intros H.
  specialize (H sdx_env toyI (fun l => l) ex_copts sdx_text sdx_cred sdx_je SHA256 (sdx_opts false [] ["city"] None)).
  specialize (H (ex_tok "good" ++ "~" ++ dD ++ "~") sdx_parse (proj1 sdx_jwt) (proj2 sdx_jwt)).
  assert (Hm : marshal_with_disclosure sdx_env toyI (fun l => l) sdx_cred (sdx_opts false [] ["city"] None) = Ok (ex_tok "good" ++ "~" ++ dD ++ "~"))
    by (vm_compute; reflexivity).
  specialize (H (fun l => Permutation_refl l) Hm (nth 2 (je_discs sdx_je) (hd {| dc_str := ""; dc_salt := ""; dc_elems := O; dc_name := ""; dc_value := JNull; dc_parsed := false |} []))).
  assert (Hc : str_in dC (cp_discs (parse_presentation (ex_tok "good" ++ "~" ++ dD ++ "~"))) = false) by (vm_compute; reflexivity).
  apply str_in_nIn in Hc. apply Hc. apply H; [vm_compute; auto|]. right. right. vm_compute. auto.
Qed.
Print Assumptions C130_all_of_a_name_refuted.

(** ** C131  Claimed: presenting an SD-JWT credential gives an SD-JWT credential.  With nothing disclosed and no holder
    binding the output is the bare token, which is read as a plain JWT credential. *)
Theorem C131_presentation_stays_sd_refuted :
  ~ (forall (E : venv) (I : ienv) (W : walk) (o : copts) (text : string) (v v' : credential) (je : jenvelope) (h : hashalg) (mo : mdopts) (s : string),
      parse_credential E o text = Ok v -> cr_jwt v = Some je -> vc_sdalg (cr_contents v) = Some h ->
      (forall l, Permutation l (W l)) -> marshal_with_disclosure E I W v mo = Ok s ->
      parse_credential E o s = Ok v' -> vc_sdalg (cr_contents v') = Some h).
Proof.
  intros H.
  destruct (parse_credential sdx_env ex_copts (ex_tok "good")) as [v'| |] eqn:Ev; [|vm_compute in Ev; discriminate..].
  assert (Hm : marshal_with_disclosure sdx_env toyI (fun l => l) sdx_cred (sdx_opts false [] [] None) = Ok (ex_tok "good")) by (vm_compute; reflexivity).
  specialize (H _ _ _ _ _ _ _ _ _ _ _ sdx_parse (proj1 sdx_jwt) (proj2 sdx_jwt) (fun l => Permutation_refl l) Hm Ev).
  assert (Hn : match parse_credential sdx_env ex_copts (ex_tok "good") with Ok w => vc_sdalg (cr_contents w) | _ => Some SHA256 end = None) by (vm_compute; reflexivity).
  rewrite Ev in Hn. congruence.
Qed.
Print Assumptions C131_presentation_stays_sd_refuted.

(** ** C132  Claimed: with proof checking on, a credential is accepted with a holder binding only if the binding is a JWT that
    verifies under a holder key of the credential.  ParseCredential does not look at it. *)
Theorem C132_binding_checked_refuted :
  ~ (forall (E : venv) (o : copts) (text : string) (v : credential) (je : jenvelope),
      parse_credential E o text = Ok v -> co_no_proof o = false -> cr_jwt v = Some je -> je_binding je <> "" ->
      mget (cr_json v) "cnf" <> None /\ exists j, de_jws (ve_jwt E) (je_binding je) None = Ok j).
Proof.
  intros H.
  pose (text := ex_tok "good" ++ "~" ++ dA ++ "~" ++ ex_tok "junk").
  destruct (parse_credential sdx_env ex_copts text) as [v| |] eqn:Ev; [|vm_compute in Ev; discriminate..].
  assert (Hn : match parse_credential sdx_env ex_copts text with
               | Ok w => match cr_jwt w with Some je => String.eqb (je_binding je) (ex_tok "junk") | None => false end | _ => false end = true) by (vm_compute; reflexivity).
  rewrite Ev in Hn. destruct (cr_jwt v) as [je|] eqn:Ej; [|discriminate]. apply String.eqb_eq in Hn.
  destruct (H _ _ _ _ je Ev eq_refl Ej) as (_ & j & Hj); [rewrite Hn; discriminate|]. rewrite Hn in Hj. vm_compute in Hj. discriminate.
Qed.
Print Assumptions C132_binding_checked_refuted.
