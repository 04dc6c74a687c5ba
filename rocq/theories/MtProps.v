(** C281-C285: from the descriptor map of a submission to the credentials it means; from the wallet to the verifier. *)
From Verif Require Import GoBase StatusModel JwtModel PexSpec ReqSpec ReqModel PexModel StrLemmas PexProofs PexMerge PexMatch PexProps VcSpec VcModel VcParse VpModel
  WmModel WmSpec WmProofs WmProofs2 WmProps MtModel MtSpec MtProofs MtProofs2 MtProofs3.

(** C281: a presentation submission put into a presentation (or given to Match as a map) in its JSON form is read back with exactly its descriptor map:
    identifiers, formats, paths and nested mappings to any depth. *)
Theorem C281_descriptor_maps : forall (id def : string) (l : list mapping) (p : presentation),
  (forall m, submission_json id def l = JObj m -> descriptor_mapping m = Ok (map Some l)) /\
  (mget (pr_custom p) "presentation_submission" = Some (submission_json id def l) -> parse_descriptor_map p = Ok (map Some l)).
Proof.
  intros id def l p. split; [intros m; apply submission_round|]. intros H. unfold parse_descriptor_map. rewrite H. exact (submission_round id def l _ eq_refl).
Qed.
Example C281_example : descriptor_mapping [("descriptor_map", JArr [JObj [("path", JStr "$"); ("id", JStr "d"); ("format", JStr "ldp_vp");
    ("path_nested", JObj [("Path", JStr "$.verifiableCredential[0]"); ("extra", JNull); ("ID", JStr "x"); ("id", JStr "d")])]; JNull])]
  = Ok [Some (Mapping "d" "ldp_vp" "$" (Some (Mapping "d" "" "$.verifiableCredential[0]" None))); None].
Proof. vm_compute. reflexivity. Qed.

(** C282: selecting a credential by a mapping whose paths are "$" followed by names and indices: the value is the one each path leads to, from the value of the
    path before it; a path that starts with a name and leads nowhere is tried once more inside "vp".  It never panics; [other] is not consulted. *)
Theorem C282_selection : forall other ft (m : mapping) (j : json), plain_mapping m ->
  (forall v, select_value other ft m j = Ok v <-> follows ft m j v) /\ select_value other ft m j <> Panic.
Proof. intros other ft m j P. split; [intros v; now apply select_value_ok|now apply select_value_np]. Qed.
Definition ex_doc : json := JArr [JNull; JObj [("vp", JObj [("verifiableCredential", JArr [JStr "a"; JStr "b"])])]].
Definition ex_map : mapping := Mapping "d" "jwt_vp" "$[1]" (Some (Mapping "d" "jwt_vc" "$.verifiableCredential[1]" None)).
Example C282_example : plain_mapping ex_map /\ (forall other ft, select_value other ft ex_map ex_doc = Ok (JStr "b")) /\
  (forall other ft, exists e, select_value other ft (Mapping "d" "" "$.verifiableCredential[2]" None) (JObj [("verifiableCredential", JArr [JStr "a"])]) = Err e).
Proof.
  split; [|split; [reflexivity|intros other ft; eexists; reflexivity]].
  apply (pm "d" "jwt_vp" [Index 1]); [repeat constructor|]. intros n [= <-].
  apply (pm "d" "jwt_vc" [Name "verifiableCredential"; Index 1]); [repeat constructor|discriminate].
Qed.

(** C283: C14 without assumptions on the selection: the descriptor map made for a table of matches, sent in a presentation that carries the credentials (as
    JSON, or in the claims of a JWT or CWT), is accepted by Match and yields exactly the table. *)
Theorem C283_single : forall E U other ft parse f_schema f_constraints disable descs fmt table result maps maps' id def p js,
  good_table f_schema f_constraints disable descs table -> merge fmt table false = (result, maps) -> Permutation maps maps' ->
  Z.of_nat (List.length result) < 2 ^ 63 ->
  submission_vp p -> mget (pr_custom p) "presentation_submission" = Some (submission_json id def maps') ->
  carries E U fmt p js -> Forall2 (fun j c => parse j = Ok c) js result ->
  exists r, match_presentations E U other ft parse f_schema f_constraints disable descs NoSubmission [p] = Ok r /\
    forall id c, (exists v, In v r /\ mv_desc v = id /\ mv_cred v = c) <-> (exists l cw, In (id, l) table /\ In cw l /\ cw_vc cw = c).
Proof. exact match_single. Qed.
Theorem C283_array : forall E U other ft parse f_schema f_constraints disable descs fmt table result maps maps' sub ps,
  good_table f_schema f_constraints disable descs table -> merge fmt table true = (result, maps) -> Permutation maps maps' ->
  Z.of_nat (List.length result) < 2 ^ 63 ->
  Forall submission_vp ps -> (sub = Typed maps' \/ exists id def m, submission_json id def maps' = JObj m /\ sub = Untyped m) ->
  Forall2 (fun p c => exists j, carries E U fmt p [j] /\ parse j = Ok c) ps result ->
  exists r, match_presentations E U other ft parse f_schema f_constraints disable descs sub ps = Ok r /\
    (forall id c, (exists v, In v r /\ mv_desc v = id /\ mv_cred v = c) <-> (exists l cw, In (id, l) table /\ In cw l /\ cw_vc cw = c)) /\
    (forall v, In v r -> exists i p, nth_error ps i = Some p /\ mv_pres v = pr_id p /\ nth_error result i = Some (mv_cred v)).
Proof. exact match_array. Qed.

Lemma has_context (x b : string) : In x (if str_in x [b] then [b] else [b; x]).
Proof. destruct (str_in x [b]) eqn:E; [apply str_in_In in E; exact E|right; left; reflexivity]. Qed.
Lemma made id l v : make_presentation id l = Ok v -> wv_creds v = l /\ In submission_context (wv_context v) /\ wv_type v = ["VerifiablePresentation"; submission_type].
Proof.
  unfold make_presentation. generalize submission_context. intros s H. apply bind_ok in H as (b & _ & H). injection H as <-. cbn [wv_creds wv_context wv_type]. split; [reflexivity|].
  split; [apply has_context|reflexivity].
Qed.
Lemma entries_format f sep d c i : m_format (entry f sep d c i) = f.
Proof. unfold entry. now destruct sep. Qed.
Lemma maps_format f table sep cs maps : NoDup (map fst table) -> uid_identifies table -> merge f table sep = (cs, maps) -> forall m, In m maps -> m_format m = f.
Proof. intros Hn Hu Hm m Hin. destruct (merge_entries f sep table cs maps Hn Hu Hm) as [H _]. destruct (H m Hin) as (d & l & cw & i & _ & _ & -> & _). apply entries_format. Qed.

(** C284: what the wallet makes with CreateVP, the verifier accepts with Match for the same definition: when nothing has to be limited or framed, the
    wallet's credentials are told apart by their ids, and every descriptor was answered (always so without submission requirements), the presentation, sent as
    JSON or in a JWT or CWT, is accepted; every descriptor gets a credential and every credential is one that was submitted, from the wallet. *)
Section Wallet.
  Variable valid : wdef -> res unit.
  Variable frame : gomap json -> cred -> res cred.
  Variable limit : wcons -> cred -> res (limited cred).
  Variable ctx : Type.
  Variable load : string -> res ctx.
  Variable type_ids : ctx -> string -> option (list string).
  Variable jp_parse : string -> option (json -> list json).
  Variable validate : jschema -> json -> bool.
  Variable rfc3339 : string -> option Z.
  Variable order : list (string * string).
  (** a definition and wallet as described; [disable]: Match is told not to check schemas *)
  Definition ordinary (disable : bool) (pd : wdef) (creds : list cred) : Prop :=
    plain_def pd /\ NoDup (map wd_id (wp_descs pd)) /\ Forall plain_rule (wp_reqs pd) /\ wp_frame pd = None /\
    (forall d w c, In d (wp_descs pd) -> wd_cons d = Some w -> In c creds -> limit w c = Ok (LSame (c_id c))) /\
    (forall c c', In c creds -> In c' creds -> c_id c = c_id c' -> c = c') /\
    (forall d, In d (wp_descs pd) -> (disable = true /\ forall c x, In c creds -> In x (c_contexts c) -> exists cx, load x = Ok cx) \/ exists s, wd_schema d = Some s).
  Notation rs := (real_schema ctx load type_ids).
  Notation rc := (real_constraints jp_parse validate rfc3339 order).
  Lemma wallet_single : forall disable ids pd fmt creds v,
    ordinary disable pd creds ->
    create_vp valid frame limit ctx load type_ids jp_parse validate rfc3339 order ids pd fmt creds = Ok v ->
    Z.of_nat (List.length (wv_creds v)) < 2 ^ 63 ->
    (wp_reqs pd = [] \/ forall d, In d (wp_descs pd) -> exists id def maps m, wv_custom v = [("presentation_submission", (id, def, maps))] /\ In m maps /\ m_id m = wd_id d) ->
    exists f, (forall id def maps m, wv_custom v = [("presentation_submission", (id, def, maps))] -> In m maps -> m_format m = f) /\
      forall E U other ft parse p js, received v p -> carries E U f p js -> Forall2 (fun j c => parse j = Ok c) js (wv_creds v) ->
      exists r, match_presentations E U other ft parse rs rc disable (map match_desc_of (wp_descs pd)) NoSubmission [p] = Ok r /\
        (forall d, In d (wp_descs pd) -> exists x, In x r /\ mv_desc x = wd_id d) /\
        (forall x, In x r -> mv_pres x = pr_id p /\ In (mv_cred x) (wv_creds v) /\ In (mv_cred x) creds).
  Proof.
    intros disable ids pd fmt creds v (H1 & H2 & H3 & H4 & H5 & H6 & H7) H Hbig Hcov. unfold create_vp in H. apply bind_ok in H as ([cs maps] & Hd & H). cbn [fst snd] in *.
    apply bind_ok in H as (v0 & Hv & H). apply made in Hv as (C1 & C2 & C3). injection H as <-. cbn [wv_creds wv_custom] in *. rewrite C1 in *.
    assert (Hcov' : wp_reqs pd = [] \/ forall d, In d (wp_descs pd) -> exists m, In m maps /\ m_id m = wd_id d).
    { destruct Hcov as [Hc|Hc]; [now left|right]. intros d Hin. destruct (Hc d Hin) as (i & df & mp & m & [= <- <- <-] & X). eauto. }
    destruct (data_table valid frame limit ctx load type_ids jp_parse validate rfc3339 order pd false fmt creds cs maps disable H1 H2 H3 H4 H5 H6 H7 Hd Hcov') as (f & table & Em & Hg & Hin).
    exists f. split.
    - intros i df mp m [= <- <- <-] Hm. destruct Hg as (N & _ & Hu & _). exact (maps_format f table false cs maps N Hu Em m Hm).
    - intros E U other ft parse p js (P1 & P2 & i & df & mp & maps' & [= <- <- <-] & Hp & Hsub) Hc HF. cbn [wv_context wv_type] in P1, P2.
      destruct (match_single E U other ft parse rs rc disable (map match_desc_of (wp_descs pd)) f table cs maps maps' (fst ids) (wp_id pd) p js Hg Em Hp Hbig) as (r & R & Q); auto.
      { split; [left; rewrite P1; exact C2|left; rewrite P2, C3; right; now left]. }
      exists r. split; [exact R|]. destruct Hg as (N & _ & Hu & Hcv & _). split.
      + intros d Hdd. destruct (Hcv (match_desc_of d) (in_map _ _ _ Hdd)) as (l & Hl & Hne). destruct l as [|cw l]; [congruence|].
        destruct (proj2 (Q (wd_id d) (cw_vc cw))) as (x & X1 & X2 & _); [exists (cw :: l), cw; repeat split; [assumption|now left]|]. eauto.
      + intros x Hx. destruct (proj1 (Q (mv_desc x) (mv_cred x))) as (l & cw & K1 & K2 & K3); [eauto|].
        destruct (merge_entries f false table cs maps N Hu Em) as [_ M]. destruct (M _ _ _ K1 K2) as (k & Hk & _). apply nth_error_In in Hk. rewrite K3 in Hk.
        split; [|split; auto].
        unfold match_presentations in R. cbn [bind] in R. destruct (C13_match ctx load type_ids jp_parse validate rfc3339 order _ _ _ _ _ _ _ R) as (_ & A & _).
        destruct (A x Hx) as (k' & q & ? & ? & ? & Hq & _ & -> & _). destruct k' as [|[|k']]; cbn in Hq; try discriminate. injection Hq as <-. reflexivity.
  Qed.
  Lemma wallet_array : forall disable id fresh pd fmt creds vs sid def maps,
    ordinary disable pd creds ->
    create_vp_array valid frame limit ctx load type_ids jp_parse validate rfc3339 order id fresh pd fmt creds = Ok (vs, (sid, def, maps)) ->
    Z.of_nat (List.length vs) < 2 ^ 63 ->
    (wp_reqs pd = [] \/ forall d, In d (wp_descs pd) -> exists m, In m maps /\ m_id m = wd_id d) ->
    exists f, (forall m, In m maps -> m_format m = f) /\
      forall E U other ft parse ps maps' sub, Permutation maps maps' ->
      (sub = Typed maps' \/ exists m, submission_json sid def maps' = JObj m /\ sub = Untyped m) ->
      Forall2 (fun p v => pr_context p = wv_context v /\ pr_types p = wv_type v /\ exists j c, wv_creds v = [c] /\ carries E U f p [j] /\ parse j = Ok c) ps vs ->
      exists r, match_presentations E U other ft parse rs rc disable (map match_desc_of (wp_descs pd)) sub ps = Ok r /\
        (forall d, In d (wp_descs pd) -> exists x, In x r /\ mv_desc x = wd_id d) /\
        (forall x, In x r -> In (mv_cred x) creds /\ exists i p v, nth_error ps i = Some p /\ nth_error vs i = Some v /\ mv_pres x = pr_id p /\ wv_creds v = [mv_cred x]).
  Proof.
    intros disable id fresh pd fmt creds vs sid def maps (H1 & H2 & H3 & H4 & H5 & H6 & H7) H Hbig Hcov. unfold create_vp_array in H. apply bind_ok in H as ([cs mp] & Hd & H). cbn [fst snd] in *.
    apply bind_ok in H as (vs' & Hv & H). injection H as -> <- <- ->.
    assert (Hvs : Forall2 (fun v c => wv_creds v = [c] /\ In submission_context (wv_context v) /\ wv_type v = ["VerifiablePresentation"; submission_type]) vs cs).
    { clear - Hv. revert Hv. generalize 0%nat. revert vs. induction cs as [|c cs IH]; intros vs n H; cbn [List.length seq combine map_res] in H; [injection H as <-; constructor|].
      apply bind_ok in H as (v & E & H). apply bind_ok in H as (w & F & H). injection H as <-. constructor; [exact (made _ _ _ E)|exact (IH _ _ F)]. }
    destruct (data_table valid frame limit ctx load type_ids jp_parse validate rfc3339 order pd true fmt creds cs maps disable H1 H2 H3 H4 H5 H6 H7 Hd Hcov) as (f & table & Em & Hg & Hin).
    assert (Hlen : List.length vs = List.length cs) by (clear - Hvs; induction Hvs; cbn; auto).
    exists f. split; [destruct Hg as (N & _ & Hu & _); exact (maps_format f table true cs maps N Hu Em)|].
    intros E U other ft parse ps maps' sub Hp Hsub HF.
    destruct (match_array E U other ft parse rs rc disable (map match_desc_of (wp_descs pd)) f table cs maps maps' sub ps Hg Em Hp) as (r & R & Q & Q').
    - lia.
    - clear - HF Hvs. revert cs Hvs. induction HF as [|p v ps vs (P1 & P2 & _) _ IH]; intros cs Hvs; [constructor|]. inversion Hvs as [|? ? ? ? (_ & C2 & C3) Hr]; subst. constructor; [|eauto].
      split; [left; rewrite P1; exact C2|left; rewrite P2, C3; right; now left].
    - destruct Hsub as [->|(m & Es & ->)]; [now left|right; eauto].
    - clear - HF Hvs. revert cs Hvs. induction HF as [|p v ps vs (_ & _ & j & c & P3 & P4 & P5) _ IH]; intros cs Hvs; inversion Hvs as [|? c' ? ? (C1 & _) Hr]; subst; constructor; [|eauto].
      assert (c = c') by congruence. subst. eauto.
    - exists r. split; [exact R|]. destruct Hg as (N & _ & Hu & Hcv & _). split.
      + intros d Hdd. destruct (Hcv (match_desc_of d) (in_map _ _ _ Hdd)) as (l & Hl & Hne). destruct l as [|cw l]; [congruence|].
        destruct (proj2 (Q (wd_id d) (cw_vc cw))) as (x & X1 & X2 & _); [exists (cw :: l), cw; repeat split; [assumption|now left]|]. eauto.
      + intros x Hx. destruct (Q' x Hx) as (i & p & I1 & I2 & I3). split; [apply Hin; eapply nth_error_In; eauto|].
        destruct (forall2_nth _ _ _ Hvs i (mv_cred x) I3) as (v & V1 & V2 & _). eauto 8.
  Qed.
End Wallet.
Theorem C284_single : forall valid frame limit ctx load type_ids jp_parse validate rfc3339 order disable ids pd fmt creds v,
  ordinary limit ctx load disable pd creds ->
  create_vp valid frame limit ctx load type_ids jp_parse validate rfc3339 order ids pd fmt creds = Ok v ->
  Z.of_nat (List.length (wv_creds v)) < 2 ^ 63 ->
  (wp_reqs pd = [] \/ forall d, In d (wp_descs pd) -> exists id def maps m, wv_custom v = [("presentation_submission", (id, def, maps))] /\ In m maps /\ m_id m = wd_id d) ->
  exists f, (forall id def maps m, wv_custom v = [("presentation_submission", (id, def, maps))] -> In m maps -> m_format m = f) /\
    forall E U other ft parse p js, received v p -> carries E U f p js -> Forall2 (fun j c => parse j = Ok c) js (wv_creds v) ->
    exists r, match_presentations E U other ft parse (real_schema ctx load type_ids) (real_constraints jp_parse validate rfc3339 order) disable (map match_desc_of (wp_descs pd)) NoSubmission [p] = Ok r /\
      (forall d, In d (wp_descs pd) -> exists x, In x r /\ mv_desc x = wd_id d) /\
      (forall x, In x r -> mv_pres x = pr_id p /\ In (mv_cred x) (wv_creds v) /\ In (mv_cred x) creds).
Proof. exact wallet_single. Qed.
Theorem C284_array : forall valid frame limit ctx load type_ids jp_parse validate rfc3339 order disable id fresh pd fmt creds vs sid def maps,
  ordinary limit ctx load disable pd creds ->
  create_vp_array valid frame limit ctx load type_ids jp_parse validate rfc3339 order id fresh pd fmt creds = Ok (vs, (sid, def, maps)) ->
  Z.of_nat (List.length vs) < 2 ^ 63 ->
  (wp_reqs pd = [] \/ forall d, In d (wp_descs pd) -> exists m, In m maps /\ m_id m = wd_id d) ->
  exists f, (forall m, In m maps -> m_format m = f) /\
    forall E U other ft parse ps maps' sub, Permutation maps maps' ->
    (sub = Typed maps' \/ exists m, submission_json sid def maps' = JObj m /\ sub = Untyped m) ->
    Forall2 (fun p v => pr_context p = wv_context v /\ pr_types p = wv_type v /\ exists j c, wv_creds v = [c] /\ carries E U f p [j] /\ parse j = Ok c) ps vs ->
    exists r, match_presentations E U other ft parse (real_schema ctx load type_ids) (real_constraints jp_parse validate rfc3339 order) disable (map match_desc_of (wp_descs pd)) sub ps = Ok r /\
      (forall d, In d (wp_descs pd) -> exists x, In x r /\ mv_desc x = wd_id d) /\
      (forall x, In x r -> In (mv_cred x) creds /\ exists i p v, nth_error ps i = Some p /\ nth_error vs i = Some v /\ mv_pres x = pr_id p /\ wv_creds v = [mv_cred x]).
Proof. exact wallet_array. Qed.

(** a wallet of three, a definition with two descriptors; the presentation travels as JSON and in a CWT *)
Definition w_pd : wdef := {| wp_id := "PD"; wp_format := None; wp_frame := None; wp_reqs := []; wp_descs := [toy_desc "1" [] false "$.degree"; toy_desc "2" [] false "$.license"] |}.
Definition w_limit (w : wcons) (c : cred) : res (limited cred) := Ok (LSame (c_id c)).
Notation w_create := (create_vp (fun _ => Ok tt) (fun _ c => Ok c) w_limit string (fun s => Ok s) (fun c t => Some [c ++ t]) toy_jp (fun _ _ => true) (fun _ => None) []).
Definition w_parse (j : json) : res cred := match j with JStr s => match find (fun c => String.eqb (c_id c) s) toy_wallet with Some c => Ok c | None => Err "parse" end | _ => Err "parse" end.
Definition w_maps := [Mapping "2" "ldp_vp" "$" (Some (Mapping "2" "ldp_vc" "$.verifiableCredential[2]" None)); Mapping "1" "ldp_vp" "$" (Some (Mapping "1" "ldp_vc" "$.verifiableCredential[0]" None));
                      Mapping "1" "ldp_vp" "$" (Some (Mapping "1" "ldp_vc" "$.verifiableCredential[1]" None))].
Definition w_pres (creds : list credential) (cwt : option vpcwt) : presentation :=
  {| pr_context := [v1_context; submission_context]; pr_custom_ctx := []; pr_id := "vp"; pr_types := ["VerifiablePresentation"; "PresentationSubmission"]; pr_creds := creds; pr_holder := "";
     pr_proofs := []; pr_jwt := ""; pr_cwt := cwt; pr_custom := [("presentation_submission", submission_json "S" "PD" w_maps)] |}.
Definition w_cwt (msg : coset) : vpcwt := {| vw_raw := "raw"; vw_msg := msg; vw_map := [("iss", JStr "h"); ("vp", JObj [("verifiableCredential", JArr [JStr "u"; JStr "w"; JStr "v"])])] |}.
Notation w_match E U other ft := (match_presentations E U other ft w_parse (real_schema string (fun s => Ok s) (fun c t => Some [c ++ t])) (real_constraints toy_jp (fun _ _ => true) (fun _ => None) [])
  true (map match_desc_of (wp_descs w_pd)) NoSubmission).
Example C284_example :
  ordinary w_limit string (fun s => Ok s) true w_pd toy_wallet /\
  (exists v, w_create ("S", "vp") w_pd "ldp_vp" toy_wallet = Ok v /\ wv_creds v = [wcred "u" "degree"; wcred "w" "degree"; wcred "v" "license"] /\
     (forall cs cwt, received v (w_pres cs cwt)) /\ Forall2 (fun j c => w_parse j = Ok c) [JStr "u"; JStr "w"; JStr "v"] (wv_creds v)) /\
  (forall E U msg, carries E U "ldp_vp" (w_pres [] (Some (w_cwt msg))) [JStr "u"; JStr "w"; JStr "v"]) /\
  (forall E (a b c : credential) U, U a = Ok (JStr "u") -> U b = Ok (JStr "w") -> U c = Ok (JStr "v") -> carries E U "ldp_vp" (w_pres [a; b; c] None) [JStr "u"; JStr "w"; JStr "v"]) /\
  (forall E U other ft msg, w_match E U other ft [w_pres [] (Some (w_cwt msg))] =
     Ok [{| mv_pres := "vp"; mv_cred := wcred "v" "license"; mv_desc := "2" |}; {| mv_pres := "vp"; mv_cred := wcred "u" "degree"; mv_desc := "1" |}; {| mv_pres := "vp"; mv_cred := wcred "w" "degree"; mv_desc := "1" |}]).
Proof.
  split; [|split; [|split; [|split]]].
  - split; [|split; [|split; [|split; [|split; [|split]]]]].
    + intros d [<-|[<-|[]]]; (split; [|discriminate]); (constructor; [|constructor]); (split; [discriminate|exact I]).
    + cbn. repeat constructor; cbn; intuition discriminate.
    + constructor.
    + reflexivity.
    + reflexivity.
    + intros c c' [<-|[<-|[<-|[]]]] [<-|[<-|[<-|[]]]] E; first [reflexivity|discriminate E].
    + intros d _. left. split; [reflexivity|]. eauto.
  - eexists. split; [vm_compute; reflexivity|]. split; [reflexivity|]. split; [|repeat (constructor; [vm_compute; reflexivity|]); constructor].
    intros cs cwt. split; [reflexivity|]. split; [reflexivity|]. eexists _, _, _, w_maps. split; [reflexivity|]. split; [|reflexivity].
    unfold w_maps. apply Permutation_sym. eapply perm_trans; [apply perm_swap|]. apply perm_skip. apply perm_swap.
  - intros E U msg. eapply ca_claims; [reflexivity|reflexivity|reflexivity|reflexivity].
  - intros E a b c U Ha Hb Hc. apply ca_json; [reflexivity|reflexivity|discriminate|]. cbn. now rewrite Ha, Hb, Hc.
  - intros E U other ft msg. vm_compute. reflexivity.
Qed.

(** C285 (does not hold): the credential that Match takes for a mapping is the one its path names in the presentation.  A path that names nothing is read as a path
    into the member "vp", in JSON presentations as well. *)
Theorem C285_path_refuted : ~ (forall other ft id fmt l j v, Forall good_step l -> select_value other ft (Mapping id fmt (path_text l) None) j = Ok v -> reaches ft j l v).
Proof.
  intros H. specialize (H (fun _ _ => Err "") itoa "d" "ldp_vc" [Name "verifiableCredential"; Index 1]
    (JObj [("verifiableCredential", JArr [JStr "signed"]); ("vp", JObj [("verifiableCredential", JArr [JNull; JStr "elsewhere"])])]) (JStr "elsewhere")).
  assert (R : reaches itoa (JObj [("verifiableCredential", JArr [JStr "signed"]); ("vp", JObj [("verifiableCredential", JArr [JNull; JStr "elsewhere"])])])
    [Name "verifiableCredential"; Index 1] (JStr "elsewhere")) by (apply H; [repeat constructor|vm_compute; reflexivity]).
  inversion R as [|? ? x ? ? E R'| |]; subst. injection E as <-. inversion R' as [| |? ? y ? ? E' _|]; subst. discriminate E'.
Qed.

Print Assumptions C281_descriptor_maps.
Print Assumptions C282_selection.
Print Assumptions C283_single.
Print Assumptions C283_array.
Print Assumptions C284_single.
Print Assumptions C284_array.
Print Assumptions C285_path_refuted.
