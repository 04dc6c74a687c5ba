(** Property theorems for credentials: contents, JSON form, modifications, data URLs (C95-C102). *)
From Coq Require Import Permutation.
From Verif Require Import GoBase Base64 StatusModel PexModel StrLemmas JwtSpec DiSpec VcSpec JwtModel SdSpec SdModel SdParse DiModel
  VcModel VcJwt VcParse VcProofs VcView VcText VcMod DiProps JwtProofs.

(** ** A toy environment for examples: times are "T<seconds>", texts are looked up in a table. *)
Definition toyT : tenv := {|
  te_parse := fun s => match s with
                       | String "T" r => match digits_val 0 r with Some z => Some (of_unix z) | None => None end
                       | _ => None end;
  te_nano := fun t => "T" ++ itoa (Z.to_nat (unix t));
  te_rfc := fun n => "T" ++ itoa (Z.to_nat n);
  te_sprint := fun _ => "?" |}.
Definition toyD (toks : gomap jws) : denv :=
  {| de_compact := fun s => mhas toks s; de_jws := fun s _ => match mget toks s with Some j => Ok j | None => Err "x" end;
     de_members := fun _ => None; de_gstr := fun _ => "" |}.
Definition toySd : sdenv := {| sd_sum := fun _ s => s; sd_json := fun _ => None |}.
Definition toyV0 (toks : gomap jws) (tbl : gomap (list (string * json))) : venv := {|
  ve_time := toyT; ve_jwt := toyD toks; ve_members := fun s => mget tbl s; ve_obj := fun s => mhas tbl s; ve_sd := toySd;
  ve_order := fun m => map fst m; ve_cose := fun _ => None; ve_hex := fun _ => None; ve_cbor := fun _ => None;
  ve_schema := fun _ => Err "x"; ve_valid := fun _ _ => Ok tt; ve_jsonld := fun _ _ _ => Ok tt;
  ve_ext := fun _ l => JArr (map JStr l); ve_ldproofs := fun _ => Ok []; ve_ldmsg := fun _ _ => Ok "";
  ve_di := toyE; ve_now := toy_now; ve_related := fun _ => Ok tt |}.
Definition toyO : copts := {|
  co_jwt_check := None; co_ld_check := None; co_cwt_check := None; co_no_proof := true; co_no_validation := true;
  co_no_related := true; co_no_custom := true; co_schema := ""; co_schema_of := None; co_mode := MCombined;
  co_contexts := []; co_types := []; co_strict := false; co_ld_types := false; co_external := [];
  co_di := None; co_di_purpose := ""; co_di_domain := ""; co_di_challenge := "" |}.

(** ** C95  Contents -> CreateCredential -> ToRawJSON -> JSON text -> ParseCredential gives the same contents. *)
(** extra members: distinct names, none of the data model, not "proof" and not "jwt" in any case *)
Definition data_model_names : list string :=
  ["@context"; "id"; "type"; "credentialSubject"; "credentialStatus"; "issuer"; "credentialSchema"; "evidence";
   "refreshService"; "relatedResource"; "termsOfUse"; "issuanceDate"; "expirationDate"; "validFrom"; "validUntil";
   "_sd_alg"; "proof"].
Definition extra_ok (custom : gomap json) : Prop :=
  forall k, In k (map fst custom) -> ~ In k data_model_names.
Lemma in_dm k : In k data_model -> In k data_model_names.
Proof. cbn; tauto. Qed.
Lemma raw_member E c custom k : extra_ok custom -> In k data_model_names ->
  mget (to_raw_json (create_credential E c custom)) k = member E c [] k.
Proof.
  intros Hc Hk. unfold create_credential, create_with_proofs, to_raw_json. cbn [cr_proofs cr_json].
  rewrite mget_add_custom, serialize_member. destruct (member E c [] k) eqn:Em; [reflexivity|].
  apply mget_None. intros Hin. exact (Hc k Hin Hk).
Qed.
Lemma proof_member E c : member E c [] "proof" = None.
Proof. unfold member, members. destruct (v2 c); reflexivity. Qed.

Theorem C95_contents_round_trip : forall (E : venv) (o : copts) (c : contents) (custom : gomap json) (data : string),
  expressible c -> vc_sdalg c = None -> ~ In "EnvelopedVerifiableCredential" (vc_types c) ->
  (forall t, vc_issued c = Some t \/ vc_expired c = Some t -> good_time (ve_time E) t) ->
  extra_ok custom ->
  co_no_proof o = true -> co_no_validation o = true -> co_no_related o = true ->
  json_text E data (to_raw_json (create_credential (ve_time E) c custom)) ->
  exists v, parse_credential E o data = Ok v
    /\ same_contents (ve_time E) c (cr_contents v)
    /\ (forall k, mget (to_raw_json v) k = mget (to_raw_json (create_credential (ve_time E) c custom)) k)
    /\ (forall k j, mget custom k = Some j -> mget (to_raw_json v) k = Some j)
    /\ cr_proofs v = [] /\ cr_jwt v = None /\ cr_cwt v = None.
Proof.
  intros E o c custom data Hex Hsd Henv Ht Hcu Hp Hv Hr Hd.
  set (raw := to_raw_json (create_credential (ve_time E) c custom)) in *.
  assert (Hnd : NoDup (map fst raw)) by (destruct Hd as (? & ? & _ & _ & _ & ? & _); assumption).
  destruct (parse_members (ve_time E) c raw Hex Ht) as (c' & Hc' & Hs).
  { intros k Hk. rewrite fld_norm. unfold raw. rewrite raw_member by (auto using in_dm). reflexivity. }
  rewrite Hsd in Hc'.
  assert (Hty : decode_type (fld raw "type") = Ok (vc_types c')) by (apply parse_contents_parts in Hc'; tauto).
  assert (Ety : vc_types c' = vc_types c) by (symmetry; apply Hs).
  destruct (json_parser_text E o data raw Hd) as (ms & Hperm & Hj).
  assert (Hpr : parse_ld_proof (fld ms "proof") = Ok []).
  { rewrite (fld_perm ms raw) by assumption. rewrite fld_norm. unfold raw. rewrite raw_member by (auto; cbn; tauto).
    now rewrite proof_member. }
  rewrite (parse_contents_perm _ ms raw) in Hj by assumption. rewrite Hc', Hpr, Hv in Hj. cbn [bind] in Hj.
  exists {| cr_json := ms; cr_contents := c'; cr_proofs := []; cr_jwt := None; cr_cwt := None |}.
  assert (Hk : forall k, mget ms k = mget raw k).
  { intros k. symmetry. apply mget_perm; [assumption|now apply Permutation_sym]. }
  split; [|split; [exact Hs|split; [|split; [|auto]]]].
  - unfold parse_credential. cbn [try_parsers]. unfold parse_with at 1.
    rewrite (enveloped_other E o data raw (vc_types c') Hd Hty) by (rewrite Ety; exact Henv).
    cbn [bind]. unfold parse_with at 1. rewrite Hj. cbn [bind]. rewrite Hp. cbn [bind]. now rewrite Hr.
  - exact Hk.
  - intros k j Hkj. cbn [to_raw_json cr_proofs cr_json]. rewrite Hk. unfold raw, create_credential, create_with_proofs, to_raw_json.
    cbn [cr_proofs cr_json]. rewrite mget_add_custom, serialize_member.
    destruct (member (ve_time E) c [] k) eqn:Em; [|assumption]. exfalso.
    apply (Hcu k); [change k with (fst (k, j)); apply in_map, mget_In; assumption|].
    unfold member in Em. destruct (mget (members (ve_time E) c []) k) eqn:Emm; [|discriminate].
    apply mget_In in Emm. apply (in_map fst) in Emm. unfold members in Emm. cbn [map fst] in Emm.
    revert Emm. destruct (v2 c); cbn; tauto.
Qed.
(** the same for the map handed to ParseCredentialJSON *)
Theorem C95_object_round_trip : forall (E : venv) (o : copts) (c : contents) (custom : gomap json),
  expressible c -> vc_sdalg c = None -> ~ In "EnvelopedVerifiableCredential" (vc_types c) ->
  (forall t, vc_issued c = Some t \/ vc_expired c = Some t -> good_time (ve_time E) t) ->
  extra_ok custom -> co_no_validation o = true ->
  exists v, parse_credential_json E o (to_raw_json (create_credential (ve_time E) c custom)) = Ok v
    /\ same_contents (ve_time E) c (cr_contents v)
    /\ to_raw_json v = to_raw_json (create_credential (ve_time E) c custom).
Proof.
  intros E o c custom Hex Hsd Henv Ht Hcu Hv.
  set (raw := to_raw_json (create_credential (ve_time E) c custom)).
  destruct (parse_members (ve_time E) c raw Hex Ht) as (c' & Hc' & Hs).
  { intros k Hk. rewrite fld_norm. unfold raw. rewrite raw_member by (auto using in_dm). reflexivity. }
  rewrite Hsd in Hc'.
  assert (Hty : decode_type (fld raw "type") = Ok (vc_types c')) by (apply parse_contents_parts in Hc'; tauto).
  assert (Ety : vc_types c' = vc_types c) by (symmetry; apply Hs).
  assert (Hpr : parse_ld_proof (fld raw "proof") = Ok []).
  { rewrite fld_norm. unfold raw. rewrite raw_member by (auto; cbn; tauto). now rewrite proof_member. }
  unfold parse_credential_json. rewrite Hty. cbn [bind]. rewrite Ety.
  apply str_in_nIn in Henv. change "EnvelopedVerifiableCredential" with enveloped_type in Henv. rewrite Henv.
  rewrite Hpr. cbn [bind]. rewrite Hc'. cbn [bind]. rewrite Hv. cbn [bind].
  eexists; split; [reflexivity|]. split; [exact Hs|reflexivity].
Qed.
Definition ex_contents : contents := {|
  vc_context := [v1_context]; vc_custom_ctx := [JObj [("x", JStr "y")]]; vc_id := "urn:1"; vc_types := ["VerifiableCredential"; "D"];
  vc_subject := [{| sj_id := "did:s"; sj_custom := [("name", JStr "n")] |}; {| sj_id := ""; sj_custom := [("k", JBool true)] |}];
  vc_issuer := Some {| is_id := "did:i"; is_custom := [("name", JStr "I")] |};
  vc_issued := Some {| tw_time := of_unix 7; tw_str := "" |}; vc_expired := Some {| tw_time := of_unix 12; tw_str := "T012" |};
  vc_status := [{| ti_id := "urn:st"; ti_type := "SL"; ti_custom := [("p", JStr "q")] |}]; vc_schemas := [];
  vc_evidence := Some (JArr []); vc_terms := []; vc_refresh := None; vc_sdalg := None;
  vc_related := [{| rr_id := "r"; rr_sri := "s"; rr_mb := ""; rr_media := "" |}] |}.
Definition ex_custom : gomap json := [("extra", JBool false)].
Definition ex_raw : gomap json := to_raw_json (create_credential toyT ex_contents ex_custom).
Definition ex_text : string := String brace "1".
Definition ex_venv : venv := toyV0 [] [(ex_text, ex_raw)].
Example C95_example :
  expressible ex_contents /\ vc_sdalg ex_contents = None /\ ~ In "EnvelopedVerifiableCredential" (vc_types ex_contents)
  /\ (forall t, vc_issued ex_contents = Some t \/ vc_expired ex_contents = Some t -> good_time toyT t)
  /\ extra_ok ex_custom /\ json_text ex_venv ex_text ex_raw
  /\ (match parse_credential ex_venv toyO ex_text with Ok v => option_map is_id (vc_issuer (cr_contents v)) | _ => None end)
     = Some "did:i".
Proof.
  split; [|split; [reflexivity|split; [|split; [|split; [|split]]]]].
  - unfold expressible, ex_contents, no_key, is_string; cbn. repeat split; try discriminate.
    + left; discriminate.
    + intros j l [= <- <-] (s & Hs). discriminate.
    + intros s [<-|[<-|[]]]; cbn; intuition discriminate.
    + injection H as <-. discriminate.
    + injection H as <-. cbn. intuition discriminate.
    + destruct H as [[<-|[]]|[[]|[[]|H]]]; [cbn; intuition discriminate|discriminate].
    + destruct H as [[<-|[]]|[[]|[[]|H]]]; [cbn; intuition discriminate|discriminate].
  - cbn. intuition discriminate.
  - intros t [[= <-]|[= <-]]; reflexivity.
  - intros k [<-|[]]. cbn. intuition discriminate.
  - exists "1", ex_raw. split; [reflexivity|]. split; [reflexivity|]. split; [apply Permutation_refl|].
    split; [|intros k Hk; revert k Hk; apply Forall_forall; vm_compute; repeat constructor].
    vm_compute. repeat (constructor; [cbn; intuition discriminate|]). constructor.
  - vm_compute. reflexivity.
Qed.
Print Assumptions C95_contents_round_trip.
Print Assumptions C95_object_round_trip.

(** ** C96  The contents of a parsed credential say what its JSON object says. *)
Theorem C96_contents_agree_with_json : forall (E : venv) (o : copts) (data : string) (v : credential),
  parse_credential E o data = Ok v -> co_external o = [] -> view (ve_time E) (cr_json v) (cr_contents v).
Proof.
  intros E o data v H He. apply parse_credential_ok in H as (d' & v0 & v1 & _ & Hp & H1 & H2).
  apply checked_no_ext in H1; [|assumption]. subst v1.
  assert (v = v0) by (destruct H2 as [?|H2]; [assumption|now apply checked_no_ext in H2]). subst v.
  destruct Hp as [Hp|Hp].
  - apply json_parser_contents in Hp as (sd & Hp). now apply parse_view in Hp.
  - apply cbor_parser_contents in Hp. now apply parse_view in Hp.
Qed.
Theorem C96_object : forall (E : venv) (o : copts) (m : gomap json) (v : credential),
  parse_credential_json E o m = Ok v -> co_external o = [] -> view (ve_time E) (cr_json v) (cr_contents v).
Proof.
  intros E o m v H He. unfold parse_credential_json in H. apply bind_ok in H as (ts & _ & H).
  destruct (str_in enveloped_type ts).
  - destruct (mget m "id") as [[]|]; try discriminate. apply bind_ok in H as (r & Hr & H).
    destruct r as [v'|]; [|discriminate]. injection H as <-.
    unfold parse_data_url_cred in Hr. apply bind_ok in Hr as ([[media enc] d] & _ & Hr).
    destruct (_ || _); [|destruct (String.eqb media vc_media_cose); [|discriminate]];
      apply parse_with_ok in Hr as (v0 & Hv0 & Hc & _); apply checked_no_ext in Hc; auto; subst v'.
    + apply json_parser_contents in Hv0 as (sd & Hp). now apply parse_view in Hp.
    + apply cbor_parser_contents in Hv0. now apply parse_view in Hv0.
  - apply bind_ok in H as (ps & _ & H). apply bind_ok in H as (c & Hc & H). apply bind_ok in H as (u & _ & H).
    injection H as <-. cbn. now apply parse_view in Hc.
Qed.
Example C96_example : exists v, parse_credential ex_venv toyO ex_text = Ok v /\ co_external toyO = []
  /\ vc_issuer (cr_contents v) <> None.
Proof. eexists. split; [vm_compute; reflexivity|]. split; [reflexivity|discriminate]. Qed.
Print Assumptions C96_contents_agree_with_json.
Print Assumptions C96_object.

(** ** C97  ToRawJSON of a parsed JSON credential has the members that were parsed, and the same list of proofs. *)
Inductive proof_list (m : gomap json) : list (gomap json) -> Prop :=
| pl_none : absent m "proof" -> proof_list m []
| pl_one p : mget m "proof" = Some (JObj p) -> proof_list m [p]
| pl_many l : mget m "proof" = Some (JArr (map JObj l)) -> proof_list m l.
Lemma map_res_obj e l ps : map_res (obj_of e) l = Ok ps -> l = map JObj ps.
Proof.
  intros H. apply map_res_forall2 in H. induction H as [|a b l r Hab H IH]; [reflexivity|].
  destruct a; try discriminate. injection Hab as <-. cbn [map]. now rewrite IH.
Qed.
Lemma parse_proof_list m ps : parse_ld_proof (fld m "proof") = Ok ps -> proof_list m ps.
Proof.
  unfold parse_ld_proof. destruct (fld m "proof") as [[]|] eqn:Ef; try discriminate.
  - intros H. apply fld_Some in Ef. apply map_res_obj in H. subst. now apply pl_many.
  - intros [= <-]. apply fld_Some in Ef. now apply pl_one.
  - intros [= <-]. apply pl_none. now apply fld_None.
Qed.
Theorem C97_raw_json_is_what_was_parsed : forall (E : venv) (o : copts) (data : string) (m : gomap json) (v : credential),
  json_text E data m -> (forall ts, decode_type (fld m "type") = Ok ts -> ~ In "EnvelopedVerifiableCredential" ts) ->
  parse_credential E o data = Ok v -> co_external o = [] ->
  (forall k, k <> "proof" -> mget (to_raw_json v) k = mget m k)
  /\ exists ps, proof_list m ps /\ proof_list (to_raw_json v) ps /\ cr_proofs v = ps.
Proof.
  intros E o data m v Hd Hty H He.
  assert (Hnd : NoDup (map fst m)) by (destruct Hd as (? & ? & _ & _ & _ & ? & _); assumption).
  destruct (json_parser_text E o data m Hd) as (ms & Hperm & Hj).
  assert (Henv : enveloped_parser E o data = Ok None).
  { destruct (parse_json_text E data m Hd) as (ms' & Hpj & Hp'). unfold enveloped_parser. rewrite Hpj.
    rewrite (fld_perm ms' m) by assumption. destruct (decode_type (fld m "type")) as [ts| |] eqn:Et; try reflexivity.
    specialize (Hty ts eq_refl). apply str_in_nIn in Hty. unfold enveloped_type. now rewrite Hty. }
  unfold parse_credential in H. cbn [try_parsers] in H. unfold parse_with at 1 in H. rewrite Henv in H. cbn [bind] in H.
  apply bind_ok in H as (r & Hr & H).
  assert (Hv : json_parser E o data = Ok (Some v)).
  { destruct r as [x|].
    - injection H as ->. apply parse_with_ok in Hr as (v0 & Hv0 & Hc & _). apply checked_no_ext in Hc; [|assumption]. congruence.
    - exfalso. unfold parse_with in Hr. rewrite Hj in Hr.
      destruct (parse_contents (ve_time E) ms false); try discriminate. cbn [bind] in Hr.
      destruct (parse_ld_proof (fld ms "proof")); try discriminate. cbn [bind] in Hr.
      destruct (if co_no_validation o then _ else _); try discriminate. cbn [bind] in Hr.
      apply bind_ok in Hr as (? & _ & Hr). apply bind_ok in Hr as (? & _ & Hr). discriminate. }
  rewrite Hj in Hv. apply bind_ok in Hv as (c & Hc & Hv). apply bind_ok in Hv as (ps & Hps & Hv).
  apply bind_ok in Hv as (u & _ & Hv). injection Hv as <-.
  assert (Hk : forall k, mget ms k = mget m k).
  { intros k. symmetry. apply mget_perm; [assumption|now apply Permutation_sym]. }
  assert (Hpl : proof_list m ps) by (apply parse_proof_list; rewrite <- Hps; f_equal; symmetry; now apply fld_perm).
  split.
  - intros k Hkp. unfold to_raw_json. cbn [cr_proofs cr_json]. destruct ps; [apply Hk|].
    rewrite mget_mset. destruct (String.eqb_spec k "proof"); [contradiction|apply Hk].
  - exists ps. split; [assumption|]. split; [|reflexivity]. unfold to_raw_json. cbn [cr_proofs cr_json].
    destruct ps as [|p [|q ps]].
    + inversion Hpl as [Ha|? Ho|l Ho Hl]; [apply pl_none|].
      * unfold absent in *. now rewrite Hk.
      * apply pl_many. now rewrite Hk.
    + apply pl_one. now rewrite mget_mset, String.eqb_refl.
    + apply pl_many. now rewrite mget_mset, String.eqb_refl.
Qed.
Definition ex_signed : gomap json := mset ex_raw "proof" (JArr [JObj [("type", JStr "A")]]).
Definition ex_venv2 : venv := toyV0 [] [(ex_text, ex_signed)].
Lemma ex_signed_text : json_text ex_venv2 ex_text ex_signed.
Proof.
  exists "1", ex_signed. split; [reflexivity|]. split; [reflexivity|]. split; [apply Permutation_refl|].
  split; [|intros k Hk; revert k Hk; apply Forall_forall; vm_compute; repeat constructor].
  vm_compute. repeat (constructor; [cbn; intuition discriminate|]). constructor.
Qed.
Example C97_example : json_text ex_venv2 ex_text ex_signed /\ co_external toyO = [] /\
  (forall ts, decode_type (fld ex_signed "type") = Ok ts -> ~ In "EnvelopedVerifiableCredential" ts) /\
  exists v, parse_credential ex_venv2 toyO ex_text = Ok v /\ cr_proofs v <> [].
Proof.
  split; [exact ex_signed_text|]. split; [reflexivity|]. split.
  - intros ts H. vm_compute in H. injection H as <-. cbn. intuition discriminate.
  - eexists. split; [vm_compute; reflexivity|discriminate].
Qed.
Print Assumptions C97_raw_json_is_what_was_parsed.

(** ** C98 (refuted)  The "proof" member itself is not kept: an array with one proof comes back as that proof. *)
Theorem C98_proof_array_verbatim_refuted : exists (E : venv) (o : copts) (data : string) (m : gomap json) (v : credential),
  json_text E data m /\ parse_credential E o data = Ok v /\ co_external o = []
  /\ mget m "proof" = Some (JArr [JObj [("type", JStr "A")]])
  /\ mget (to_raw_json v) "proof" = Some (JObj [("type", JStr "A")]).
Proof.
  exists ex_venv2, toyO, ex_text, ex_signed. eexists. split; [exact ex_signed_text|].
  split; [vm_compute; reflexivity|]. repeat split.
Qed.
Print Assumptions C98_proof_array_verbatim_refuted.

(** ** C99  Every WithModified* updates contents and JSON object together and drops proofs and envelopes. *)
(** [consistent]: the JSON object of the credential parses to its contents *)
Definition consistent (E : tenv) (v : credential) : Prop :=
  exists c, parse_contents E (to_raw_json v) false = Ok c /\ same_contents E c (cr_contents v).
(** [modified k v v' c']: [v'] has contents [c'], no proof and no envelope; its JSON object differs from that of [v] only
    in member [k] and in having no "proof"; and it parses back to [c']. *)
Definition modified (E : tenv) (k : string) (v v' : credential) (c' : contents) : Prop :=
  cr_contents v' = c' /\ cr_proofs v' = [] /\ cr_jwt v' = None /\ cr_cwt v' = None
  /\ mget (to_raw_json v') "proof" = None
  /\ (forall k', k' <> k -> k' <> "proof" -> mget (to_raw_json v') k' = mget (cr_json v) k')
  /\ (consistent E v -> consistent E v').
Lemma parse_to_raw E v sd : parse_contents E (to_raw_json v) sd = parse_contents E (cr_json v) sd.
Proof.
  apply parse_contents_agree. intros k Hk. unfold to_raw_json. destruct (cr_proofs v); [reflexivity|].
  apply fld_mget. rewrite mget_mset. destruct (String.eqb_spec k "proof") as [->|]; [|reflexivity].
  exfalso. revert Hk. cbn. intuition discriminate.
Qed.
Lemma modified_upd E k v o c' : k <> "proof" ->
  (forall c0, parse_contents E (cr_json v) false = Ok c0 -> same_contents E c0 (cr_contents v) ->
        exists c, parse_contents E (upd_json (mdel (cr_json v) "proof") k o) false = Ok c /\ same_contents E c c') ->
  modified E k v (plain (upd_json (without_proofs v) k o) c') c'.
Proof.
  intros Hk H. unfold modified. split; [reflexivity|]. split; [reflexivity|]. split; [reflexivity|]. split; [reflexivity|].
  assert (Hc : consistent E v -> consistent E (plain (upd_json (without_proofs v) k o) c')).
  { intros (c0 & Hp & Hs). rewrite parse_to_raw in Hp. exact (H c0 Hp Hs). }
  unfold plain, to_raw_json, without_proofs. cbn [cr_proofs cr_json]. split; [|split; [|assumption]].
  - destruct o; cbn [upd_json].
    + rewrite mget_mset. destruct (String.eqb_spec "proof" k); [congruence|]. now rewrite mget_mdel.
    + rewrite mget_mdel. destruct (String.eqb_spec "proof" k); [congruence|]. now rewrite mget_mdel.
  - intros k' H1 H2. destruct o; cbn [upd_json]; rewrite ?mget_mset, ?mget_mdel.
    + destruct (String.eqb_spec k' k); [contradiction|]. destruct (String.eqb_spec k' "proof"); [contradiction|reflexivity].
    + destruct (String.eqb_spec k' k); [contradiction|]. destruct (String.eqb_spec k' "proof"); [contradiction|reflexivity].
Qed.
Ltac same_set Hs := eexists; split; [reflexivity|];
  unfold same_contents in *; cbn; decompose [and] Hs; repeat split; auto; try congruence;
  try (apply same_opt_refl, same_time_refl).

Theorem C99_id : forall E v s, modified E "id" v (with_id v s) (set_id (cr_contents v) s).
Proof.
  intros E v s. apply modified_upd; [discriminate|]. intros c0 Hp Hs. rewrite (re_id _ _ _ _ Hp). same_set Hs.
Qed.
Theorem C99_context : forall E v l, (l <> [] \/ vc_custom_ctx (cr_contents v) <> []) ->
  (forall j r, vc_custom_ctx (cr_contents v) = j :: r -> ~ is_string j) ->
  modified E "@context" v (with_context v l) (set_context (cr_contents v) l).
Proof.
  intros E v l H1 H2. apply modified_upd; [discriminate|]. intros c0 Hp Hs.
  assert (Hcc : vc_custom_ctx (cr_contents v) = vc_custom_ctx c0) by (symmetry; apply Hs). rewrite Hcc in *.
  rewrite (re_context _ _ _ _ Hp) by assumption. same_set Hs.
Qed.
(** nil statuses are ignored *)
Definition present {A} (l : list (option A)) : list A := flat_map (fun o => match o with Some x => [x] | None => [] end) l.
Lemma somes_present {A} (l : list (option A)) : somes l = present l.
Proof. induction l as [|[x|] l IH]; cbn; [reflexivity| |]; unfold somes in *; now rewrite IH. Qed.
Theorem C99_status : forall E v l,
  (forall t, In (Some t) l -> no_key "id" (ti_custom t) /\ no_key "type" (ti_custom t)) ->
  modified E "credentialStatus" v (with_status v l) (set_status (cr_contents v) (present l)).
Proof.
  intros E v l H. unfold with_status. rewrite somes_present. apply modified_upd; [discriminate|]. intros c0 Hp Hs.
  rewrite (re_status _ _ _ _ Hp); [same_set Hs|]. intros t Ht. apply H. unfold present in Ht. apply in_flat_map in Ht as (x & Hx & Ht).
  destruct x; [destruct Ht as [<-|[]]; assumption|destruct Ht].
Qed.
Theorem C99_refresh : forall E v r, (forall t, r = Some t -> no_key "id" (ti_custom t) /\ no_key "type" (ti_custom t)) ->
  modified E "refreshService" v (with_refresh v r) (set_refresh (cr_contents v) r).
Proof.
  intros E v x Hx. apply modified_upd; [discriminate|]. intros c0 Hp Hs. rewrite (re_refresh _ _ _ _ Hp) by auto. same_set Hs.
Qed.
Theorem C99_issuer : forall E v i, (forall x, i = Some x -> is_id x <> "" /\ no_key "id" (is_custom x)) ->
  modified E "issuer" v (with_issuer v i) (set_issuer (cr_contents v) i).
Proof.
  intros E v x Hx. apply modified_upd; [discriminate|]. intros c0 Hp Hs. rewrite (re_issuer _ _ _ _ Hp) by auto. same_set Hs.
Qed.
Theorem C99_subject : forall E v l, (forall s, In s l -> no_key "id" (sj_custom s)) ->
  modified E "credentialSubject" v (with_subject v l) (set_subject (cr_contents v) l).
Proof.
  intros E v x Hx. apply modified_upd; [discriminate|]. intros c0 Hp Hs. rewrite (re_subject _ _ _ _ Hp) by auto. same_set Hs.
Qed.
Lemma seen_issued E c0 c t : same_contents E c0 c -> same_contents E (set_issued c0 (seen_time E t)) (set_issued c t).
Proof.
  unfold same_contents, set_issued; cbn. intros Hs. decompose [and] Hs. repeat split; auto; apply text_same.
Qed.
Lemma seen_expired E c0 c t : same_contents E c0 c -> same_contents E (set_expired c0 (seen_time E t)) (set_expired c t).
Proof.
  unfold same_contents, set_expired; cbn. intros Hs. decompose [and] Hs. repeat split; auto; apply text_same.
Qed.
Theorem C99_issued : forall E v t, good_time E t ->
  modified E "issuanceDate" v (with_issued E v t) (set_issued (cr_contents v) t).
Proof.
  intros E v t Hg. apply (modified_upd E "issuanceDate" v (Some _)); [discriminate|]. intros c0 Hp Hs.
  rewrite (re_issued _ _ _ _ Hp) by assumption. eexists; split; [reflexivity|now apply seen_issued].
Qed.
Theorem C99_expired : forall E v t, good_time E t ->
  modified E "expirationDate" v (with_expired E v t) (set_expired (cr_contents v) t).
Proof.
  intros E v t Hg. apply (modified_upd E "expirationDate" v (Some _)); [discriminate|]. intros c0 Hp Hs.
  rewrite (re_expired _ _ _ _ Hp) by assumption. eexists; split; [reflexivity|now apply seen_expired].
Qed.
Theorem C99_valid_from : forall E v t, good_time E t -> absent (cr_json v) "issuanceDate" ->
  modified E "validFrom" v (with_valid_from E v t) (set_issued (cr_contents v) t).
Proof.
  intros E v t Hg Ha. apply (modified_upd E "validFrom" v (Some _)); [discriminate|]. intros c0 Hp Hs.
  rewrite (re_from _ _ _ _ Hp) by assumption. eexists; split; [reflexivity|now apply seen_issued].
Qed.
Theorem C99_valid_until : forall E v t, good_time E t -> absent (cr_json v) "expirationDate" ->
  modified E "validUntil" v (with_valid_until E v t) (set_expired (cr_contents v) t).
Proof.
  intros E v t Hg Ha. apply (modified_upd E "validUntil" v (Some _)); [discriminate|]. intros c0 Hp Hs.
  rewrite (re_until _ _ _ _ Hp) by assumption. eexists; split; [reflexivity|now apply seen_expired].
Qed.
Definition ex_v1 : credential :=
  match parse_credential ex_venv toyO ex_text with Ok v => v | _ => plain [] ex_contents end.
Example C99_example : (exists c, parse_contents toyT (to_raw_json ex_v1) false = Ok c /\ c = cr_contents ex_v1)
  /\ good_time toyT {| tw_time := of_unix 30; tw_str := "" |}
  /\ absent (cr_json ex_v1) "validFrom"
  /\ mget (to_raw_json (with_id ex_v1 "")) "id" = None
  /\ mget (to_raw_json (with_issued toyT ex_v1 {| tw_time := of_unix 30; tw_str := "" |})) "issuanceDate" = Some (JStr "T30").
Proof. split; [eexists; split; vm_compute; reflexivity|]. repeat split; vm_compute; auto. Qed.
Print Assumptions C99_id.
Print Assumptions C99_context.
Print Assumptions C99_status.
Print Assumptions C99_refresh.
Print Assumptions C99_issuer.
Print Assumptions C99_subject.
Print Assumptions C99_issued.
Print Assumptions C99_expired.
Print Assumptions C99_valid_from.
Print Assumptions C99_valid_until.

(** ** C100 (refuted)  WithModifiedValidFrom / WithModifiedValidUntil always take effect: on a credential that carries
    issuanceDate (expirationDate), the typed contents get the new time but the JSON form still means the old one. *)
Theorem C100_valid_from_shadowed_refuted : forall E v t s old,
  parse_contents E (cr_json v) false = Ok (cr_contents v) -> mget (cr_json v) "issuanceDate" = Some (JStr s) ->
  vc_issued (cr_contents v) = Some old ->
  vc_issued (cr_contents (with_valid_from E v t)) = Some t
  /\ exists c, parse_contents E (to_raw_json (with_valid_from E v t)) false = Ok c /\ vc_issued c = Some old.
Proof.
  intros E v t s old Hp Hm Ho. split; [reflexivity|]. exists (cr_contents v). split; [|assumption].
  unfold with_valid_from, with_time, plain, to_raw_json. cbn [cr_proofs cr_json].
  change (mset (without_proofs v) "validFrom" (JStr (format_time E t)))
    with (upd_json (mdel (cr_json v) "proof") "validFrom" (Some (JStr (format_time E t)))).
  pose proof (upd_differs (cr_json v) "validFrom" (Some (JStr (format_time E t)))) as Hd.
  reparse Hd. rewrite (time_fld_ext _ (cr_json v)) by (apply Hd; discriminate).
  assert (Hf : fld (cr_json v) "issuanceDate" = Some (JStr s)) by (unfold fld; now rewrite Hm).
  unfold parse_time_fld in P11 |- *. rewrite Hf in P11 |- *.
  destruct (parse_wrapper E s); try discriminate. exact P11.
Qed.
Theorem C100_valid_until_shadowed_refuted : forall E v t s old,
  parse_contents E (cr_json v) false = Ok (cr_contents v) -> mget (cr_json v) "expirationDate" = Some (JStr s) ->
  vc_expired (cr_contents v) = Some old ->
  vc_expired (cr_contents (with_valid_until E v t)) = Some t
  /\ exists c, parse_contents E (to_raw_json (with_valid_until E v t)) false = Ok c /\ vc_expired c = Some old.
Proof.
  intros E v t s old Hp Hm Ho. split; [reflexivity|]. exists (cr_contents v). split; [|assumption].
  unfold with_valid_until, with_time, plain, to_raw_json. cbn [cr_proofs cr_json].
  change (mset (without_proofs v) "validUntil" (JStr (format_time E t)))
    with (upd_json (mdel (cr_json v) "proof") "validUntil" (Some (JStr (format_time E t)))).
  pose proof (upd_differs (cr_json v) "validUntil" (Some (JStr (format_time E t)))) as Hd.
  reparse Hd. rewrite (time_fld_ext _ (cr_json v)) by (apply Hd; discriminate).
  assert (Hf : fld (cr_json v) "expirationDate" = Some (JStr s)) by (unfold fld; now rewrite Hm).
  unfold parse_time_fld in P12 |- *. rewrite Hf in P12 |- *.
  destruct (parse_wrapper E s); try discriminate. exact P12.
Qed.
Example C100_example : parse_contents toyT (cr_json ex_v1) false = Ok (cr_contents ex_v1)
  /\ mget (cr_json ex_v1) "issuanceDate" = Some (JStr "T7")
  /\ vc_issued (cr_contents ex_v1) = Some {| tw_time := of_unix 7; tw_str := "T7" |}
  /\ mget (cr_json ex_v1) "expirationDate" = Some (JStr "T012").
Proof. repeat split; vm_compute; auto. Qed.
Print Assumptions C100_valid_from_shadowed_refuted.
Print Assumptions C100_valid_until_shadowed_refuted.

(** ** C101  Data URLs. *)
Definition comma : ascii := ","%char.
Definition semi : ascii := ";"%char.
Lemma str_index_one c s : str_index (String c "") s =
  match s with "" => None | String d s' => if Ascii.eqb c d then Some 0%nat else option_map S (str_index (String c "") s') end.
Proof. destruct s as [|d s]; cbn; [reflexivity|]. destruct (Ascii.eqb c d); cbn; [now destruct s|reflexivity]. Qed.
Lemma str_index_split c s : forall i, str_index (String c "") s = Some i ->
  s = str_take i s ++ String c (str_drop (S i) s) /\ ~ char_in c (str_take i s).
Proof.
  induction s as [|d s IH]; intros i H; rewrite str_index_one in H; [discriminate|].
  destruct (Ascii.eqb_spec c d) as [->|Hne].
  - injection H as <-. cbn. split; [reflexivity|intros []].
  - destruct (str_index (String c "") s) as [j|] eqn:Ej; [|discriminate]. injection H as <-.
    destruct (IH j eq_refl) as [H1 H2]. split; [cbn; cbn in H1; now rewrite <- H1|].
    unfold char_in in *. cbn. intros [Hc|Hc]; [congruence|contradiction].
Qed.
Lemma str_index_none c s : str_index (String c "") s = None -> ~ char_in c s.
Proof.
  induction s as [|d s IH]; intros H; rewrite str_index_one in H; [intros []|].
  destruct (Ascii.eqb_spec c d); [discriminate|]. destruct (str_index (String c "") s); [discriminate|].
  unfold char_in in *. cbn. intros [Hc|Hc]; [congruence|]. now apply IH.
Qed.
Lemma str_index_app c a b : ~ char_in c a -> str_index (String c "") (a ++ String c b) = Some (String.length a).
Proof.
  induction a as [|d a IH]; intros H; rewrite str_index_one; cbn.
  - now rewrite Ascii.eqb_refl.
  - unfold char_in in H; cbn in H. destruct (Ascii.eqb_spec c d) as [->|]; [exfalso; apply H; now left|].
    rewrite IH; [reflexivity|]. intros Hc. apply H. now right.
Qed.
Lemma str_take_app a b : str_take (String.length a) (a ++ b) = a.
Proof. induction a; cbn; [now destruct b|]. now rewrite IHa. Qed.
Lemma str_drop_app a c b : str_drop (S (String.length a)) (a ++ String c b) = b.
Proof. induction a; cbn; [now destruct b|exact IHa]. Qed.
Lemma str_index_absent c a : ~ char_in c a -> str_index (String c "") a = None.
Proof.
  induction a as [|d a IH]; intros H; rewrite str_index_one; [reflexivity|].
  unfold char_in in H; cbn in H. destruct (Ascii.eqb_spec c d) as [->|]; [exfalso; apply H; now left|].
  rewrite IH; [reflexivity|]. intros Hc. apply H. now right.
Qed.
Lemma char_in_app c a b : char_in c (a ++ b) <-> char_in c a \/ char_in c b.
Proof. unfold char_in. induction a as [|d a IH]; cbn; [tauto|]. rewrite IH. tauto. Qed.

Lemma drop5 x : str_drop 5 ("data:" ++ x) = x.
Proof. reflexivity. Qed.
Theorem C101_data_url_round_trip : forall media enc data,
  media <> "" -> ~ char_in comma media -> ~ char_in semi media -> ~ char_in comma enc ->
  parse_data_url (new_data_url media enc data) = Ok (media, enc, data).
Proof.
  intros media enc data Hne Hc Hs Hce. unfold new_data_url.
  destruct (String.eqb_spec enc "") as [->|He]; unfold parse_data_url.
  - change ("data:" ++ media ++ "," ++ data) with ("data:" ++ (media ++ String comma data)).
    rewrite has_prefix_app, drop5. cbn [negb].
    rewrite (str_index_app comma) by assumption. rewrite str_take_app.
    destruct (String.eqb_spec media ""); [contradiction|]. rewrite str_drop_app, (str_index_absent semi) by assumption. reflexivity.
  - change ("data:" ++ media ++ ";" ++ enc ++ "," ++ data) with ("data:" ++ (media ++ String semi (enc ++ String comma data))).
    rewrite has_prefix_app, drop5. cbn [negb].
    change (media ++ String semi (enc ++ String comma data)) with (media ++ (String semi enc) ++ String comma data).
    rewrite <- append_assoc_s. rewrite (str_index_app comma).
    + rewrite str_take_app. destruct (String.eqb_spec (media ++ String semi enc) "") as [Hx|]; [destruct media; [contradiction|discriminate]|].
      rewrite str_drop_app, (str_index_app semi), str_take_app, str_drop_app by assumption. reflexivity.
    + rewrite char_in_app. intros [|Hx]; [contradiction|]. unfold char_in in *. cbn in Hx. destruct Hx as [Hx|]; [discriminate|contradiction].
Qed.
(** every accepted URL has the shape data:<media>[;<encoding>],<data> *)
Theorem C101_data_url_shape : forall url media enc data, parse_data_url url = Ok (media, enc, data) ->
  ~ char_in semi media /\
  ((url = "data:" ++ media ++ "," ++ data /\ enc = "" /\ media <> "" /\ ~ char_in comma media)
   \/ (url = "data:" ++ media ++ ";" ++ enc ++ "," ++ data /\ ~ char_in comma media /\ ~ char_in comma enc)).
Proof.
  intros url media enc data H. unfold parse_data_url in H.
  destruct (has_prefix "data:" url) eqn:Ep; [|discriminate]. cbn [negb] in H.
  apply has_prefix_inv in Ep as (u & ->). rewrite drop5 in H.
  destruct (str_index "," u) as [i|] eqn:Ei; [|discriminate].
  apply (str_index_split comma) in Ei as [Hu Hc].
  destruct (String.eqb_spec (str_take i u) ""); [discriminate|].
  destruct (str_index ";" (str_take i u)) as [j|] eqn:Ej; injection H as <- <- <-.
  - apply (str_index_split semi) in Ej as [Hf Hs].
    split; [assumption|]. right. rewrite Hf in Hc. rewrite char_in_app in Hc.
    assert (Hc2 : ~ char_in comma (str_drop (S j) (str_take i u))).
    { intros Hx. apply Hc. right. unfold char_in in *. cbn [list_ascii_of_string In]. now right. }
    repeat split; [|tauto|assumption].
    rewrite Hu at 1. rewrite Hf at 1. rewrite append_assoc_s. reflexivity.
  - split; [now apply str_index_none|]. left. repeat split; auto. now rewrite Hu at 1.
Qed.
Example C101_example :
  parse_data_url (new_data_url "application/vc-ld+jwt" "base64" "a,b;c") = Ok ("application/vc-ld+jwt", "base64", "a,b;c")
  /\ is_err (parse_data_url "data:,x") = true /\ is_err (parse_data_url "http://x") = true.
Proof. repeat split. Qed.
Print Assumptions C101_data_url_round_trip.
Print Assumptions C101_data_url_shape.

(** ** C102  Times keep their text: ParseTimeWrapper then FormatToString gives the text back, zone and fraction included;
    the instant is that of the text, read as UTC when it has no zone. *)
Theorem C102_times_keep_their_text : forall E s t, parse_wrapper E s = Ok t ->
  denotes E s (tw_time t) /\ (s <> "" -> format_time E t = s) /\ parse_wrapper E (tw_str t) = Ok t.
Proof.
  intros E s t H. pose proof (parse_wrapper_in E s t H) as [Hs Hd]. subst s. split; [assumption|]. split; [|assumption].
  intros Hne. unfold format_time. destruct (String.eqb_spec (tw_str t) ""); [contradiction|reflexivity].
Qed.
(** accepted texts are exactly those that denote an instant *)
Theorem C102_accepts : forall E s, (exists t, parse_wrapper E s = Ok t) <-> (exists x, denotes E s x).
Proof.
  intros E s. unfold parse_wrapper, denotes. destruct (te_parse E s) as [x|] eqn:E1.
  - split; eauto.
  - destruct (te_parse E (s ++ "Z")) as [x|] eqn:E2; split; eauto.
    + intros (t & H). discriminate.
    + intros (x & [H|[_ H]]); congruence.
Qed.
Example C102_example : exists t, parse_wrapper toyT "T007" = Ok t /\ format_time toyT t = "T007" /\ tw_time t = of_unix 7.
Proof. eexists. split; [reflexivity|]. split; reflexivity. Qed.
Print Assumptions C102_times_keep_their_text.
Print Assumptions C102_accepts.
