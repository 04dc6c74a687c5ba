(** Property theorems for presentation exchange: filters, merge, Match, path compaction, limited disclosure. *)
From Verif Require Import GoBase ReqSpec PexSpec PexModel PexProofs StrLemmas PexMerge PexMatch PexCompact PexPath PexLimit.

(** ** C12: the descriptor map points at the credentials that matched.
    [table]: descriptor id -> matched credentials; [result]: the credentials of the presentation; the map that is
    sent is some permutation of [maps]. *)
Theorem C12_merge : forall fmt table separate result maps,
  NoDup (map fst table) -> uid_identifies table -> merge fmt table separate = (result, maps) ->
  (* one entry for each match *)
  List.length maps = total table /\
  (* every entry selects a credential that matched its descriptor *)
  (forall m, In m maps -> exists d l cw i, In (d, l) table /\ In cw l /\
     m = entry fmt separate d (cw_vc cw) i /\ nth_error result i = Some (cw_vc cw)) /\
  (* every match is present and pointed at *)
  (forall d l cw, In (d, l) table -> In cw l -> exists i, nth_error result i = Some (cw_vc cw) /\
     In (entry fmt separate d (cw_vc cw) i) maps) /\
  (* nothing else is included, and no unique id is included twice *)
  (forall i c, nth_error result i = Some c -> exists d l cw, In (d, l) table /\ In cw l /\ cw_vc cw = c) /\
  (exists uids, NoDup uids /\
     Forall2 (fun u c => exists d l cw, In (d, l) table /\ In cw l /\ cw_uid cw = u /\ cw_vc cw = c) uids result).
Proof.
  intros fmt table separate result maps Hnd Hu Hm.
  destruct (merge_spec fmt table separate result maps Hnd Hm) as (H1 & _ & _ & H4 & H5).
  destruct (merge_entries fmt separate table result maps Hnd Hu Hm) as [M1 M2]. auto.
Qed.
Definition mini_cred (id : string) (types : list string) : cred :=
  {| c_id := id; c_issuer := None; c_subject_ids := []; c_proof_types := []; c_jwt := false; c_alg := None;
     c_contexts := ["ctx"]; c_types := types; c_src := Some [("type", JArr (map JStr types))] |}.
Definition wrap (c : cred) : credw := {| cw_uid := c_id c; cw_vc := c |}.
Example C12_example :
  let a := mini_cred "a" ["A"] in let b := mini_cred "b" ["B"] in
  let table := [("d2", [wrap b; wrap a]); ("d1", [wrap a])] in
  uid_identifies table /\ fst (merge "ldp_vp" table false) = [a; b] /\
  map (fun m => (m_id m, option_map m_path (m_nested m))) (snd (merge "ldp_vp" table false)) =
    [("d1", Some "$.verifiableCredential[0]"); ("d2", Some "$.verifiableCredential[1]"); ("d2", Some "$.verifiableCredential[0]")].
Proof.
  cbv zeta. split; [|split; vm_compute; reflexivity].
  intros d l cw d' l' cw' [[= <- <-]|[[= <- <-]|[]]] H2 [[= <- <-]|[[= <- <-]|[]]] H4 E;
    repeat (match goal with H : In _ (_ :: _) |- _ => destruct H as [<-|H] | H : In _ [] |- _ => destruct H end);
    first [reflexivity|vm_compute in E; discriminate E].
Qed.
(** Without that premise (credentials sharing an id, e.g. both without id) the entry of the second one points at the
    first, and the second one is not included. *)
Theorem C49_same_id_refuted : exists table a b, NoDup (map fst table) /\ a <> b /\
  table = [("d1", [wrap a]); ("d2", [wrap b])] /\
  merge "ldp_vp" table false = ([a], [entry "ldp_vp" false "d1" a 0; entry "ldp_vp" false "d2" b 0]).
Proof.
  exists [("d1", [wrap (mini_cred "" ["A"])]); ("d2", [wrap (mini_cred "" ["B"])])], (mini_cred "" ["A"]), (mini_cred "" ["B"]).
  split; [repeat constructor; cbn; intuition discriminate|]. split; [discriminate|]. split; reflexivity.
Qed.
Print Assumptions C12_merge.
Print Assumptions C49_same_id_refuted.

(** ** C13: Match with the real filters.
    [select] is the JSONPath selection + ParseCredential; [load]/[type_ids] the JSON-LD context oracle. *)
Section Real.
  Variable ctx : Type.
  Variable load : string -> res ctx.
  Variable type_ids : ctx -> string -> option (list string).
  Variable jp_parse : string -> option (json -> list json).
  Variable validate : jschema -> json -> bool.
  Variable rfc3339 : string -> option Z.
  Variable order : list (string * string).
  Definition real_schema := filter_schema ctx load type_ids.
  Definition real_constraints := filter_constraints jp_parse validate rfc3339 order.
  Definition real_match select disable descs nvps merged vps :=
    pex_match select real_schema real_constraints disable descs nvps merged vps.
  (** A constraints object of plain fields is satisfied. *)
  Definition satisfies (o : option constraints) (c : cred) : Prop :=
    forall cs, o = Some cs -> Forall plain_field (cs_fields cs) -> cs_fields cs <> [] ->
      cred_holds jp_parse validate rfc3339 (jwt_path order) convert_rfc9535 cs c.
  Definition C13_statement := forall select disable descs nvps merged vps r,
    real_match select disable descs nvps merged vps = Ok r ->
    (* every input descriptor is answered *)
    (forall d, In d descs -> exists v, In v r /\ mv_desc v = d_id d) /\
    (* every answer comes from a submitted presentation and passed the filters of its descriptor *)
    (forall v, In v r -> exists i p l m d, nth_error vps i = Some p /\ vp_context_ok p = true /\ mv_pres v = vp_id p /\
       maps_of_vp merged i p = Ok l /\ In (Some m) l /\ select (root_of i m) m = Ok (mv_cred v) /\
       In d descs /\ d_id d = mv_desc v /\ m_id m = mv_desc v /\
       (disable = false -> schemas_ok ctx load type_ids (d_schema d) (mv_cred v)) /\
       satisfies (d_constraints d) (mv_cred v)) /\
    (* every mapping used names an existing descriptor *)
    (forall i p l m, nth_error vps i = Some p -> maps_of_vp merged i p = Ok l -> In (Some m) l ->
       exists d, In d descs /\ d_id d = m_id m).

  Lemma filter_one_constraints o c c' : real_constraints o [c] = Ok [c'] -> c' = c /\ satisfies o c.
  Proof.
    unfold real_constraints, filter_constraints, satisfies. destruct o as [cs|].
    - intros H. assert (E : c' = c).
      { cbn [filter_constraints_loop] in H. destruct (_ && _)%bool; [discriminate|]. destruct (c_src c); [|discriminate].
        destruct (fields_applicable _ _ _ _ _ _ _ _) as [[]|e|]; cbn in H; congruence. }
      split; [exact E|]. subst c'. intros cs' [= <-] HF Hne.
      pose proof (filter_constraints_spec jp_parse validate rfc3339 order cs [c] HF Hne) as Hs. rewrite H in Hs.
      inversion Hs as [|x l l' Hx Hr|x l l' Hx Hr]; subst; [assumption|inversion Hr].
    - intros [= <-]. split; [reflexivity|discriminate].
  Qed.
  Lemma filter_one_schema schemas c l : real_schema schemas [c] = Ok l -> l <> [] -> schemas_ok ctx load type_ids schemas c.
  Proof.
    intros H Hne. unfold real_schema, filter_schema in H.
    assert (Hc : cache_ok ctx load []) by (intros x y; discriminate).
    pose proof (filter_schema_loop_spec ctx load type_ids schemas [c] [] Hc) as Hs. rewrite H in Hs. destruct Hs as [_ Hs].
    inversion Hs as [|x k k' Hx Hr|x k k' Hx Hr]; subst; [assumption|]. inversion Hr; subst. congruence.
  Qed.
  Lemma in_combine_nth {A} (l : list A) : forall k i x, In (i, x) (combine (seq k (List.length l)) l) ->
    exists j, i = (k + j)%nat /\ nth_error l j = Some x.
  Proof.
    induction l as [|y l IH]; intros k i x H; cbn in H; [destruct H|]. destruct H as [[= <- <-]|H]; [exists 0%nat; split; [lia|reflexivity]|].
    apply IH in H as (j & -> & Hj). exists (S j). split; [lia|assumption].
  Qed.
  Lemma nth_in_combine {A} (l : list A) : forall k j x, nth_error l j = Some x -> In ((k + j)%nat, x) (combine (seq k (List.length l)) l).
  Proof.
    induction l as [|y l IH]; intros k j x H; destruct j; cbn in *; try discriminate.
    - injection H as ->. left. f_equal. lia.
    - right. replace (k + S j)%nat with (S k + j)%nat by lia. now apply IH.
  Qed.

  Lemma C13_proof : C13_statement.
  Proof.
    intros select disable descs nvps merged vps r H. unfold real_match in H.
    apply pex_match_ok in H as (Hcov & vss & -> & F). split; [exact Hcov|]. split.
    - intros v Hv. apply in_concat in Hv as (vs & Hvs & Hv). destruct (Forall2_In_r _ _ _ _ F Hvs) as ([i p] & Hip & (l & A & B & C)).
      cbn [fst snd] in *. apply in_combine_nth in Hip as (j & -> & Hj). cbn [Nat.add] in *.
      destruct (Forall2_In_r _ _ _ _ C Hv) as (om & Hom & (m & -> & (d & c & D1 & D2 & D3 & D4 & D5 & D6 & D7))).
      apply filter_one_constraints in D5 as [D5 D8]. exists j, p, l, m, d. rewrite D5.
      repeat (split; [congruence || assumption|]). split; [|exact D8].
      intros Hd. destruct (D4 Hd) as (k & K1 & K2). eapply filter_one_schema; eassumption.
    - intros i p l m Hi Hl Hm. pose proof (nth_in_combine vps 0 i p Hi) as Hin. cbn [Nat.add] in Hin.
      destruct (Forall2_In_l _ _ _ _ F Hin) as (vs & _ & (l' & _ & B & C)). cbn [fst snd] in *.
      rewrite Hl in B. injection B as <-. destruct (Forall2_In_l _ _ _ _ C Hm) as (v & _ & (m' & [= <-] & (d & c & D1 & D2 & _))). eauto.
  Qed.

  (** Descriptors without schemas (v2) are never matched unless schema validation is disabled. *)
  Lemma no_schema_no_match select descs nvps merged vps r v :
    real_match select false descs nvps merged vps = Ok r -> In v r ->
    exists d, In d descs /\ d_id d = mv_desc v /\ d_schema d <> [].
  Proof.
    intros H Hv. destruct (C13_proof select false descs nvps merged vps r H) as (_ & H2 & _).
    destruct (H2 v Hv) as (i & p & l & m & d & _ & _ & _ & _ & _ & _ & D1 & D2 & _ & D3 & _).
    exists d. repeat (split; [assumption|]). destruct (D3 eq_refl) as [_ (s & Hs & _)]. intros E. rewrite E in Hs. destruct Hs.
  Qed.
End Real.
Theorem C13_match : forall ctx load type_ids jp_parse validate rfc3339 order,
  C13_statement ctx load type_ids jp_parse validate rfc3339 order.
Proof. exact C13_proof. Qed.
Definition ex_descs := [{| d_id := "d1"; d_schema := [{| sc_uri := "A"; sc_required := true |}]; d_constraints := None |};
                        {| d_id := "d2"; d_schema := [{| sc_uri := "B"; sc_required := false |}]; d_constraints := None |}].
Definition ex_sel (r : root) (m : mapping) : res cred :=
  match m_nested m with
  | Some n => if String.eqb (m_path n) "$.verifiableCredential[0]" then Ok (mini_cred "a" ["A"]) else Ok (mini_cred "b" ["B"])
  | None => Err "path"
  end.
Definition ex_match disable merged vps :=
  real_match unit (fun _ => Ok tt) (fun _ t => Some [t]) (fun _ => None) (fun _ _ => true) (fun _ => None) replacements
    ex_sel disable ex_descs (List.length vps) merged vps.
Example C13_example :
  let vpx := {| vp_id := "vp"; vp_context_ok := true;
                vp_map := Ok [Some (entry "ldp_vp" false "d1" (mini_cred "a" ["A"]) 0); Some (entry "ldp_vp" false "d2" (mini_cred "b" ["B"]) 1)] |} in
  ex_match false None [vpx] =
    Ok [{| mv_pres := "vp"; mv_cred := mini_cred "a" ["A"]; mv_desc := "d1" |};
        {| mv_pres := "vp"; mv_cred := mini_cred "b" ["B"]; mv_desc := "d2" |}].
Proof. vm_compute. reflexivity. Qed.
Print Assumptions C13_match.

(** ** C14 *)
Theorem C14_create_then_match_single : forall select f_schema f_constraints disable descs fmt table result maps maps' pid,
  good_table f_schema f_constraints disable descs table ->
  merge fmt table false = (result, maps) -> Permutation maps maps' ->
  (forall d c i, nth_error result i = Some c -> select (RootVP 0) (entry fmt false d c i) = Ok c) ->
  exists r, pex_match select f_schema f_constraints disable descs 1 None
              [{| vp_id := pid; vp_context_ok := true; vp_map := Ok (map Some maps') |}] = Ok r /\
    forall id c, (exists v, In v r /\ mv_desc v = id /\ mv_cred v = c) <->
                 (exists l cw, In (id, l) table /\ In cw l /\ cw_vc cw = c).
Proof. exact create_then_match_single. Qed.
Theorem C14_create_then_match_array : forall select f_schema f_constraints disable descs fmt table result maps maps' vps,
  good_table f_schema f_constraints disable descs table ->
  merge fmt table true = (result, maps) -> Permutation maps maps' ->
  List.length vps = List.length result -> Forall (fun v => vp_context_ok v = true) vps ->
  Z.of_nat (List.length result) < 2^63 ->
  (forall d c i, nth_error result i = Some c -> select (RootList i) (entry fmt true d c i) = Ok c) ->
  exists r, pex_match select f_schema f_constraints disable descs (List.length vps) (Some (map Some maps')) vps = Ok r /\
    (forall id c, (exists v, In v r /\ mv_desc v = id /\ mv_cred v = c) <->
                  (exists l cw, In (id, l) table /\ In cw l /\ cw_vc cw = c)) /\
    (forall v, In v r -> exists i p, nth_error vps i = Some p /\ mv_pres v = vp_id p /\ nth_error result i = Some (mv_cred v)).
Proof. exact create_then_match_array. Qed.
(** Whatever the submission requirements say, Match rejects a submission that leaves a descriptor out. *)
Theorem C50_covers_all : forall select f_schema f_constraints disable descs nvps merged vps d r,
  In d descs -> pex_match select f_schema f_constraints disable descs nvps merged vps = Ok r ->
  exists v, In v r /\ mv_desc v = d_id d.
Proof. intros until r. intros Hd H. apply pex_match_ok in H as [H _]. now apply H. Qed.
(** So a submission that meets `pick 1 of A, B` is rejected. *)
Theorem C50_pick_refuted : exists descs reqs vpx,
  definition_met [{| id_id := "d1"; id_group := ["G"] |}; {| id_id := "d2"; id_group := ["G"] |}] reqs
     (fun x => str_in x ["d1"]) = true /\
  map d_id descs = ["d1"; "d2"] /\
  real_match unit (fun _ => Ok tt) (fun _ t => Some [t]) (fun _ => None) (fun _ _ => true) (fun _ => None) replacements
    ex_sel false descs 1 None [vpx] = Err "failed submission requirements".
Proof.
  exists ex_descs, [SR false 1 0 0 "G" []],
    {| vp_id := "vp"; vp_context_ok := true; vp_map := Ok [Some (entry "ldp_vp" false "d1" (mini_cred "a" ["A"]) 0)] |}.
  repeat split; vm_compute; reflexivity.
Qed.
Example C14_example : let a := mini_cred "a" ["A"] in let b := mini_cred "b" ["B"] in
  let table := [("d2", [wrap b]); ("d1", [wrap a])] in
  good_table (real_schema unit (fun _ => Ok tt) (fun _ t => Some [t]))
    (real_constraints (fun _ => None) (fun _ _ => true) (fun _ => None) replacements) false ex_descs table.
Proof.
  cbv zeta. split; [repeat constructor; cbn; intuition discriminate|]. split; [repeat constructor; cbn; intuition discriminate|].
  split; [|split].
  - intros d l cw d' l' cw' [[= <- <-]|[[= <- <-]|[]]] H2 [[= <- <-]|[[= <- <-]|[]]] H4 E;
    repeat (match goal with H : In _ (_ :: _) |- _ => destruct H as [<-|H] | H : In _ [] |- _ => destruct H end);
    first [reflexivity|vm_compute in E; discriminate E].
  - intros d [<-|[<-|[]]]; eexists; (split; [first [left; reflexivity|right; left; reflexivity]|discriminate]).
  - intros id l cw [[= <- <-]|[[= <- <-]|[]]] [<-|[]].
    + exists (nth 1 ex_descs (nth 0 ex_descs {| d_id := ""; d_schema := []; d_constraints := None |})). split; [right; now left|].
      split; [reflexivity|]. split; [|reflexivity]. eexists. split; [vm_compute; reflexivity|]. left. discriminate.
    + exists (nth 0 ex_descs {| d_id := ""; d_schema := []; d_constraints := None |}). split; [now left|].
      split; [reflexivity|]. split; [|reflexivity]. eexists. split; [vm_compute; reflexivity|]. left. discriminate.
Qed.
Print Assumptions C14_create_then_match_single.
Print Assumptions C14_create_then_match_array.
Print Assumptions C50_covers_all.
Print Assumptions C50_pick_refuted.

(** ** C15 *)
Theorem C15_constraints : forall jp_parse validate rfc3339 order cs creds,
  Forall plain_field (cs_fields cs) -> cs_fields cs <> [] ->
  match filter_constraints jp_parse validate rfc3339 order (Some cs) creds with
  | Ok l => selects (cred_holds jp_parse validate rfc3339 (jwt_path order) convert_rfc9535 cs) creds l
  | Err e => exists c doc f, In c creds /\ c_src c = Some doc /\ In f (cs_fields cs) /\
               forall p, In p (fd_paths f) -> malformed jp_parse order (c_jwt c) doc p
  | Panic => False
  end.
Proof. intros. now apply filter_constraints_spec. Qed.
Theorem C15_no_constraints : forall jp_parse validate rfc3339 order creds,
  filter_constraints jp_parse validate rfc3339 order None creds = Ok creds.
Proof. reflexivity. Qed.
Definition ex_filter (t : option string) (all : list json) : jfilter :=
  {| ft_type := t; ft_format := ""; ft_min := None; ft_rest := JNull; ft_allof := all |}.
Definition ex_jp (p : string) : option (json -> list json) :=
  if String.eqb p "$.type" then Some (fun j => match j with JObj m => match mget m "type" with Some v => [v] | None => [] end | _ => [] end) else None.
Example C15_example : let f := {| fd_paths := ["bad"; "$.type"]; fd_filter := Some (ex_filter (Some "array") []); fd_optional := false |} in
  let cs := {| cs_subject_is_issuer := false; cs_limit := false; cs_fields := [f] |} in
  let v s j := match s, j with SBase _, JArr [JStr "A"] => true | _, _ => false end in
  plain_field f /\
  filter_constraints ex_jp v (fun _ => None) replacements (Some cs) [mini_cred "a" ["A"]; mini_cred "b" ["B"]; mini_cred "c" ["A"]]
   = Ok [mini_cred "a" ["A"]; mini_cred "c" ["A"]].
Proof. cbv zeta. split; [split; [discriminate|split; [discriminate|reflexivity]]|vm_compute; reflexivity]. Qed.
(** A constraints object without fields (e.g. only subject_is_issuer) keeps nothing. *)
Theorem C51_no_fields_refuted : forall jp_parse validate rfc3339 order sii lim creds,
  filter_constraints jp_parse validate rfc3339 order
    (Some {| cs_subject_is_issuer := sii; cs_limit := lim; cs_fields := [] |}) creds = Ok [].
Proof.
  intros. cbn [filter_constraints]. induction creds as [|c cs IH]; [reflexivity|]. cbn [filter_constraints_loop cs_subject_is_issuer cs_fields].
  destruct (_ && _)%bool; [exact IH|]. destruct (c_src c); [|exact IH]. cbn [fields_applicable bind]. now rewrite IH.
Qed.
(** With allOf the rest of the filter is not looked at. *)
Theorem C52_allof_refuted : forall validate rfc3339 ft v fd jwt,
  fd_filter fd = Some ft -> ft_allof ft <> [] -> forall base base',
  validate_path validate rfc3339 (Some base) v fd jwt = validate_path validate rfc3339 (Some base') v fd jwt.
Proof.
  intros validate rfc3339 ft v fd jwt Hf Ha base base'. unfold validate_path. rewrite Hf.
  destruct (ft_allof ft) as [|x l]; [congruence|reflexivity].
Qed.
Print Assumptions C15_constraints.
Print Assumptions C15_no_constraints.
Print Assumptions C51_no_fields_refuted.
Print Assumptions C52_allof_refuted.

(** ** C16 *)
Theorem C16_format : forall f creds n l,
  first_format creds (format_priority f) n l <-> filter_format f creds = (n, l).
Proof. exact filter_format_iff. Qed.
Example C16_example :
  let jwt := {| c_id := "j"; c_issuer := None; c_subject_ids := []; c_proof_types := []; c_jwt := true; c_alg := Some "eddsa";
     c_contexts := []; c_types := []; c_src := None |} in
  let f := {| f_ldp := None; f_ldp_vc := Some ["Ed25519Signature2018"]; f_ldp_vp := None; f_jwt := None; f_jwt_vc := Some ["EdDSA"]; f_jwt_vp := None |} in
  first_format [mini_cred "a" []; jwt] (format_priority f) "jwt_vc" [jwt].
Proof. cbv zeta. apply C16_format. vm_compute. reflexivity. Qed.
Print Assumptions C16_format.

(** ** C41: schema filter *)
Theorem C41_schemas : forall ctx load type_ids schemas creds,
  match filter_schema ctx load type_ids schemas creds with
  | Ok l => (forall c x, In c creds -> In x (c_contexts c) -> exists cx, load x = Ok cx) /\
            selects (schemas_ok ctx load type_ids schemas) creds l
  | Err e => exists c x, In c creds /\ In x (c_contexts c) /\ load x = Err e
  | Panic => exists c x, In c creds /\ In x (c_contexts c) /\ load x = Panic
  end.
Proof. intros. apply filter_schema_loop_spec. intros x c; discriminate. Qed.
Example C41_example :
  filter_schema unit (fun _ => Ok tt) (fun _ t => Some [t])
    [{| sc_uri := "A"; sc_required := true |}; {| sc_uri := "Z"; sc_required := false |}]
    [mini_cred "a" ["A"; "B"]; mini_cred "b" ["B"]; mini_cred "c" ["A"]] = Ok [mini_cred "a" ["A"; "B"]; mini_cred "c" ["A"]].
Proof. vm_compute. reflexivity. Qed.
Print Assumptions C41_schemas.

(** ** C42: array path compaction *)
Theorem C42_compact : forall paths, Forall good_path paths ->
  exists rank, compacts paths rank /\
    compact_paths paths [] = map (fun ks => (kp (renumber rank [] ks), kp ks)) paths.
Proof. exact compact_paths_spec. Qed.
Example C42_example : let ps := [[KName "a"; KIdx 3; KName "x"]; [KName "a"; KIdx 7]; [KName "a"; KIdx 3; KName "y"]] in
  Forall good_path ps /\ compact_paths ps [] = [("a.0.x", "a.3.x"); ("a.1", "a.7"); ("a.0.y", "a.3.y")].
Proof.
  cbv zeta. split; [|vm_compute; reflexivity].
  assert (G : forall c, digit_val_none c = true -> good_name (String c "")).
  { intros c Hc. split.
    - intros [->|[]]. discriminate Hc.
    - intros n E. pose proof (itoa_free n c) as Hf. apply Hf; [|rewrite <- E; now left].
      unfold digit_val_none in Hc. destruct (StatusModel.digit_val c); [discriminate|reflexivity]. }
  repeat (apply Forall_cons || apply Forall_nil);
    (split; [repeat (apply Forall_cons || apply Forall_nil); first [exact I|refine (G _ _); reflexivity]|cbn; auto]).
Qed.
(** With an array directly inside an array, two different elements get the same path. *)
Theorem C53_nested_arrays_refuted :
  compact_paths [[KName "a"; KIdx 3; KIdx 0]; [KName "a"; KIdx 3; KIdx 1]] [] = [("a.0.0", "a.3.0"); ("a.1.1", "a.3.1")].
Proof. vm_compute. reflexivity. Qed.
Print Assumptions C42_compact.
Print Assumptions C53_nested_arrays_refuted.

(** ** C43: JWT path rewriting *)
Theorem C43_path_rewriting : forall order p q, Permutation replacements order -> one_dollar p -> ~ starts_vc q ->
  (drops_vc p q \/ (~ starts_vc p /\ q = p)) -> apply_replacements order p = q.
Proof.
  intros order p q Hperm Hp Hq [H|[H ->]]; [now apply (apply_drops order)|].
  apply apply_no_match; auto. intros r Hr. eapply Permutation_in; [apply Permutation_sym; exact Hperm|exact Hr].
Qed.
Example C43_example : one_dollar "$.vc.credentialSubject.id" /\ drops_vc "$.vc.credentialSubject.id" "$.credentialSubject.id" /\
  ~ starts_vc "$.credentialSubject.id".
Proof.
  split; [exists ".vc.credentialSubject.id"; split; [reflexivity|intros H; repeat (destruct H as [H|H]; [discriminate|]); exact H]|].
  split; [exact (dv_dot "credentialSubject.id")|]. intros (q & H). inversion H.
Qed.
(** A second vc step makes the outcome depend on the map iteration order. *)
Theorem C54_order_dependent_refuted : exists o1 o2 p, Permutation replacements o1 /\ Permutation replacements o2 /\
  one_dollar p /\ apply_replacements o1 p = "$[0]" /\ apply_replacements o2 p = "$.vc[0]".
Proof.
  exists replacements, [("$.vc[", "$["); ("$.vc.", "$."); ("$['vc']", "$")], "$.vc.vc[0]".
  split; [reflexivity|]. split; [apply perm_swap|].
  split; [exists ".vc.vc[0]"; split; [reflexivity|intros H; repeat (destruct H as [H|H]; [discriminate|]); exact H]|].
  split; vm_compute; reflexivity.
Qed.
Print Assumptions C43_path_rewriting.
Print Assumptions C54_order_dependent_refuted.

(** ** C44: panics *)
(** A filter without `type` panics on every credential. *)
Theorem C55_untyped_filter_refuted : forall jp_parse validate rfc3339 order f doc jwt ft,
  fd_filter f = Some ft -> ft_type ft = None -> filter_field jp_parse validate rfc3339 order f doc jwt = Panic.
Proof. intros until ft. intros Hf Ht. unfold filter_field. rewrite Hf. cbn [bind]. unfold prepare_filter. now rewrite Ht. Qed.
(** A null entry in the descriptor map panics in Match. *)
Theorem C55_null_mapping_refuted : forall select f_schema f_constraints disable descs nvps pid rest vps,
  pex_match select f_schema f_constraints disable descs nvps None
    ({| vp_id := pid; vp_context_ok := true; vp_map := Ok (None :: rest) |} :: vps) = Panic.
Proof. reflexivity. Qed.
(** Otherwise Match does not panic. *)
Definition no_null (l : list (option mapping)) : Prop := ~ In None l.
Theorem C44_match_no_panic : forall select f_schema f_constraints disable descs nvps merged vps,
  (forall r m, select r m <> Panic) -> (forall s l, f_schema s l <> Panic) -> (forall o l, f_constraints o l <> Panic) ->
  (forall l, merged = Some l -> no_null l) -> (forall v, In v vps -> vp_map v <> Panic /\ forall l, vp_map v = Ok l -> no_null l) ->
  pex_match select f_schema f_constraints disable descs nvps merged vps <> Panic.
Proof.
  intros select f_schema f_constraints disable descs nvps merged vps Hs Hf Hc Hm Hv.
  assert (M : forall i pid m, match_mapping select f_schema f_constraints disable descs nvps merged i pid (Some m) <> Stop Panic).
  { intros i pid m. unfold match_mapping. destruct (input_descriptor descs (m_id m)) as [d|]; [|discriminate].
    assert (G : forall r, match select r m with Panic => False | _ => True end) by (intros r; specialize (Hs r m); destruct (select r m); auto).
    destruct (if expects_vp_list m then _ else _) as [[c|e|]|] eqn:E; try discriminate.
    - specialize (Hf (d_schema d) [c]). destruct (f_schema (d_schema d) [c]); try congruence; try discriminate.
      destruct (_ && _)%bool; [discriminate|]. specialize (Hc (d_constraints d) [c]).
      destruct (f_constraints (d_constraints d) [c]) as [[|? [|? ?]]|e|]; try discriminate. congruence.
    - exfalso. destruct (expects_vp_list m); [injection E as E; now apply Hs in E|].
      destruct (_ || _)%bool; [injection E as E; now apply Hs in E|discriminate]. }
  assert (MM : forall i pid l acc s, no_null l -> match_mappings select f_schema f_constraints disable descs nvps merged i pid l acc = inl s -> s <> Stop Panic /\ forall v, s <> Go v).
  { intros i pid. induction l as [|om l IH]; intros acc s Hn H; cbn [match_mappings] in H; [discriminate|].
    destruct om as [m|]; [|exfalso; apply Hn; now left].
    destruct (match_mapping _ _ _ _ _ _ _ i pid (Some m)) as [r|v] eqn:E.
    - injection H as <-. split; [intros [= ->]; now apply M in E|discriminate].
    - eapply IH; [|exact H]. intros Hin. apply Hn. now right. }
  assert (MC : forall vps i acc, (forall v, In v vps -> vp_map v <> Panic /\ forall l, vp_map v = Ok l -> no_null l) ->
     matched_creds select f_schema f_constraints disable descs nvps merged i vps acc <> Panic).
  { clear Hv vps. induction vps as [|v vps IH]; intros i acc Hv; cbn [matched_creds]; [discriminate|].
    destruct (negb (vp_context_ok v)); [discriminate|]. destruct (Hv v (or_introl eq_refl)) as [Hv1 Hv2].
    assert (D : match (match merged with Some l => Ok (mappings_of l i) | None => vp_map v end) with
                | Ok l => no_null l | Err _ => True | Panic => False end).
    { destruct merged as [l|]; [|destruct (vp_map v); auto; congruence]. intros Hin. unfold mappings_of in Hin.
      apply filter_In in Hin as [Hin _]. now apply (Hm l eq_refl). }
    destruct (match merged with Some l => Ok (mappings_of l i) | None => vp_map v end) as [l|e|]; cbn [bind]; [|discriminate|destruct D].
    destruct (match_mappings _ _ _ _ _ _ _ i (vp_id v) l acc) as [s|out] eqn:E.
    - destruct (MM _ _ _ _ _ D E) as [E1 E2]. destruct s as [r|x]; [|now destruct (E2 x)]. destruct r; congruence.
    - apply IH. intros; apply Hv; now right. }
  unfold pex_match. specialize (MC vps 0%nat [] Hv). destruct (matched_creds _ _ _ _ _ _ _ 0 vps []); cbn; try congruence.
  destruct (eval_requirements descs a); discriminate.
Qed.
Print Assumptions C55_untyped_filter_refuted.
Print Assumptions C55_null_mapping_refuted.
Print Assumptions C44_match_no_panic.

(** ** C45: definitions without schemas *)
Theorem C45_needs_schema : forall ctx load type_ids jp_parse validate rfc3339 order select descs nvps merged vps r v,
  real_match ctx load type_ids jp_parse validate rfc3339 order select false descs nvps merged vps = Ok r -> In v r ->
  exists d, In d descs /\ d_id d = mv_desc v /\ d_schema d <> [].
Proof. exact no_schema_no_match. Qed.
Example C45_example : exists r v, ex_match false None
   [{| vp_id := "vp"; vp_context_ok := true;
       vp_map := Ok [Some (entry "ldp_vp" false "d1" (mini_cred "a" ["A"]) 0); Some (entry "ldp_vp" false "d2" (mini_cred "b" ["B"]) 1)] |}] = Ok r /\ In v r.
Proof. eexists _, _. split; [vm_compute; reflexivity|left; reflexivity]. Qed.
Print Assumptions C45_needs_schema.

(** ** C46: limited disclosure of SD-JWT credentials *)
Theorem C46_limited_sound : forall eval_paths parent sd_digests arr_digests hash ds fields l,
  limited_disclosures eval_paths parent sd_digests arr_digests hash ds fields = Ok l -> forall d, In d l ->
  In d ds /\ exists f, In f fields /\ requested eval_paths parent sd_digests arr_digests hash ds ds f d.
Proof. intros until l. apply limited_sound. Qed.
Definition ex_eval (ps : list string) (ds : list disclosure) : res (list (string * string)) :=
  Ok (List.concat (map (fun p => let n := substring 2 (String.length p) p in
        if existsb (fun d => String.eqb (dc_name d) n) ds then [("cs." ++ n, "cs." ++ n)] else []) ps)).
Definition ex_disc n := {| dc_name := n; dc_digest := "h" ++ n; dc_text := n |}.
Definition ex_limited := limited_disclosures ex_eval (fun _ => Some []) (fun _ => Ok ["ha"; "hb"]) (fun _ => []) (fun t => Ok ("h" ++ t)).
Definition ex_field n := {| fd_paths := ["$." ++ n]; fd_filter := None; fd_optional := false |}.
Example C46_example : ex_limited [ex_disc "a"; ex_disc "b"; ex_disc "c"] [ex_field "b"; ex_field "c"] = Ok [ex_disc "b"].
Proof. vm_compute. reflexivity. Qed.
Print Assumptions C46_limited_sound.

(** ** C47: several descriptors over one SD-JWT credential *)
(** What is finally presented was requested by every descriptor of the set (not by some). *)
Theorem C47_intersection : forall eval_paths parent sd_digests arr_digests hash visible descs ds out,
  match_set eval_paths parent sd_digests arr_digests hash visible ds descs = Ok (Some out) ->
  forall d, In d out -> In d ds /\
    Forall (fun fields => exists all f, In f fields /\ requested eval_paths parent sd_digests arr_digests hash all all f d) descs.
Proof. intros until out. apply match_set_intersection. Qed.
(** Each descriptor alone is satisfied by the wallet's credential, both together are not. *)
Theorem C47_two_descriptors_refuted : exists ds d1 d2,
  let visible fields ds := forallb (fun f => existsb (fun d => str_in ("$." ++ dc_name d) (fd_paths f)) ds) fields in
  let m := match_set ex_eval (fun _ => Some []) (fun _ => Ok ["ha"; "hb"]) (fun _ => []) (fun t => Ok ("h" ++ t)) visible in
  m ds [d1] = Ok (Some [ex_disc "a"]) /\ m ds [d2] = Ok (Some [ex_disc "b"]) /\ m ds [d1; d2] = Ok None.
Proof.
  exists [ex_disc "a"; ex_disc "b"], [ex_field "a"], [ex_field "b"]. cbv zeta. repeat split; vm_compute; reflexivity.
Qed.
Print Assumptions C47_intersection.
Print Assumptions C47_two_descriptors_refuted.

(** ** C48: a date-time minimum and a string date *)
(** The filter is turned into a numeric one, the value of a non-JWT credential is not: a validator that
    rejects strings under `type: number` rejects every date. *)
Theorem C48_ldp_dates_refuted : forall validate rfc3339 fd ft s mn z,
  (forall f v, ft_type f = Some "number" -> validate (SBase f) (JStr v) = false) ->
  fd_filter fd = Some ft -> ft_type ft = Some "string" -> ft_format ft = "date-time" -> ft_min ft = Some (JStr mn) ->
  mn <> "" -> rfc3339 mn = Some z -> ~ filter_accepts validate rfc3339 false fd (JStr s).
Proof.
  intros validate rfc3339 fd ft s mn z Hv Hf Ht Hfm Hm Hne Hz. unfold filter_accepts. rewrite Hf.
  intros (v' & Hd & Hval & _). inversion Hd; subst; [discriminate|].
  unfold dated_filter in Hval. rewrite Ht, Hm, Hfm in Hval. cbn [String.eqb Ascii.eqb Bool.eqb] in Hval.
  destruct (String.eqb_spec mn "") as [E|_]; [contradiction|]. rewrite Hz in Hval.
  rewrite Hv in Hval by reflexivity. discriminate.
Qed.
Print Assumptions C48_ldp_dates_refuted.
