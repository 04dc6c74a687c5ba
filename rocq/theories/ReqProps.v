(** Property theorems for submission requirements and the CreateVP search: C08-C11. *)
From Verif Require Import GoBase ReqSpec ReqModel ReqProofs ReqIter ReqSearch.

(** ** C08 *)
Theorem C08_is_satisfied_by : forall (r : rlogic) (descs : list string) (b : bool),
  verdict (fun x => In x descs) r b <-> is_satisfied_by r descs = b.
Proof. intros r descs b. apply verdict_iff. Qed.
(** Satisfaction depends on the set only, and the descriptors of a tree are those of its leaves. *)
Theorem C08_set_only : forall (r : rlogic) (a b : list string),
  same_set a b -> is_satisfied_by r a = is_satisfied_by r b.
Proof. intros r a b H. apply is_satisfied_ext. intros x _. apply H. Qed.
Example C08_example : let r := RL [] [RL ["a"; "b"; "b"] [] 1 0 0; RL ["c"] [] 0 1 0] 0 2 2 in
  verdict (fun x => In x ["b"; "c"]) r true /\ verdict (fun x => In x ["a"; "b"; "c"]) r false.
Proof. split; apply C08_is_satisfied_by; reflexivity. Qed.
Print Assumptions C08_is_satisfied_by.
Print Assumptions C08_set_only.

(** ** C09: every history of Next calls (latest first) whose exclusions come from the last answer. *)
Theorem C09_total : forall r D it h excl, NoDup D -> incl (get_all_descriptors r) D ->
  history r D it h -> incl excl (last_answer h) -> exists it' ans, iter_next it excl = Some (it', ans).
Proof. exact history_total. Qed.
Theorem C09_sound : forall r D it h excl ans, NoDup D -> incl (get_all_descriptors r) D ->
  history r D it ((excl, ans) :: h) -> ans <> [] ->
  NoDup ans /\ incl ans (get_all_descriptors r) /\ is_satisfied_by r ans = true /\
  (forall e a, In (e, a) ((excl, ans) :: h) -> forall x, In x e -> ~ In x ans) /\
  (forall e a, In (e, a) h -> ~ same_set a ans).
Proof. exact history_sound. Qed.
Theorem C09_complete : forall r D it h, NoDup D -> incl (get_all_descriptors r) D -> history r D it h ->
  h <> [] -> last_answer h = [] ->
  forall T, T <> [] -> incl T (get_all_descriptors r) -> is_satisfied_by r T = true ->
    (forall e a, In (e, a) h -> forall x, In x e -> ~ In x T) ->
    exists e a, In (e, a) h /\ same_set a T.
Proof. exact history_complete. Qed.
(** Without distinct ids the constructor itself panics. *)
Theorem C57_duplicate_ids_refuted : exists r D, incl (get_all_descriptors r) D /\ new_iterator r D = Panic.
Proof. exists (RL ["a"] [] 1 0 0), ["a"; "a"]. split; [|reflexivity]. intros x. cbn. tauto. Qed.
Example C09_example : let r := RL ["a"; "b"; "c"] [] 2 0 0 in
  exists it, history r ["a"; "b"; "c"] it [([], []); (["a"], ["b"; "c"]); ([], ["a"; "b"])].
Proof.
  eexists. eapply h_call; [eapply h_call; [eapply h_call; [apply h_start; reflexivity|..]|..]|..];
    try reflexivity; intros x; cbn; tauto.
Qed.
Print Assumptions C09_total.
Print Assumptions C09_sound.
Print Assumptions C09_complete.

(** ** C11 *)
Theorem C11_translation : forall descs reqs r T,
  NoDup (map id_id descs) -> forallb plain_all reqs = true -> make_requirement reqs descs = Ok r ->
  is_satisfied_by (to_logic r) T = definition_met descs reqs (fun x => str_in x T).
Proof. intros descs reqs r T H1 H2 H3. now apply make_requirement_sem. Qed.
(** Translation fails exactly when a referenced group has no member. *)
Theorem C11_defined_iff : forall descs reqs,
  is_ok (make_requirement reqs descs) = forallb (groups_exist descs) reqs /\ make_requirement reqs descs <> Panic.
Proof. exact make_requirement_defined. Qed.
(** With [max] on an [all] rule (accepted by the definition schema) the translation is not faithful. *)
Theorem C56_all_with_max_refuted : exists descs reqs r T,
  NoDup (map id_id descs) /\ make_requirement reqs descs = Ok r /\
  definition_met descs reqs (fun x => str_in x T) = true /\
  forall T', is_satisfied_by (to_logic r) T' = false.
Proof.
  exists [{| id_id := "a"; id_group := ["A"] |}; {| id_id := "b"; id_group := ["A"] |}],
         [SR true 0 0 1 "A" []].
  exists (RQ 1 0 0 [] [RQ 2 0 1 [{| id_id := "a"; id_group := ["A"] |}; {| id_id := "b"; id_group := ["A"] |}] []]).
  exists ["a"; "b"]. split; [repeat constructor; cbn; intuition discriminate|].
  split; [reflexivity|]. split; [reflexivity|]. intros T'. cbn [to_logic map id_id Z.eqb Pos.eqb andb]. rewrite sat_node by discriminate.
  unfold count_if. cbn [filter]. rewrite sat_leaf by (repeat constructor; cbn; intuition discriminate).
  unfold count_if. cbn [filter]. destruct (str_in "a" T'), (str_in "b" T'); reflexivity.
Qed.
Example C11_example :
  let descs := [{| id_id := "a"; id_group := ["A"] |}; {| id_id := "b"; id_group := ["A"; "B"] |}; {| id_id := "c"; id_group := ["B"] |}] in
  let reqs := [SR false 1 0 0 "A" []; SR false 0 0 0 "" [SR true 0 0 0 "B" []; SR false 0 1 0 "A" []]] in
  forallb plain_all reqs = true /\ is_ok (make_requirement reqs descs) = true /\
  definition_met descs reqs (fun x => str_in x ["b"; "c"]) = true /\
  definition_met descs reqs (fun x => str_in x ["a"; "b"]) = false.
Proof. repeat split; reflexivity. Qed.
Print Assumptions C11_translation.
Print Assumptions C11_defined_iff.
Print Assumptions C56_all_with_max_refuted.

(** ** C10 *)
Theorem C10_search : forall cred (eval : idesc -> res (string * list cred)) descs reqs r fmt,
  NoDup (map id_id descs) -> forallb plain_all reqs = true -> make_requirement reqs descs = Ok r ->
  exists out, apply_requirement cred eval descs r fmt = Some out /\
    match out with
    | Ok (f, m) => exists T, submission_of eval descs reqs T /\ NoDup T /\
        (forall id cs, mget m id = Some cs <->
          In id T /\ exists d f', In d descs /\ id_id d = id /\ eval d = Ok (f', cs)) /\
        (* the presentation format: that of a submitted descriptor, the default if none of them has one *)
        ((f = fmt /\ forall d f' cs, In d descs -> In (id_id d) T -> eval d = Ok (f', cs) -> f' = "")
         \/ (f <> "" /\ exists d cs, In d descs /\ In (id_id d) T /\ eval d = Ok (f, cs)))
    | Err e => (e = "credentials do not satisfy requirements" /\ ~ exists T, submission_of eval descs reqs T) \/
               (exists d, In d descs /\ definition_uses reqs d = true /\ eval d = Err e)
    | Panic => exists d, In d descs /\ definition_uses reqs d = true /\ eval d = Panic
    end.
Proof. exact @search_sem. Qed.
(** When matching never fails, the search succeeds iff a submission exists. *)
Theorem C10_succeeds_iff : forall cred (eval : idesc -> res (string * list cred)) descs reqs r fmt,
  NoDup (map id_id descs) -> forallb plain_all reqs = true -> make_requirement reqs descs = Ok r ->
  (forall d, In d descs -> definition_uses reqs d = true -> is_ok (eval d) = true) ->
  ((exists f m, apply_requirement cred eval descs r fmt = Some (Ok (f, m))) <->
   exists T, submission_of eval descs reqs T).
Proof.
  intros cred eval descs reqs r fmt H1 H2 H3 H4.
  destruct (C10_search cred eval descs reqs r fmt H1 H2 H3) as (out & E & H). rewrite E. clear E.
  destruct out as [[f m]|e|].
  - destruct H as (T & HT & _). split; intros _; eauto.
  - split; [intros (f & m & ?); congruence|]. intros HT. destruct H as [[_ H]|(d & Hd & Hu & He)]; [contradiction|].
    specialize (H4 d Hd Hu). rewrite He in H4. discriminate.
  - destruct H as (d & Hd & Hu & He). specialize (H4 d Hd Hu). rewrite He in H4. discriminate.
Qed.
Example C10_example :
  let descs := [{| id_id := "a"; id_group := ["A"] |}; {| id_id := "b"; id_group := ["A"] |}; {| id_id := "c"; id_group := ["A"] |}] in
  let reqs := [SR false 2 0 0 "A" []] in
  let eval d := Ok ("ldp_vc", if String.eqb (id_id d) "b" then [] else [id_id d ++ "1"]) in
  exists r, make_requirement reqs descs = Ok r /\
    apply_requirement string eval descs r "" = Some (Ok ("ldp_vc", [("a", ["a1"]); ("c", ["c1"])])) /\
    submission_of eval descs reqs ["a"; "c"].
Proof.
  cbv zeta. eexists. split; [reflexivity|]. split; [vm_compute; reflexivity|].
  split; [discriminate|]. split; [|reflexivity].
  intros id [<-|[<-|[]]].
  - eexists. split; [now left|]. repeat split. eexists _, _. split; [reflexivity|discriminate].
  - eexists. split; [right; right; now left|]. repeat split. eexists _, _. split; [reflexivity|discriminate].
Qed.
Print Assumptions C10_search.
Print Assumptions C10_succeeds_iff.
