(** C292-C296: what callers can and cannot rely on when credentials and maps share objects. *)
From Verif Require Import GoBase AlModel AlSpec AlProofs AlProofs2 AlProofs3 AlProofs4 AlProofs5.
Local Open Scope nat_scope.

Lemma val_reads : forall T h v j, val_ok T h v j -> reads h v j.
Proof. intros T h v j [n H]. eapply val_ok_reads; eauto. Qed.
Lemma mems_reads : forall T h l r, mems_ok T h l r -> Forall2 (fun a b => fst a = fst b /\ reads h (snd a) (snd b)) l r.
Proof. intros T h l r. apply F2_imp. intros a b _ [A B]. split; [assumption|]. eapply val_reads; eauto. Qed.
Lemma cred_shows : forall T h c d, cred_ok T h c d -> shows h c d.
Proof.
  intros T h c d (_ & ms & N & A & B & C & D). split; [|split; [|split]].
  - econstructor; [exact N|]. eapply mems_reads; eauto.
  - eapply mems_reads; eauto.
  - revert C. apply F2_imp. intros a b _. apply val_reads.
  - exact D.
Qed.
Lemma map_shows : forall T h o m, map_ok T h o m -> reads_map h o m.
Proof. intros T h o m (_ & ms & N & A). econstructor; [exact N|]. eapply mems_reads; eauto. Qed.

Lemma reads_det : forall h j v j', reads h v j -> reads h v j' -> j = j'.
Proof.
  intros h. induction j as [| | | |l IH|m IH] using json_ind'; intros v j' H H'; inversion H; subst; inversion H'; subst; try reflexivity; f_equal.
  - match goal with A : nth_error h ?x = Some (CArr ?vs), B : nth_error h ?x = Some (CArr ?ws), F : Forall2 _ ?vs l, G : Forall2 _ ?ws ?r |- l = ?r =>
      assert (ws = vs) by congruence; subst ws; clear - IH F G; revert r G; induction F as [|a b vs' l' Hab F IHF]; intros r G; inversion G; subst; [reflexivity|] end.
    inversion IH; subst. f_equal; eauto.
  - match goal with A : nth_error h ?x = Some (CObj ?vs), B : nth_error h ?x = Some (CObj ?ws), F : Forall2 _ ?vs m, G : Forall2 _ ?ws ?r |- m = ?r =>
      assert (ws = vs) by congruence; subst ws; clear - IH F G; revert r G; induction F as [|a b vs' l' Hab F IHF]; intros r G; inversion G; subst; [reflexivity|] end.
    inversion IH; subst. destruct Hab as [Q R]. match goal with K : fst a = fst ?y /\ _ |- b :: _ = ?y :: _ => destruct K as [Q' R']; destruct b, y; cbn in *; subst end.
    f_equal; [|eauto]. f_equal; eauto.
Qed.
Lemma det_map : forall h l m m', reads_map h l m -> reads_map h l m' -> m = m'.
Proof. intros h l m m' A B. pose proof (reads_det h _ _ _ A B) as E. now injection E. Qed.
Lemma F2_det : forall A B (R : A -> B -> Prop) l r r', (forall a b b', R a b -> R a b' -> b = b') -> Forall2 R l r -> Forall2 R l r' -> r = r'.
Proof. intros A B R l r r' D F. revert r'. induction F; intros r' G; inversion G; subst; [reflexivity|]. f_equal; eauto. Qed.
Lemma shows_det : forall h c d d', shows h c d -> shows h c d' -> d = d'.
Proof.
  intros h c [j ct ps e] [j' ct' ps' e'] (A & B & C & D) (A' & B' & C' & D'). cbn in *. f_equal.
  - eapply det_map; eauto.
  - eapply F2_det; [|exact B|exact B']. intros a [k b] [k' b'] [Q R] [Q' R']. cbn in *. f_equal; [congruence|]. eapply reads_det; eauto.
  - eapply F2_det; [|exact C|exact C']. intros a b b'. apply reads_det.
  - congruence.
Qed.

(** For every careful history, every credential in memory shows the values of a world without sharing, and so does every map the caller still owns. *)
Theorem C292_memory_shows_values : forall l, careful [] l ->
  Forall2 (shows (w_mem (go_run l))) (w_creds (go_run l)) (w_creds (value_run l)) /\
  List.length (w_maps (go_run l)) = List.length (w_maps (value_run l)) /\
  (forall r o m, ~ In r (given l) -> nth_error (w_maps (go_run l)) r = Some o -> nth_error (w_maps (value_run l)) r = Some m -> reads_map (w_mem (go_run l)) o m).
Proof.
  intros l C. destruct (run_sim l [] _ _ start_sim C) as (gone & [T S] & G). fold (go_run l) in S. fold (value_run l) in S. split; [|split].
  - pose proof (si_creds _ _ _ _ S) as F. revert F. apply F2_imp. intros a b _. apply cred_shows.
  - apply (si_len _ _ _ _ S).
  - intros r o m H N N'. eapply map_shows. apply (si_maps _ _ _ _ S r); auto. intros X. destruct (G r X) as [[]|]; contradiction.
Qed.

(** ** What is not written stays *)
Lemma nth_push : forall A (l : list A) a i x, nth_error l i = Some x -> nth_error (l ++ [a])%list i = Some x.
Proof. intros A l a i x H. rewrite nth_error_app1; [assumption|]. apply nth_error_Some. congruence. Qed.
Ltac step_cases := unfold on_cred, on_map, push_cred, put_cred, push_map, put_map; cbn [w_creds w_maps]; repeat (match goal with |- context [match ?e with _ => _ end] => destruct e end; cbn [w_creds w_maps]); auto using nth_push.
Lemma value_keeps_cred : forall v x i d, changes i x = false -> nth_error (w_creds v) i = Some d -> nth_error (w_creds (step value_store v x)) i = Some d.
Proof.
  intros v x i d H N. assert (K : forall i' d', Nat.eqb i i' = false -> nth_error (set_at (w_creds v) i' d') i = Some d) by (intros i' d' E; rewrite set_at_nth; now rewrite E).
  destruct x; cbn [step changes] in *; step_cases.
Qed.
Lemma value_keeps_map : forall gone v x r d, allowed gone x -> writes r x = false -> nth_error (w_maps v) r = Some d -> nth_error (w_maps (step value_store v x)) r = Some d.
Proof.
  intros gone v x r d A H N. assert (K : forall i' d', Nat.eqb r i' = false -> nth_error (set_at (w_maps v) i' d') r = Some d) by (intros i' d' E; rewrite set_at_nth; now rewrite E).
  destruct x; cbn [step writes allowed] in *; try contradiction; step_cases.
Qed.
Lemma run_keeps_cred : forall l v i d, (forall x, In x l -> changes i x = false) -> nth_error (w_creds v) i = Some d -> nth_error (w_creds (run value_store v l)) i = Some d.
Proof. induction l as [|x l IH]; intros v i d H N; [assumption|]. apply IH; [intros; apply H; now right|]. apply value_keeps_cred; [apply H; now left|assumption]. Qed.
Lemma run_keeps_map : forall l gone v r d, careful gone l -> (forall x, In x l -> writes r x = false) -> nth_error (w_maps v) r = Some d -> nth_error (w_maps (run value_store v l)) r = Some d.
Proof.
  induction l as [|x l IH]; intros gone v i d C H N; [assumption|]. apply careful_cons in C as [A C]. eapply IH; [exact C|intros; apply H; now right|].
  eapply value_keeps_map; [exact A|apply H; now left|assumption].
Qed.
Lemma careful_app : forall l gone l2, careful gone (l ++ l2)%list -> careful gone l /\ exists gone', careful gone' l2.
Proof.
  induction l as [|x l IH]; intros gone l2 C; [split; [exact I|now exists gone]|]. cbn [app] in C. destruct x; cbn [careful] in *; try contradiction;
    repeat match goal with H : _ /\ _ |- _ => destruct H end; match goal with H : careful _ (l ++ l2)%list |- _ => destruct (IH _ _ H) as [? ?] end; repeat split; auto.
Qed.
Lemma run_app : forall S w l l2, run S w (l ++ l2)%list = run S (run S w l) l2.
Proof. intros. unfold run. apply fold_left_app. Qed.

(** A credential changes only by calls made on it: not by what is done with credentials made from it, with the maps it was read from or written to, or with other credentials. *)
Theorem C293_credentials_do_not_share : forall l l2 i, careful [] (l ++ l2)%list -> (forall x, In x l2 -> changes i x = false) -> kept l l2 i.
Proof.
  intros l l2 i C H c d N S. pose proof (careful_app _ _ _ C) as [C1 _]. destruct (C292_memory_shows_values _ C1) as (F1 & _). destruct (C292_memory_shows_values _ C) as (F2 & _).
  apply F2_nth in F1 as [L1 F1]. apply F2_nth in F2 as [L2 F2].
  destruct (nth_error (w_creds (value_run l)) i) as [d0|] eqn:N0.
  - assert (d0 = d) by (eapply shows_det; [eapply F1; eauto|exact S]). subst d0.
    assert (N2 : nth_error (w_creds (value_run (l ++ l2)%list)) i = Some d) by (unfold value_run; rewrite run_app; now apply run_keeps_cred).
    destruct (nth_error (w_creds (go_run (l ++ l2)%list)) i) as [c'|] eqn:N3; [exists c'; split; [reflexivity|]; eapply F2; eauto|].
    apply nth_error_None in N3. apply nth_lt in N2. rewrite L2 in N3. exfalso. exact (Nat.lt_irrefl _ (Nat.lt_le_trans _ _ _ N2 N3)).
  - apply nth_error_None in N0. apply nth_lt in N. rewrite <- L1 in N0. exfalso. exact (Nat.lt_irrefl _ (Nat.lt_le_trans _ _ _ N N0)).
Qed.
(** A caller's map changes only by the caller's writes: a map returned by ToRawJSON does not follow the credential. *)
Theorem C294_maps_do_not_follow : forall l l2 r o m, careful [] (l ++ l2)%list -> ~ In r (given (l ++ l2)%list) -> (forall x, In x l2 -> writes r x = false) ->
  nth_error (w_maps (go_run l)) r = Some o -> reads_map (w_mem (go_run l)) o m ->
  exists o', nth_error (w_maps (go_run (l ++ l2)%list)) r = Some o' /\ reads_map (w_mem (go_run (l ++ l2)%list)) o' m.
Proof.
  intros l l2 r o m C G H N S. pose proof (careful_app _ _ _ C) as [C1 (gone' & C2)]. destruct (C292_memory_shows_values _ C1) as (_ & L1 & F1). destruct (C292_memory_shows_values _ C) as (_ & L2 & F2).
  assert (G1 : ~ In r (given l)). { intros X. apply G. clear - X. induction l as [|x l IH]; [destruct X|]. destruct x; cbn in *; try (now apply IH). destruct X as [->|X]; auto. }
  destruct (nth_error (w_maps (value_run l)) r) as [d0|] eqn:N0.
  - assert (d0 = m) by (eapply det_map; [eapply F1; eauto|exact S]). subst d0.
    assert (N2 : nth_error (w_maps (value_run (l ++ l2)%list)) r = Some m) by (unfold value_run; rewrite run_app; eapply run_keeps_map; eauto).
    destruct (nth_error (w_maps (go_run (l ++ l2)%list)) r) as [c'|] eqn:N3; [exists c'; split; [reflexivity|]; eapply F2; eauto|].
    apply nth_error_None in N3. apply nth_lt in N2. rewrite L2 in N3. exfalso. exact (Nat.lt_irrefl _ (Nat.lt_le_trans _ _ _ N2 N3)).
  - apply nth_error_None in N0. apply nth_lt in N. rewrite <- L1 in N0. exfalso. exact (Nat.lt_irrefl _ (Nat.lt_le_trans _ _ _ N N0)).
Qed.

(** ** Reading credentials in concrete histories *)
Definition rd_cred (n : nat) (h : heap) (c : cred go_store) : option (cred value_store) :=
  match rdT n [] h (HObj (c_json c)), all_some (map (tag (rdT n [] h)) (c_cont c)), all_some (map (rdT n [] h) (c_proofs c)) with
  | Some (JObj j), Some ct, Some ps => Some (Build_cred (W := value_store) j ct ps (c_env c)) | _, _, _ => None end.
Lemma rd_cred_shows : forall n h c d, rd_cred n h c = Some d -> shows h c d.
Proof.
  intros n h c d H. unfold rd_cred in H. destruct (rdT n [] h (HObj (c_json c))) as [[| | | | |j]|] eqn:E; try discriminate.
  destruct (all_some (map (tag (rdT n [] h)) (c_cont c))) as [ct|] eqn:E1; [|discriminate]. destruct (all_some (map (rdT n [] h) (c_proofs c))) as [ps|] eqn:E2; [|discriminate].
  injection H as <-. apply all_some_F2 in E1, E2. split; [exact (val_ok_reads _ _ _ _ _ E)|]. split; [|split; [|reflexivity]].
  - revert E1. apply F2_imp. intros [k x] [k' y] _. unfold tag. cbn. destruct (rdT n [] h x) eqn:Q; [|discriminate]. cbn. injection 1 as <- <-. split; [reflexivity|]. eapply val_ok_reads; eauto.
  - revert E2. apply F2_imp. intros a b _ Q. eapply val_ok_reads; eauto.
Qed.
Definition seen (l : list op) (i : nat) : option (cred value_store) := match nth_error (w_creds (go_run l)) i with Some c => rd_cred 20 (w_mem (go_run l)) c | None => None end.
Lemma not_kept : forall l l2 i d d', seen l i = Some d -> seen (l ++ l2)%list i = Some d' -> d <> d' -> ~ kept l l2 i.
Proof.
  intros l l2 i d d' A B D K. unfold seen in A, B. destruct (nth_error (w_creds (go_run l)) i) as [c|] eqn:N; [|discriminate].
  destruct (K c d N (rd_cred_shows _ _ _ _ A)) as (c' & N' & S). rewrite N' in B. apply D. eapply shows_det; [exact S|]. eapply rd_cred_shows; eauto.
Qed.

Definition doc : gomap json := [("@context", JArr [JStr v2_uri]); ("type", JStr "VerifiableCredential"); ("issuer", JObj [("id", JStr "did:i"); ("name", JStr "I")]);
  ("credentialSubject", JObj [("id", JStr "did:s"); ("degree", JObj [("type", JStr "B")])]); ("name", JStr "Degree")].
Definition careful_history : list op :=
  [NewMap doc; Parse 0; Modify 0 (fld_spec "Types" "type" KTypes) (JArr [JStr "VerifiableCredential"; JStr "D"]); SignJWT 1 "a.b.c"; ToRaw 0; Put 1 "name" (JStr "Other");
   SetField 1 "name" (JStr "New"); AddLDProof 0 (JObj [("type", JStr "P")]); SetDisclosures 2 ["x"]; Create [("ID", JStr "urn:1")] [("a", JNum 1)] []; SignCOSE 0 "m"; ResetProofs 0 []].
(** a careful history with four credentials; all calls succeed, and they do not show the same *)
Example C292_example : careful [] careful_history /\ List.length (w_creds (go_run careful_history)) = 5 /\ given careful_history = [0] /\ List.length (w_maps (go_run careful_history)) = 2
  /\ option_map (fun d : cred value_store => mget (c_json d) "name") (seen careful_history 0) = Some (Some (JStr "Degree")) /\ option_map (fun d : cred value_store => mget (c_json d) "name") (seen careful_history 1) = Some (Some (JStr "New"))
  /\ option_map (fun d : cred value_store => mget (c_json d) "name") (seen careful_history 2) = Some (Some (JStr "Degree")).
Proof. split; [cbn; intuition discriminate|]. vm_compute. repeat split. Qed.
Example C293_example : careful [] ([NewMap doc; Parse 0; Modify 0 (fld_spec "ID" "id" KText) (JStr "urn:1")] ++ [SetField 1 "name" (JStr "x"); AddLDProof 1 (JObj []); ToRaw 0; Put 1 "name" JNull])%list
  /\ forallb (fun x => negb (changes 0 x)) [SetField 1 "name" (JStr "x"); AddLDProof 1 (JObj []); ToRaw 0; Put 1 "name" JNull] = true
  /\ seen [NewMap doc; Parse 0; Modify 0 (fld_spec "ID" "id" KText) (JStr "urn:1")] 0 <> None.
Proof. split; [cbn; intuition|]. split; [reflexivity|]. vm_compute. discriminate. Qed.
Example C294_example : careful [] ([NewMap doc; Parse 0; ToRaw 0] ++ [SetField 0 "name" (JStr "x"); ResetProofs 0 [JObj []]])%list /\ ~ In 1 (given [NewMap doc; Parse 0; ToRaw 0])
  /\ exists o, nth_error (w_maps (go_run [NewMap doc; Parse 0; ToRaw 0])) 1 = Some o /\ rdT 20 [] (w_mem (go_run [NewMap doc; Parse 0; ToRaw 0])) (HObj o) = Some (JObj doc).
Proof. split; [cbn; intuition|]. split; [cbn; intuition discriminate|]. eexists. split; [vm_compute; reflexivity|]. vm_compute. reflexivity. Qed.

(** ParseCredentialJSON keeps the caller's map: writing the map, or changing a second credential parsed from it, changes the credential. *)
Theorem C295_parse_keeps_callers_map_refuted :
  ~ kept [NewMap doc; Parse 0] [Put 0 "issuer" (JStr "did:evil")] 0 /\ ~ kept [NewMap doc; Parse 0; Parse 0] [SetField 1 "issuer" (JStr "did:evil")] 0.
Proof. split; (eapply not_kept; [vm_compute; reflexivity|vm_compute; reflexivity|discriminate]). Qed.
Example C295_example : forallb (fun x => negb (changes 0 x)) [Put 0 "issuer" (JStr "did:evil"); SetField 1 "issuer" (JStr "did:evil")] = true.
Proof. reflexivity. Qed.
(** The maps inside a map returned by ToRawJSON are the credential's: writing one changes the credential, and the credential it was made from. *)
Theorem C296_raw_json_shares_nested_refuted :
  ~ kept [NewMap doc; Parse 0; ToRaw 0] [PutIn 1 "credentialSubject" "id" (JStr "did:evil")] 0 /\
  ~ kept [NewMap doc; Parse 0; Modify 0 (fld_spec "ID" "id" KText) (JStr "urn:1"); ToRaw 1] [PutIn 1 "issuer" "id" (JStr "did:evil")] 0.
Proof. split; (eapply not_kept; [vm_compute; reflexivity|vm_compute; reflexivity|discriminate]). Qed.
Example C296_example : changes 0 (PutIn 1 "issuer" "id" (JStr "did:evil")) = false /\ careful [] [NewMap doc; Parse 0; Modify 0 (fld_spec "ID" "id" KText) (JStr "urn:1"); ToRaw 1].
Proof. split; [reflexivity|]. cbn. intuition. Qed.
(** CreateDisplayCredentialMap returns the credential's own map: writing it changes the credential. *)
Theorem C297_display_map_is_shared_refuted : ~ kept [NewMap doc; Parse 0; DisplayMap 0] [Put 1 "issuer" (JStr "did:evil")] 0.
Proof. eapply not_kept; [vm_compute; reflexivity|vm_compute; reflexivity|discriminate]. Qed.
Example C297_example : changes 0 (Put 1 "issuer" (JStr "did:evil")) = false.
Proof. reflexivity. Qed.
Print Assumptions C292_memory_shows_values.
Print Assumptions C293_credentials_do_not_share.
Print Assumptions C294_maps_do_not_follow.
Print Assumptions C295_parse_keeps_callers_map_refuted.
Print Assumptions C296_raw_json_shares_nested_refuted.
Print Assumptions C297_display_map_is_shared_refuted.
