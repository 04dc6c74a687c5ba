(** Theorems about presentations as objects: Clone, the copies CreateJWTVP returns, appending, and the lists and maps handed out (C315-C320). *)
From Coq Require Import String List Arith Bool Lia.
From Verif Require Import GoBase PrModel PrSpec PrProofs PrProofs2.
Import ListNotations.
Local Open Scope list_scope.
Local Open Scope nat_scope.

(** Calls that append only to lists of which no copy has grown longer, and write only lists and maps of which there is no copy, do in Go's memory what they
    would do if every copy were a copy of the contents, whatever capacity append chooses. *)
Theorem C315_presentations_in_memory : forall grow l, (forall c, c < grow c) -> fair l = true ->
  (forall p, see (go_run grow l) p = see (value_run l) p) /\ (forall h, see_list (go_run grow l) h = see_list (value_run l) h).
Proof. intros grow l Hg Hf. pose proof (R_runs grow l Hg Hf) as HR. split; intros; [apply R_see, HR|apply R_see_list, HR]. Qed.

Lemma fair_snoc o : (forall w, fine w o = true) -> forall l w, fair_from w l = true -> fair_from w (l ++ [o]) = true.
Proof.
  intros Ho. induction l as [|x l IH]; intros w Hw; cbn [app fair_from] in *; [rewrite Ho; reflexivity|]. apply andb_prop in Hw. destruct Hw as [H1 H2]. rewrite H1. apply IH, H2.
Qed.
(** Clone and CreateJWTVP return what the presentation holds, the latter with its token. *)
Theorem C316_copies_show_the_same : forall grow l p, (forall c, c < grow c) -> fair l = true -> p < List.length (w_pres (go_run grow l)) ->
  exists s, see (go_run grow l) p = Some s /\
    see (go_run grow (l ++ [CloneP p])) (List.length (w_pres (go_run grow l))) = Some s /\
    forall token, see (go_run grow (l ++ [SignP p token])) (List.length (w_pres (go_run grow l))) = Some (with_jwt s token).
Proof.
  intros grow l p Hg Hf Hp. pose proof (R_runs grow l Hg Hf) as HR. pose proof HR as (Hps & _). rewrite Hps in Hp |- *.
  destruct (nth_error (w_pres (value_run l)) p) as [x|] eqn:E; [|apply nth_error_None in E; lia].
  pose proof (apart_run l _ apart_start) as HA. change (run value_start l) with (value_run l) in HA.
  assert (Hs : see (value_run l) p <> None) by (unfold see; rewrite E; discriminate). destruct (see (value_run l) p) as [s|] eqn:Es; [|congruence].
  exists s. split; [rewrite (R_see _ _ _ p HR); exact Es|].
  assert (Hj : v_jwt s = p_jwt x). { unfold see in Es. rewrite E in Es. injection Es as <-. reflexivity. }
  split; [|intros token].
  - rewrite (R_see grow _ _ _ (R_runs grow (l ++ [CloneP p]) Hg (fair_snoc (CloneP p) (fun _ => eq_refl) l _ Hf))). unfold value_run. rewrite run_app. change (run value_start l) with (value_run l).
    cbn [run fold_left step]. rewrite E, (see_clone _ p x _ HA E), Es, <- Hj. destruct s. reflexivity.
  - rewrite (R_see grow _ _ _ (R_runs grow (l ++ [SignP p token]) Hg (fair_snoc (SignP p token) (fun _ => eq_refl) l _ Hf))). unfold value_run. rewrite run_app. change (run value_start l) with (value_run l).
    cbn [run fold_left step]. rewrite E, (see_clone _ p x _ HA E), Es. reflexivity.
Qed.

(** Calls that do not name a presentation do not change it, under the conditions of C315: in particular the lists passed to NewPresentation and AddCredentials are copied. *)
Theorem C317_presentations_do_not_share : forall grow l l2 q, (forall c, c < grow c) -> fair (l ++ l2) = true -> q < List.length (w_pres (go_run grow l)) ->
  (forall o, In o l2 -> names q o = false) -> kept grow l l2 q.
Proof.
  intros grow l l2 q Hg Hf Hq Hn. unfold kept. destruct (fair_app l value_start l2 Hf) as [Hf1 _].
  rewrite (R_see grow _ _ q (R_runs grow _ Hg Hf)), (R_see grow _ _ q (R_runs grow l Hg Hf1)). unfold value_run. rewrite run_app. apply see_run.
  - apply apart_run, apart_start.
  - rewrite (proj1 (R_runs grow l Hg Hf1)) in Hq. exact Hq.
  - exact Hn.
Qed.

Lemma go_grow_lt : forall c, c < go_grow c.
Proof. intros c. unfold go_grow. destruct (Nat.eqb_spec c 0); lia. Qed.

Definition three : list call := [ListOf ["vc1"; "vc2"; "vc3"]%string; NewP "https://www.w3.org/2018/credentials/v1" 0; ListOf ["vc4"]%string; ListOf ["vc5"]%string].
Example C315_example : fair (three ++ [CloneP 0; AddP 0 1; SignP 0 "e30.e30.sig"; AddP 2 2; SetHolder 1 "did:x"; TakeP 0 FCreds; PushH 1 "x"]) = true
  /\ option_map v_creds (see (go_run go_grow (three ++ [CloneP 0; AddP 0 1; SignP 0 "e30.e30.sig"; AddP 2 2])) 2) = Some ["vc1"; "vc2"; "vc3"; "vc4"; "vc5"]%string
  /\ option_map v_creds (see (go_run go_grow (three ++ [CloneP 0; AddP 0 1; SignP 0 "e30.e30.sig"; AddP 2 2])) 1) = Some ["vc1"; "vc2"; "vc3"]%string.
Proof. repeat split; vm_compute; reflexivity. Qed.
Example C316_example : (forall c, c < go_grow c) /\ fair three = true /\ 0 < List.length (w_pres (go_run go_grow three)).
Proof. split; [exact go_grow_lt|]. split; [vm_compute; reflexivity|vm_compute; repeat constructor]. Qed.
Example C317_example : fair (three ++ [CloneP 0; AddP 0 1; AppendP 0 FContext "https://example.com"; WriteH 0 1 "other"]) = true
  /\ (forall o, In o [AddP 0 1; AppendP 0 FContext "https://example.com"; WriteH 0 1 "other"] -> names 1 o = false).
Proof. split; [vm_compute; reflexivity|]. intros o [<-|[<-|[<-|[]]]]; reflexivity. Qed.

Lemma not_kept grow l l2 q s s2 : see (go_run grow l) q = Some s -> see (go_run grow (l ++ l2)) q = Some s2 -> s <> s2 -> ~ kept grow l l2 q.
Proof. unfold kept. intros -> -> Hne E. congruence. Qed.
(** A copy is not independent: after three credentials, a credential added to the copy (a clone, or the presentation CreateJWTVP returned) replaces the one added to the original. *)
Theorem C318_copy_replaces_credentials_refuted :
  ~ kept go_grow (three ++ [CloneP 0; AddP 0 1]) [AddP 1 2] 0 /\ ~ kept go_grow (three ++ [SignP 0 "e30.e30.sig"; AddP 1 1]) [AddP 0 2] 1 /\
  option_map v_creds (see (go_run go_grow (three ++ [CloneP 0; AddP 0 1; AddP 1 2])) 0) = Some ["vc1"; "vc2"; "vc3"; "vc5"]%string.
Proof. split; [|split]; [eapply not_kept; [vm_compute; reflexivity|vm_compute; reflexivity|discriminate]..|vm_compute; reflexivity]. Qed.
Example C318_example : names 0 (AddP 1 2) = false /\ names 1 (AddP 0 2) = false.
Proof. split; reflexivity. Qed.
(** The custom fields of a copy are the original's: writing them in one changes the other. *)
Theorem C319_copy_shares_fields_refuted :
  ~ kept go_grow [ParsedP [] [] [] "urn:1" "did:x" [] [("name"%string, JStr "a")]; CloneP 0] [PutField 1 "name" (JStr "b")] 0 /\
  ~ kept go_grow [ParsedP [] [] [] "urn:1" "did:x" [] [("name"%string, JStr "a")]; SignP 0 "e30.e30.sig"] [PutField 0 "name" (JStr "b")] 1.
Proof. split; (eapply not_kept; [vm_compute; reflexivity|vm_compute; reflexivity|discriminate]). Qed.
Example C319_example : names 0 (PutField 1 "name" (JStr "b")) = false.
Proof. reflexivity. Qed.
(** The list Credentials() returns is the presentation's: writing an element replaces the credential, and appending to it can be undone by AddCredentials. *)
Theorem C320_credentials_hands_out_its_list_refuted :
  ~ kept go_grow (three ++ [TakeP 0 FCreds]) [WriteH 3 0 "other"] 0 /\
  see_list (go_run go_grow (three ++ [TakeP 0 FCreds; PushH 3 "mine"])) 3 = Some ["vc1"; "vc2"; "vc3"; "mine"]%string /\
  see_list (go_run go_grow (three ++ [TakeP 0 FCreds; PushH 3 "mine"; AddP 0 1])) 3 = Some ["vc1"; "vc2"; "vc3"; "vc4"]%string.
Proof. split; [|split; vm_compute; reflexivity]. eapply not_kept; [vm_compute; reflexivity|vm_compute; reflexivity|discriminate]. Qed.
Example C320_example : names 0 (WriteH 3 0 "other") = false.
Proof. reflexivity. Qed.
Print Assumptions C315_presentations_in_memory.
Print Assumptions C316_copies_show_the_same.
Print Assumptions C317_presentations_do_not_share.
Print Assumptions C318_copy_replaces_credentials_refuted.
Print Assumptions C319_copy_shares_fields_refuted.
Print Assumptions C320_credentials_hands_out_its_list_refuted.
