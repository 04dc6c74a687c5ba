(** Signing or marshalling a presentation and parsing the result: lemmas. *)
From Coq Require Import Permutation.
From Verif Require Import GoBase Base64 StrLemmas JwtSpec DiSpec VcSpec JwtModel JwtProofs SdSpec SdModel SdParse DiModel PexModel VcModel
  VcJwt VcParse VcProofs VcView VcText VcMod VcSecure VcJwtProofs VcPanic VcSign VcSignProofs VcProps VcProps2 VcProps3 VcProps4 VpModel VpProofs.

(** *** The JSON object of a presentation *)
(** the member [k] of the object of [p] when its credentials stand as [js] in it *)
Definition vp_member (p : presentation) (js : list json) (k : string) : option json :=
  if String.eqb k "@context" then nonempty (pr_context p) (JArr (map JStr (pr_context p)))
  else if String.eqb k "id" then if String.eqb (pr_id p) "" then None else Some (JStr (pr_id p))
  else if String.eqb k "type" then nonempty (pr_types p) (types_json (pr_types p))
  else if String.eqb k "holder" then if String.eqb (pr_holder p) "" then None else Some (JStr (pr_holder p))
  else if String.eqb k "proof" then nonempty (pr_proofs p) (proofs_to_raw (pr_proofs p))
  else if String.eqb k "verifiableCredential" then nonempty js (JArr js)
  else mget (pr_custom p) k.
(** custom members have names of their own *)
Definition plain_custom (p : presentation) : Prop :=
  NoDup (map fst (pr_custom p))
  /\ forall k, In k (map fst (pr_custom p)) -> ~ In k ["@context"; "id"; "type"; "verifiableCredential"; "holder"; "proof"].
(** a presentation made of standard contexts (texts) with at least a context and a type *)
Definition plain_vp (p : presentation) : Prop :=
  pr_context p <> [] /\ pr_custom_ctx p = [] /\ pr_types p <> [] /\ plain_custom p.

Lemma mget_set_text k s m k' : mget (set_text k s m) k' = if String.eqb k' k && negb (String.eqb s "") then Some (JStr s) else mget m k'.
Proof. unfold set_text. destruct (String.eqb s ""); cbn [negb]; [now rewrite andb_false_r|]. rewrite andb_true_r. apply mget_mset. Qed.
Lemma opt_set_nodup k v m : NoDup (map fst m) -> NoDup (map fst (opt_set k v m)).
Proof. destruct v; cbn [opt_set]; [apply mset_nodup|auto]. Qed.
Lemma set_text_nodup k s m : NoDup (map fst m) -> NoDup (map fst (set_text k s m)).
Proof. unfold set_text. destruct (String.eqb s ""); [auto|apply mset_nodup]. Qed.
Lemma add_custom_nodup cf : forall m, NoDup (map fst m) -> NoDup (map fst (add_custom m cf)).
Proof.
  unfold add_custom. induction cf as [|[k v] cf IH]; intros m H; cbn [fold_left fst snd]; [assumption|]. apply IH.
  destruct (mhas m k); [assumption|now apply mset_nodup].
Qed.
Lemma mget_none_notin {V} (m : gomap V) k : ~ In k (map fst m) -> mget m k = None.
Proof.
  induction m as [|[k0 v] m IH]; cbn [map fst mget]; intros H; [reflexivity|]. destruct (String.eqb_spec k k0) as [->|].
  - exfalso. apply H. now left.
  - apply IH. intros Hi. apply H. now right.
Qed.
Lemma raw_spec U p m : pres_raw U p = Ok m -> plain_custom p ->
  exists js, map_res U (pr_creds p) = Ok js /\ NoDup (map fst m) /\ forall k, mget m k = vp_member p js k.
Proof.
  unfold pres_raw. intros H [_ Hc]. apply bind_ok in H as (js & Hjs & H). injection H as <-. exists js. split; [assumption|]. split.
  - apply add_custom_nodup, opt_set_nodup, opt_set_nodup, set_text_nodup, opt_set_nodup, set_text_nodup, opt_set_nodup. constructor.
  - intros k. rewrite mget_add_custom, !mget_opt_set, !mget_set_text, !mget_opt_set, mget_set_text, mget_opt_set. unfold vp_member.
    assert (Hx : In k ["@context"; "id"; "type"; "verifiableCredential"; "holder"; "proof"] -> mget (pr_custom p) k = None)
      by (intros Hi; apply mget_none_notin; intros Hk; now apply (Hc k)).
    cbn [mget].
    destruct (String.eqb_spec k "@context") as [->|N1].
    { cbn [String.eqb Ascii.eqb Bool.eqb andb]. rewrite Hx by (cbn; tauto). now destruct (nonempty _ _). }
    destruct (String.eqb_spec k "id") as [->|N2].
    { cbn [String.eqb Ascii.eqb Bool.eqb andb]. rewrite Hx by (cbn; tauto). now destruct (String.eqb (pr_id p) ""). }
    destruct (String.eqb_spec k "type") as [->|N3].
    { cbn [String.eqb Ascii.eqb Bool.eqb andb]. rewrite Hx by (cbn; tauto). now destruct (nonempty _ _). }
    destruct (String.eqb_spec k "holder") as [->|N4].
    { cbn [String.eqb Ascii.eqb Bool.eqb andb]. rewrite Hx by (cbn; tauto). now destruct (String.eqb (pr_holder p) ""). }
    destruct (String.eqb_spec k "proof") as [->|N5].
    { cbn [String.eqb Ascii.eqb Bool.eqb andb]. rewrite Hx by (cbn; tauto). now destruct (nonempty _ _). }
    destruct (String.eqb_spec k "verifiableCredential") as [->|N6].
    { cbn [String.eqb Ascii.eqb Bool.eqb andb]. rewrite Hx by (cbn; tauto). now destruct (nonempty _ _). }
    cbn [andb]. reflexivity.
Qed.

Lemma take_strings_map l : take_strings (map JStr l) = (l, []).
Proof. induction l as [|s l IH]; [reflexivity|]. cbn [map take_strings]. now rewrite IH. Qed.
Lemma map_res_jobj e ps : map_res (obj_of e) (map JObj ps) = Ok ps.
Proof. induction ps as [|q ps IH]; [reflexivity|]. cbn [map map_res obj_of bind]. now rewrite IH. Qed.
Lemma proofs_round ps : parse_ld_proof (nonempty ps (proofs_to_raw ps)) = Ok ps.
Proof.
  destruct ps as [|a [|b ps]]; [reflexivity..|]. change (map_res (obj_of "unsupported proof value") (map JObj (a :: b :: ps)) = Ok (a :: b :: ps)).
  apply map_res_jobj.
Qed.
Lemma forall2_map_res {A B} (f : A -> res B) l r : Forall2 (fun a b => f a = Ok b) l r -> map_res f l = Ok r.
Proof. induction 1 as [|a b l r H _ IH]; [reflexivity|]. cbn [map_res]. rewrite H. cbn [bind]. now rewrite IH. Qed.
Lemma fld_member m k j : mget m k = Some j -> j <> JNull -> fld m k = Some j.
Proof. unfold fld. intros ->. destruct j; auto; congruence. Qed.
Lemma fld_missing m k : mget m k = None -> fld m k = None.
Proof. unfold fld. now intros ->. Qed.

(** the presentation read from an object with the members of [p] *)
Definition vp_read (p : presentation) (cs : list credential) (m : gomap json) : presentation :=
  {| pr_context := pr_context p; pr_custom_ctx := []; pr_id := pr_id p; pr_types := pr_types p; pr_creds := cs; pr_holder := pr_holder p;
     pr_proofs := pr_proofs p; pr_jwt := ""; pr_cwt := None; pr_custom := copy_except m vp_fields |}.
Lemma new_round E o p js cs m : plain_vp p -> (forall k, mget m k = vp_member p js k) ->
  Forall2 (fun j c => decode_one E o j = Ok c) js cs -> execute_checks E o (pr_proofs p) cs (pr_holder p) = Ok tt ->
  new_presentation E o m = Ok (vp_read p cs m) /\ forall k, mget (pr_custom (vp_read p cs m)) k = mget (pr_custom p) k.
Proof.
  intros (Hc & _ & Ht & Hcu) Hm Hf Hx. split.
  - unfold new_presentation.
    assert (E1 : decode_type (fld m "type") = Ok (pr_types p)).
    { pose proof (Hm "type") as E0. change (vp_member p js "type") with (nonempty (pr_types p) (types_json (pr_types p))) in E0.
      rewrite <- (types_round (pr_types p)) by assumption. f_equal. unfold nonempty in *. destruct (pr_types p) as [|a [|b l]]; [contradiction| |]; now apply fld_member. }
    assert (E2 : decode_context (fld m "@context") = Ok (pr_context p, [])).
    { pose proof (Hm "@context") as E0. change (vp_member p js "@context") with (nonempty (pr_context p) (JArr (map JStr (pr_context p)))) in E0.
      unfold nonempty in E0. destruct (pr_context p) as [|a l]; [contradiction|]. rewrite (fld_member _ _ _ E0) by discriminate.
      unfold decode_context. now rewrite take_strings_map. }
    assert (E3 : decode_credentials E o (fld m "verifiableCredential") = Ok cs).
    { pose proof (Hm "verifiableCredential") as E0. change (vp_member p js "verifiableCredential") with (nonempty js (JArr js)) in E0.
      destruct js as [|j js]; cbn [nonempty] in E0.
      - rewrite (fld_missing _ _ E0). inversion Hf. reflexivity.
      - rewrite (fld_member _ _ _ E0) by discriminate. cbn [decode_credentials]. now apply forall2_map_res. }
    assert (E4 : parse_ld_proof (fld m "proof") = Ok (pr_proofs p)).
    { pose proof (Hm "proof") as E0. change (vp_member p js "proof") with (nonempty (pr_proofs p) (proofs_to_raw (pr_proofs p))) in E0.
      rewrite <- (proofs_round (pr_proofs p)) at 1. f_equal. destruct (pr_proofs p) as [|a [|b l]]; cbn [nonempty] in *;
        [now apply fld_missing|now apply fld_member|now apply fld_member]. }
    assert (E5 : parse_string_fld m "id" = Ok (pr_id p)).
    { pose proof (Hm "id") as E0. change (vp_member p js "id") with (if String.eqb (pr_id p) "" then None else Some (JStr (pr_id p))) in E0.
      unfold parse_string_fld. destruct (String.eqb_spec (pr_id p) "") as [->|]; [now rewrite (fld_missing _ _ E0)|].
      now rewrite (fld_member _ _ _ E0) by discriminate. }
    assert (E6 : decode_holder (fld m "holder") = Ok (pr_holder p)).
    { pose proof (Hm "holder") as E0. change (vp_member p js "holder") with (if String.eqb (pr_holder p) "" then None else Some (JStr (pr_holder p))) in E0.
      destruct (String.eqb_spec (pr_holder p) "") as [->|]; [now rewrite (fld_missing _ _ E0)|].
      now rewrite (fld_member _ _ _ E0) by discriminate. }
    rewrite E1. cbn [bind]. rewrite E2. cbn [bind]. rewrite E3. cbn [bind]. rewrite E4. cbn [bind]. rewrite E5. cbn [bind]. rewrite E6. cbn [bind].
    rewrite Hx. reflexivity.
  - intros k. cbn [vp_read pr_custom]. rewrite mget_copy_except. destruct (str_in k vp_fields) eqn:Ek.
    + apply str_in_In in Ek. symmetry. apply mget_none_notin. intros Hi. now apply (proj2 Hcu k).
    + rewrite Hm. unfold vp_member. apply str_in_nIn in Ek. unfold vp_fields in Ek. cbn [In] in Ek.
      repeat match goal with |- context [String.eqb k ?x] => destruct (String.eqb_spec k x) as [->|]; [exfalso; apply Ek; tauto|] end. reflexivity.
Qed.

(** *** Claims of a JWT presentation *)
Lemma aud_get cbor aud k : mget (aud_member cbor aud) k =
  if String.eqb k "aud" then match aud with [] => None | [a] => Some (if cbor then JArr [JStr a] else JStr a) | _ => Some (JArr (map JStr aud)) end else None.
Proof. destruct aud as [|a [|b l]]; cbn [aud_member mget]; now destruct (String.eqb k "aud"). Qed.
Definition payload_of (cbor : bool) (iss jti : string) (aud : list string) (m : gomap json) : gomap json :=
  (opt_field "iss" iss ++ aud_member cbor aud ++ opt_field "jti" jti ++ [("vp", JObj m)])%list.
Lemma payload_keys cbor iss jti aud m : NoDup (map fst (payload_of cbor iss jti aud m))
  /\ forall k, In k (map fst (payload_of cbor iss jti aud m)) -> In k ("vp" :: registered).
Proof.
  unfold payload_of, opt_field, aud_member. destruct (String.eqb iss ""), (String.eqb jti ""), aud as [|a [|b l]]; cbn [app map fst];
    (split; [nodup_keys|cbn; tauto]).
Qed.
Lemma payload_get cbor iss jti aud m k : mget (payload_of cbor iss jti aud m) k =
  if String.eqb k "iss" then if String.eqb iss "" then None else Some (JStr iss)
  else if String.eqb k "aud" then match aud with [] => None | [a] => Some (if cbor then JArr [JStr a] else JStr a) | _ => Some (JArr (map JStr aud)) end
  else if String.eqb k "jti" then if String.eqb jti "" then None else Some (JStr jti)
  else if String.eqb k "vp" then Some (JObj m) else None.
Proof.
  unfold payload_of. rewrite !mget_app, !mget_opt_field, aud_get. cbn [mget].
  destruct (String.eqb_spec k "iss") as [->|]; [now destruct (String.eqb iss "")|].
  destruct (String.eqb_spec k "aud") as [->|]; [cbn; now destruct aud as [|? [|]]|].
  destruct (String.eqb_spec k "jti") as [->|]; [now destruct (String.eqb jti "")|]. reflexivity.
Qed.
Lemma vp_registered_fold r k : In r ("vp" :: registered) -> In k ("vp" :: registered) -> equal_fold r k = true -> k = r.
Proof.
  intros Hr Hk. cbn in Hr, Hk.
  repeat (destruct Hr as [<-|Hr]; [repeat (destruct Hk as [<-|Hk]; [vm_compute; intros; (reflexivity || discriminate)|]); destruct Hk|]). destruct Hr.
Qed.
Lemma all_strings_map l : all_strings (map JStr l) = Some l.
Proof. induction l as [|s l IH]; [reflexivity|]. cbn [map all_strings]. now rewrite IH. Qed.
Lemma pres_claims_round ms iss jti aud m : Permutation ms (payload_of false iss jti aud m) -> NoDup (map fst m) ->
  pres_claims ms = Ok {| pc_alloc := negb (String.eqb iss "" && String.eqb jti "" && match aud with [] => true | _ => false end);
                         pc_iss := iss; pc_jti := jti; pc_vp := Some m |}.
Proof.
  intros Hp Hm. destruct (payload_keys false iss jti aud m) as [Hk1 Hk2].
  assert (Hms : NoDup (map fst ms)) by (eapply Permutation_NoDup; [apply Permutation_map, Permutation_sym, Hp|assumption]).
  assert (Hin : forall k, In k (map fst ms) -> In k ("vp" :: registered)) by (intros k H; apply Hk2; eapply Permutation_in; [apply Permutation_map, Hp|assumption]).
  assert (Hg : forall r, In r ("vp" :: registered) -> occurrences r ms = match mget (payload_of false iss jti aud m) r with Some j => [j] | None => [] end).
  { intros r Hr. rewrite occ_nodup; [|assumption|intros k Hk; apply vp_registered_fold; auto].
    rewrite (mget_perm (payload_of false iss jti aud m) ms); [reflexivity|assumption|now apply Permutation_sym]. }
  assert (Hex : existsb (fun k => match occurrences k ms with [] => false | _ => true end) registered
    = negb (String.eqb iss "" && String.eqb jti "" && match aud with [] => true | _ => false end)).
  { unfold registered. cbn [existsb]. rewrite !Hg by (cbn; tauto). rewrite !payload_get. cbn [String.eqb Ascii.eqb Bool.eqb].
    destruct (String.eqb iss ""), (String.eqb jti ""), aud as [|a [|b l]]; reflexivity. }
  unfold pres_claims. rewrite Hex. rewrite !Hg by (cbn; tauto). rewrite !payload_get. cbn [String.eqb Ascii.eqb Bool.eqb].
  assert (S : forall s : string, fold_res str_step match (if String.eqb s "" then None else Some (JStr s)) with Some j => [j] | None => [] end "" = Ok s)
    by (intros s; destruct (String.eqb_spec s "") as [->|]; reflexivity).
  rewrite !S. cbn [bind]. assert (A : is_ok (fold_res aud_step match (match aud with [] => None | [a] => Some (JStr a) | _ => Some (JArr (map JStr aud)) end) with
     Some j => [j] | None => [] end []) = true).
  { destruct aud as [|a [|b l]]; [reflexivity..|]. unfold fold_res. cbn [fold_left bind]. unfold aud_step. rewrite all_strings_map. reflexivity. }
  destruct (fold_res aud_step _ []) as [u| |]; try discriminate. cbn [bind fold_res fold_left map_step].
  change (fold_left (fun acc kv => mset acc (fst kv) (snd kv)) m []) with (to_map m). now rewrite to_map_nodup.
Qed.
