(** Lemmas: the typed view agrees with the JSON object. *)
From Verif Require Import GoBase JwtSpec DiSpec VcSpec JwtModel SdSpec SdModel VcModel VcProofs.

Lemma fld_None m k : fld m k = None <-> absent m k.
Proof.
  unfold fld, absent. destruct (mget m k) as [[]|]; split; intros H; try discriminate; auto; destruct H; congruence.
Qed.
Lemma fld_Some m k v : fld m k = Some v -> mget m k = Some v.
Proof. unfold fld. destruct (mget m k) as [[]|]; congruence. Qed.
Lemma parse_string_in m k s : parse_string_fld m k = Ok s -> text_member m k s.
Proof.
  unfold parse_string_fld. destruct (fld m k) as [[]|] eqn:E; try discriminate; intros [= <-].
  - left. now apply fld_Some.
  - right. split; [now apply fld_None|reflexivity].
Qed.
Lemma mget_filter (P : string -> bool) (m : gomap json) k :
  mget (filter (fun kv => P (fst kv)) m) k = if P k then mget m k else None.
Proof.
  induction m as [|[k0 v0] m IH]; cbn [filter mget fst]; [now destruct (P k)|].
  destruct (P k0) eqn:E0; cbn [mget].
  - destruct (String.eqb_spec k k0) as [->|]; [now rewrite E0|exact IH].
  - destruct (String.eqb_spec k k0) as [->|]; [rewrite IH; now rewrite E0|exact IH].
Qed.
Lemma split_snd m ks : others m ks (snd (split_obj m ks)).
Proof.
  intros k. unfold split_obj. cbn [snd].
  rewrite (mget_filter (fun k => negb (str_in k ks))). now destruct (str_in k ks).
Qed.
Lemma split_fst m ks k : str_in k ks = true -> mget (fst (split_obj m ks)) k = mget m k.
Proof. intros H. unfold split_obj. cbn [fst]. rewrite (mget_filter (fun k => str_in k ks)). now rewrite H. Qed.
Lemma text_member_split m ks k s : str_in k ks = true ->
  text_member (fst (split_obj m ks)) k s -> text_member m k s.
Proof. intros H. unfold text_member, absent. now rewrite split_fst. Qed.
Lemma typed_obj_in o t : parse_typed_obj o = Ok t -> typed_in o t.
Proof.
  unfold parse_typed_obj. destruct (split_obj o ["id"; "type"]) as [f rest] eqn:Es. intros H.
  apply bind_ok in H as (id & Hi & H). apply bind_ok in H as (ty & Ht & H). injection H as <-.
  assert (Ef : f = fst (split_obj o ["id"; "type"])) by now rewrite Es.
  assert (Er : rest = snd (split_obj o ["id"; "type"])) by now rewrite Es.
  subst. split; [|split]; cbn.
  - eapply text_member_split; [|apply parse_string_in; eassumption]. reflexivity.
  - eapply text_member_split; [|apply parse_string_in; eassumption]. reflexivity.
  - apply split_snd.
Qed.
Lemma subject_from_in o s : subject_from o = Ok s -> subject_in o s.
Proof.
  unfold subject_from. destruct (split_obj o ["id"]) as [f rest] eqn:Es. intros H.
  apply bind_ok in H as (id & Hi & H). injection H as <-.
  assert (Ef : f = fst (split_obj o ["id"])) by now rewrite Es.
  assert (Er : rest = snd (split_obj o ["id"])) by now rewrite Es.
  subst. split; cbn.
  - eapply text_member_split; [|apply parse_string_in; eassumption]. reflexivity.
  - apply split_snd.
Qed.
Lemma issuer_from_in o i : issuer_from o = Ok i ->
  is_id i <> "" /\ mget o "id" = Some (JStr (is_id i)) /\ others o ["id"] (is_custom i).
Proof.
  unfold issuer_from. destruct (split_obj o ["id"]) as [f rest] eqn:Es. intros H.
  apply bind_ok in H as (id & Hi & H). apply bind_ok in H as (u & Hg & H). injection H as <-. cbn.
  assert (Ef : f = fst (split_obj o ["id"])) by now rewrite Es.
  assert (Er : rest = snd (split_obj o ["id"])) by now rewrite Es.
  unfold guard in Hg. destruct (String.eqb_spec id ""); [discriminate|].
  split; [assumption|]. subst. split; [|apply split_snd].
  apply parse_string_in in Hi. apply text_member_split in Hi; [|reflexivity].
  destruct Hi as [Hi|[_ Hi]]; [assumption|contradiction].
Qed.
Lemma map_res_forall2 {A B} (f : A -> res B) l r : map_res f l = Ok r -> Forall2 (fun a b => f a = Ok b) l r.
Proof.
  revert r. induction l as [|a l IH]; cbn [map_res]; intros r H; [injection H as <-; constructor|].
  apply bind_ok in H as (b & Hb & H). apply bind_ok in H as (bs & Hbs & H). injection H as <-.
  constructor; auto.
Qed.
Lemma Forall2_impl {A B} (P Q : A -> B -> Prop) l r : (forall a b, P a b -> Q a b) -> Forall2 P l r -> Forall2 Q l r.
Proof. intros H. induction 1; constructor; auto. Qed.
Lemma typed_ids_in m k l : parse_typed_id (fld m k) = Ok l -> one_or_many typed_in m k l.
Proof.
  unfold parse_typed_id. destruct (fld m k) as [[]|] eqn:E; try discriminate.
  - intros H. apply fld_Some in E. apply map_res_forall2 in H. eapply om_many; [eassumption|].
    eapply Forall2_impl; [|exact H]. intros a b Hab. apply bind_ok in Hab as (o & Ho & Hab).
    destruct a; try discriminate. injection Ho as <-. eexists; split; [reflexivity|]. now apply typed_obj_in.
  - intros H. apply fld_Some in E. destruct (parse_typed_obj m0) eqn:Et; try discriminate. injection H as <-.
    eapply om_one; [eassumption|]. now apply typed_obj_in.
  - intros [= <-]. apply om_none. now apply fld_None.
Qed.
Lemma typed_array_in m k l : new_typed_array (fld m k) = Ok l -> one_or_many typed_in m k l.
Proof.
  unfold new_typed_array. destruct (fld m k) as [[]|] eqn:E; try discriminate.
  - intros H. apply fld_Some in E. apply bind_ok in H as (ms & H1 & H2).
    eapply om_many; [eassumption|]. apply map_res_forall2 in H1, H2.
    clear E. revert l H2. induction H1 as [|a o l0 ms Ha H1 IH]; intros l H2; inversion H2; subst; constructor.
    + destruct a; try discriminate. injection Ha as <-. eexists; split; [reflexivity|]. now apply typed_obj_in.
    + now apply IH.
  - intros H. apply fld_Some in E. destruct (parse_typed_obj m0) eqn:Et; try discriminate. injection H as <-.
    eapply om_one; [eassumption|]. now apply typed_obj_in.
  - intros [= <-]. apply om_none. now apply fld_None.
Qed.
Lemma subjects_in m l : parse_subject (fld m "credentialSubject") = Ok l ->
  one_or_many subject_in m "credentialSubject" l
  \/ exists s, mget m "credentialSubject" = Some (JStr s) /\ l = [{| sj_id := s; sj_custom := [] |}].
Proof.
  unfold parse_subject. destruct (fld m "credentialSubject") as [[]|] eqn:E; try discriminate.
  - intros [= <-]. right. apply fld_Some in E. eauto.
  - intros H. left. apply fld_Some in E. apply map_res_forall2 in H. eapply om_many; [eassumption|].
    eapply Forall2_impl; [|exact H]. intros a b Hab. apply bind_ok in Hab as (o & Ho & Hab).
    destruct a; try discriminate. injection Ho as <-. eexists; split; [reflexivity|]. now apply subject_from_in.
  - intros H. left. apply fld_Some in E. destruct (subject_from m0) eqn:Et; try discriminate. injection H as <-.
    eapply om_one; [eassumption|]. now apply subject_from_in.
  - intros [= <-]. left. apply om_none. now apply fld_None.
Qed.
Lemma issuer_in_ok m i : parse_issuer (fld m "issuer") = Ok i -> issuer_in m i.
Proof.
  unfold parse_issuer. destruct (fld m "issuer") as [[]|] eqn:E; try discriminate.
  - destruct (String.eqb_spec s ""); [discriminate|]. intros [= <-]. apply fld_Some in E. cbn. split; auto.
  - intros H. destruct (issuer_from m0) eqn:Ei; try discriminate. injection H as <-. apply fld_Some in E.
    apply issuer_from_in in Ei as (H1 & H2 & H3). cbn. split; [assumption|]. right. eauto.
  - intros [= <-]. now apply fld_None.
Qed.
Lemma types_in m l : decode_type (fld m "type") = Ok l ->
  mget m "type" = Some (JArr (map JStr l)) \/ exists t, mget m "type" = Some (JStr t) /\ l = [t].
Proof.
  unfold decode_type. destruct (fld m "type") as [[]|] eqn:E; try discriminate; apply fld_Some in E.
  - intros [= <-]. right. eauto.
  - intros H. left. rewrite E. do 2 f_equal. apply map_res_forall2 in H.
    clear E. induction H as [|a b l0 r Hab H IH]; cbn [map]; [reflexivity|]. destruct a; try discriminate.
    injection Hab as <-. now rewrite IH.
Qed.
Lemma take_strings_spec l : (map JStr (fst (take_strings l)) ++ snd (take_strings l))%list = l.
Proof.
  induction l as [|a l IH]; cbn [take_strings]; [reflexivity|].
  destruct a; try reflexivity. destruct (take_strings l) as [x y] eqn:E. cbn [fst snd map app] in *. now rewrite IH.
Qed.
Lemma context_in m c : decode_context (fld m "@context") = Ok c ->
  mget m "@context" = Some (JArr (map JStr (fst c) ++ snd c)%list)
  \/ exists s, mget m "@context" = Some (JStr s) /\ fst c = [s] /\ snd c = [].
Proof.
  unfold decode_context. destruct (fld m "@context") as [[]|] eqn:E; try discriminate; apply fld_Some in E.
  - intros [= <-]. right. eauto.
  - intros [= <-]. left. rewrite E. do 2 f_equal. symmetry. apply take_strings_spec.
Qed.
Lemma parse_wrapper_in E s t : parse_wrapper E s = Ok t -> tw_str t = s /\ denotes E s (tw_time t).
Proof.
  unfold parse_wrapper, denotes. destruct (te_parse E s) as [x|] eqn:E1.
  - intros [= <-]. cbn. auto.
  - destruct (te_parse E (s ++ "Z")) as [x|] eqn:E2; [|discriminate]. intros [= <-]. cbn. auto.
Qed.
Lemma date_in_ok E m k1 k2 t :
  (let* t1 := parse_time_fld E m k1 in match t1 with None => parse_time_fld E m k2 | Some _ => Ok t1 end) = Ok t ->
  date_in E m k1 k2 t.
Proof.
  intros H. apply bind_ok in H as (t1 & H1 & H).
  unfold parse_time_fld in *. destruct (fld m k1) as [[]|] eqn:E1; try discriminate.
  - destruct (parse_wrapper E s) as [w| |] eqn:Ew; try discriminate. injection H1 as <-. injection H as <-.
    apply parse_wrapper_in in Ew as [? ?]. cbn. exists s. split; [left; now apply fld_Some|auto].
  - injection H1 as <-. destruct (fld m k2) as [[]|] eqn:E2; try discriminate.
    + destruct (parse_wrapper E s) as [w| |] eqn:Ew; try discriminate. injection H as <-.
      apply parse_wrapper_in in Ew as [? ?]. cbn. exists s. split; [right; split; [now apply fld_None|now apply fld_Some]|auto].
    + injection H as <-. cbn. split; now apply fld_None.
Qed.
Lemma stringify_in E m k : text_of E m k (stringify E (fld m k)).
Proof.
  destruct (fld m k) as [[]|] eqn:Ef; cbn [stringify];
    try (right; apply fld_Some in Ef; eexists; repeat split; [eassumption|discriminate|discriminate]).
  - unfold fld in Ef. destruct (mget m k) as [[]|]; discriminate.
  - left. left. now apply fld_Some.
  - left. right. split; [now apply fld_None|reflexivity].
Qed.
Lemma related_in_ok E m l : parse_related E (fld m "relatedResource") = Ok l ->
  one_or_many (related_in E) m "relatedResource" l /\ (forall o, mget m "relatedResource" <> Some (JObj o)).
Proof.
  unfold parse_related. destruct (fld m "relatedResource") as [[]|] eqn:Ef; try discriminate.
  - intros H. apply fld_Some in Ef. split; [|intros o; rewrite Ef; discriminate].
    apply map_res_forall2 in H. eapply om_many; [eassumption|].
    eapply Forall2_impl; [|exact H]. intros a b Hab. apply bind_ok in Hab as (o & Ho & Hab).
    destruct a; try discriminate. injection Ho as <-. injection Hab as <-. eexists; split; [reflexivity|].
    repeat split; apply stringify_in.
  - intros [= <-]. split; [apply om_none; now apply fld_None|].
    intros o Ho. unfold fld in Ef. rewrite Ho in Ef. discriminate.
Qed.
Lemma parse_view E m sd c : parse_contents E m sd = Ok c -> view E m c.
Proof.
  unfold parse_contents. intros H.
  apply bind_ok in H as (schemas & Hsch & H). apply bind_ok in H as (types & Hty & H).
  apply bind_ok in H as (iss & Hiss & H). apply bind_ok in H as (ctx & Hctx & H).
  apply bind_ok in H as (terms & Hterms & H). apply bind_ok in H as (refr & Hrefr & H).
  apply bind_ok in H as (rel & Hrel & H). apply bind_ok in H as (subs & Hsubs & H).
  apply bind_ok in H as (alg & Halg & H). apply bind_ok in H as (id & Hid & H).
  apply bind_ok in H as (i0 & Hi0 & H). apply bind_ok in H as (i1 & Hi1 & H).
  apply bind_ok in H as (e0 & He0 & H). apply bind_ok in H as (e1 & He1 & H).
  apply bind_ok in H as (sts & Hsts & H). injection H as <-.
  unfold view; cbn.
  split; [now apply parse_string_in|]. split; [now apply types_in|]. split; [now apply context_in|].
  split; [now apply issuer_in_ok|]. split; [now apply subjects_in|].
  split; [apply date_in_ok; rewrite Hi0; exact Hi1|].
  split; [apply date_in_ok; rewrite He0; exact He1|].
  split; [now apply typed_array_in|]. split; [now apply typed_ids_in|]. split; [now apply typed_ids_in|].
  split; [|split; [|now apply related_in_ok]].
  2:{ unfold parse_refresh in Hrefr. apply bind_ok in Hrefr as (l & Hl & Hr). injection Hr as <-.
      exists l. split; [now apply typed_ids_in|reflexivity]. }
  destruct (fld m "evidence") as [j|] eqn:Ee; [now apply fld_Some|now apply fld_None].
Qed.
