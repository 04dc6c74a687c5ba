(** Lemmas about VcModel: contents round trip, modifications, data URLs. *)
From Verif Require Import GoBase JwtSpec DiSpec VcSpec JwtModel SdSpec SdModel VcModel.

Lemma mget_opt_set k v m k' :
  mget (opt_set k v m) k' = if String.eqb k' k then match v with Some x => Some x | None => mget m k' end else mget m k'.
Proof. destruct v; cbn [opt_set]; [apply mget_mset|]. now destruct (String.eqb k' k). Qed.

Lemma fld_mget m m' k : mget m k = mget m' k -> fld m k = fld m' k.
Proof. unfold fld. now intros ->. Qed.

(** parse_contents reads only the members below. *)
Definition data_model : list string :=
  ["@context"; "id"; "type"; "credentialSubject"; "credentialStatus"; "issuer"; "credentialSchema"; "evidence";
   "refreshService"; "relatedResource"; "termsOfUse"; "issuanceDate"; "expirationDate"; "validFrom"; "validUntil";
   "_sd_alg"].
Definition agree (ks : list string) (m m' : gomap json) : Prop := forall k, In k ks -> fld m k = fld m' k.
Lemma parse_contents_agree E m m' sd : agree data_model m m' -> parse_contents E m sd = parse_contents E m' sd.
Proof.
  intros H. unfold parse_contents, parse_sd_alg, parse_string_fld, parse_time_fld, parse_refresh.
  rewrite !H by (cbn; tauto). reflexivity.
Qed.

(** add_custom *)
Lemma mget_add_custom cf : forall m k,
  mget (add_custom m cf) k = match mget m k with Some v => Some v | None => mget cf k end.
Proof.
  unfold add_custom.
  induction cf as [|[k0 v0] cf IH]; intros m k; cbn [fold_left fst snd]; [cbn [mget]; now destruct (mget m k)|].
  rewrite IH. unfold mhas.
  destruct (mget m k0) as [x|] eqn:E; cbn [mget].
  - destruct (String.eqb_spec k k0) as [->|]; [|reflexivity]. now rewrite E.
  - rewrite mget_mset. destruct (String.eqb_spec k k0) as [->|]; [now rewrite E|reflexivity].
Qed.

(** split_obj *)
Lemma filter_all {A} (f : A -> bool) l : (forall x, In x l -> f x = true) -> filter f l = l.
Proof.
  induction l as [|a l IH]; intros H; cbn [filter]; [reflexivity|].
  rewrite (H a) by (left; reflexivity). f_equal. apply IH. intros; apply H; now right.
Qed.
Lemma filter_none {A} (f : A -> bool) l : (forall x, In x l -> f x = false) -> filter f l = [].
Proof.
  induction l as [|a l IH]; intros H; cbn [filter]; [reflexivity|].
  rewrite (H a) by (left; reflexivity). apply IH. intros; apply H; now right.
Qed.
Lemma split_custom (m : gomap json) ks : (forall k, In k ks -> no_key k m) -> split_obj m ks = ([], m).
Proof.
  intros H. unfold split_obj. rewrite filter_none, filter_all; [reflexivity| |].
  - intros [k v] Hin. cbn [fst]. apply negb_true_iff, str_in_nIn. intros Hk. apply (H k Hk).
    change k with (fst (k, v)). now apply in_map.
  - intros [k v] Hin. cbn [fst]. apply str_in_nIn. intros Hk. apply (H k Hk).
    change k with (fst (k, v)). now apply in_map.
Qed.
Lemma mset_new {V} (m : gomap V) k v : no_key k m -> mset m k v = (m ++ [(k, v)])%list.
Proof.
  unfold no_key. induction m as [|[k' v'] m IH]; cbn [mset map fst In app]; intros H; [reflexivity|].
  destruct (String.eqb_spec k k') as [->|]; [tauto|]. f_equal. apply IH. tauto.
Qed.
Lemma no_key_app {V} k (m m' : gomap V) : no_key k (m ++ m')%list <-> no_key k m /\ no_key k m'.
Proof. unfold no_key. rewrite map_app, in_app_iff. tauto. Qed.
Lemma split_app (a b : gomap json) ks :
  split_obj (a ++ b)%list ks = ((fst (split_obj a ks) ++ fst (split_obj b ks))%list, (snd (split_obj a ks) ++ snd (split_obj b ks))%list).
Proof. unfold split_obj. cbn [fst snd]. now rewrite !filter_app. Qed.

Lemma issuer_to_from i : is_id i <> "" -> no_key "id" (is_custom i) -> issuer_from (issuer_to i) = Ok i.
Proof.
  intros Hid Hk. unfold issuer_to, issuer_from.
  destruct (String.eqb_spec (is_id i) ""); [contradiction|].
  rewrite mset_new by assumption. rewrite split_app, split_custom by (intros k [<-|[]]; assumption).
  unfold split_obj, parse_string_fld, fld. cbn [fst snd filter str_in orb negb app mget bind].
  change (String.eqb "id" "id") with true. cbn [fst snd filter str_in orb negb app mget bind].
  change (String.eqb "id" "id") with true. cbn [orb negb app bind]. unfold guard.
  destruct (String.eqb_spec (is_id i) ""); [contradiction|]. cbn [negb bind]. rewrite app_nil_r. now destruct i.
Qed.
Lemma issuer_round i : is_id i <> "" -> no_key "id" (is_custom i) -> parse_issuer (Some (issuer_json i)) = Ok (Some i).
Proof.
  intros Hid Hk. unfold issuer_json. destruct (is_custom i) as [|x l] eqn:E.
  - cbn [parse_issuer]. destruct (String.eqb_spec (is_id i) ""); [contradiction|]. destruct i; cbn in *; now subst.
  - cbn [parse_issuer]. rewrite issuer_to_from; [reflexivity|assumption|now rewrite E].
Qed.
Lemma subject_round s : no_key "id" (sj_custom s) -> subject_from (subject_to s) = Ok s.
Proof.
  intros Hk. unfold subject_to, subject_from.
  destruct (String.eqb_spec (sj_id s) "") as [E|E].
  - rewrite split_custom by (intros k [<-|[]]; assumption). cbn. destruct s; cbn in *; now subst.
  - rewrite mset_new by assumption. rewrite split_app, split_custom by (intros k [<-|[]]; assumption).
    cbn. rewrite app_nil_r. now destruct s.
Qed.
Lemma typed_round t : no_key "id" (ti_custom t) -> no_key "type" (ti_custom t) -> parse_typed_obj (typed_obj t) = Ok t.
Proof.
  intros Hi Ht. unfold typed_obj, parse_typed_obj.
  rewrite (mset_new _ "id") by assumption.
  rewrite mset_new by (apply no_key_app; split; [assumption|unfold no_key; cbn; intuition discriminate]).
  rewrite !split_app, split_custom by (intros k [<-|[<-|[]]]; assumption).
  cbn. rewrite !app_nil_r. now destruct t.
Qed.

Lemma map_res_round {A B} (f : A -> B) (g : B -> res A) l : (forall x, In x l -> g (f x) = Ok x) -> map_res g (map f l) = Ok l.
Proof.
  induction l as [|x l IH]; intros H; cbn [map map_res]; [reflexivity|].
  rewrite (H x) by (left; reflexivity). cbn [bind]. rewrite IH by (intros; apply H; now right). reflexivity.
Qed.
Lemma map_res_map {A B C} (f : A -> B) (g : B -> res C) l : map_res g (map f l) = map_res (fun x => g (f x)) l.
Proof. induction l as [|x l IH]; cbn [map map_res]; [reflexivity|]. now rewrite IH. Qed.
Lemma map_res_ext {A B} (f g : A -> res B) l : (forall x, In x l -> f x = g x) -> map_res f l = map_res g l.
Proof.
  induction l as [|x l IH]; intros H; cbn [map_res]; [reflexivity|].
  rewrite (H x) by (left; reflexivity). now rewrite IH by (intros; apply H; now right).
Qed.

Lemma subjects_round l : (forall s, In s l -> no_key "id" (sj_custom s)) ->
  parse_subject (nonempty l (subjects_json l)) = Ok l.
Proof.
  intros H. destruct l as [|s [|s' l]]; cbn [nonempty subjects_json parse_subject]; [reflexivity| |].
  - rewrite subject_round by (apply H; left; reflexivity). reflexivity.
  - apply map_res_round. intros x Hx. cbn [obj_of bind]. apply subject_round. now apply H.
Qed.
Lemma typed_ids_round l : (forall t, In t l -> no_key "id" (ti_custom t) /\ no_key "type" (ti_custom t)) ->
  parse_typed_id (nonempty l (typed_ids_json l)) = Ok l.
Proof.
  intros H. destruct l as [|s [|s' l]]; cbn [nonempty typed_ids_json parse_typed_id]; [reflexivity| |].
  - destruct (H s) as [? ?]; [left; reflexivity|]. rewrite typed_round by assumption. reflexivity.
  - apply map_res_round. intros x Hx. cbn [obj_of bind]. destruct (H x Hx). now apply typed_round.
Qed.
Lemma typed_array_round l : (forall t, In t l -> no_key "id" (ti_custom t) /\ no_key "type" (ti_custom t)) ->
  new_typed_array (nonempty l (typed_ids_json l)) = Ok l.
Proof.
  intros H. destruct l as [|s [|s' l]]; cbn [nonempty typed_ids_json new_typed_array]; [reflexivity| |].
  - destruct (H s) as [? ?]; [left; reflexivity|]. rewrite typed_round by assumption. reflexivity.
  - rewrite map_res_map. cbn [obj_of].
    rewrite <- (map_res_map typed_obj (fun m => Ok m)).
    assert (Hid : forall l : list (gomap json), map_res (fun m => Ok m) l = Ok l).
    { clear. induction l as [|x l IH]; cbn [map_res]; [reflexivity|]. cbn [bind]. now rewrite IH. }
    rewrite Hid. cbn [bind]. apply map_res_round. intros x Hx. destruct (H x Hx). now apply typed_round.
Qed.
Lemma types_round l : l <> [] -> decode_type (nonempty l (types_json l)) = Ok l.
Proof.
  destruct l as [|t [|t' l]]; intros H; cbn [nonempty types_json decode_type]; [contradiction|reflexivity|].
  now apply map_res_round.
Qed.
Lemma take_strings_app l cc : (forall j r, cc = j :: r -> ~ is_string j) -> take_strings (map JStr l ++ cc)%list = (l, cc).
Proof.
  intros H. induction l as [|s l IH]; cbn [map app take_strings].
  - destruct cc as [|j r]; [reflexivity|]. specialize (H j r eq_refl).
    destruct j; try reflexivity. exfalso. apply H. now exists s.
  - now rewrite IH.
Qed.
Lemma context_round c cc : (c <> [] \/ cc <> []) -> (forall j r, cc = j :: r -> ~ is_string j) ->
  decode_context (nonempty (context_json c cc) (JArr (context_json c cc))) = Ok (c, cc).
Proof.
  intros Hne H. unfold context_json.
  destruct (map JStr c ++ cc)%list eqn:E.
  - exfalso. destruct c; cbn in E; [|discriminate]. subst. destruct Hne; contradiction.
  - cbn [nonempty decode_context]. rewrite <- E. now rewrite take_strings_app.
Qed.
Lemma relres_round E r :
  (let* m := obj_of "related resource of unsupported format" (relres_json r) in
   Ok {| rr_id := stringify E (fld m "id"); rr_sri := stringify E (fld m "digestSRI");
         rr_mb := stringify E (fld m "digestMultibase"); rr_media := stringify E (fld m "mediaType") |}) = Ok r.
Proof.
  destruct r as [a b c d]. unfold relres_json, opt_field. cbn [rr_id rr_sri rr_mb rr_media obj_of bind].
  destruct (String.eqb_spec a ""), (String.eqb_spec b ""), (String.eqb_spec c ""), (String.eqb_spec d "");
    subst; reflexivity.
Qed.
Lemma related_round E l : parse_related E (nonempty l (JArr (map relres_json l))) = Ok l.
Proof.
  destruct l as [|r l]; [reflexivity|]. cbn [nonempty parse_related]. apply map_res_round. intros; apply relres_round.
Qed.
Lemma refresh_round r : (forall t, r = Some t -> no_key "id" (ti_custom t) /\ no_key "type" (ti_custom t)) ->
  parse_refresh (option_map (fun t => JObj (typed_obj t)) r) = Ok r.
Proof.
  intros H. destruct r as [t|]; [|reflexivity]. destruct (H t eq_refl) as [? ?].
  unfold parse_refresh. cbn [option_map parse_typed_id]. now rewrite typed_round.
Qed.
Lemma hash_name_round h subs : parse_sd_alg_value (hash_name h) subs = Ok h.
Proof. destruct h; destruct subs as [|[? [|? ?]]]; reflexivity. Qed.

(** Members of the JSON form of a credential with contents [c]. *)
Definition v2 (c : contents) : bool := is_base_context (vc_context c) v2_context.
Definition members (E : tenv) (c : contents) (ps : list (gomap json)) : gomap (option json) :=
  [("@context", nonempty (context_json (vc_context c) (vc_custom_ctx c)) (JArr (context_json (vc_context c) (vc_custom_ctx c))));
   ("id", if String.eqb (vc_id c) "" then None else Some (JStr (vc_id c)));
   ("type", nonempty (vc_types c) (types_json (vc_types c)));
   ("credentialSubject", nonempty (vc_subject c) (subjects_json (vc_subject c)));
   ("proof", nonempty ps (proofs_to_raw ps));
   ("credentialStatus", nonempty (vc_status c) (typed_ids_json (vc_status c)));
   ("issuer", option_map issuer_json (vc_issuer c));
   ("credentialSchema", nonempty (vc_schemas c) (typed_ids_json (vc_schemas c)));
   ("evidence", vc_evidence c);
   ("refreshService", option_map (fun t => JObj (typed_obj t)) (vc_refresh c));
   ("relatedResource", nonempty (vc_related c) (JArr (map relres_json (vc_related c))));
   ("termsOfUse", nonempty (vc_terms c) (typed_ids_json (vc_terms c)));
   (if v2 c then "validFrom" else "issuanceDate", option_map (fun t => JStr (format_time E t)) (vc_issued c));
   (if v2 c then "validUntil" else "expirationDate", option_map (fun t => JStr (format_time E t)) (vc_expired c));
   ("_sd_alg", option_map (fun h => JStr (hash_name h)) (vc_sdalg c))].
Definition member (E : tenv) (c : contents) (ps : list (gomap json)) (k : string) : option json :=
  match mget (members E c ps) k with Some o => o | None => None end.

Lemma mget_fold_opt_set l : forall m k, NoDup (map fst l) ->
  mget (fold_left (fun m kv => opt_set (fst kv) (snd kv) m) l m) k =
  match mget l k with Some (Some v) => Some v | _ => mget m k end.
Proof.
  induction l as [|[k0 v0] l IH]; intros m k Hnd; cbn [fold_left fst snd mget]; [reflexivity|].
  inversion Hnd as [|? ? Hni Hnd']; subst.
  rewrite IH by assumption. rewrite mget_opt_set.
  destruct (String.eqb_spec k k0) as [->|]; [|reflexivity].
  apply mget_None in Hni. rewrite Hni. now destruct v0.
Qed.
Lemma members_nodup E c ps : NoDup (map fst (members E c ps)).
Proof.
  unfold members. cbn [map fst].
  destruct (v2 c); repeat (constructor; [cbn [In]; intuition discriminate|]); constructor.
Qed.
Lemma serialize_member E c ps k : mget (serialize_contents E c ps) k = member E c ps k.
Proof.
  change (serialize_contents E c ps) with
    (fold_left (fun m kv => opt_set (fst kv) (snd kv) m) (members E c ps) []).
  rewrite mget_fold_opt_set by apply members_nodup. unfold member.
  destruct (mget (members E c ps) k) as [[?|]|]; reflexivity.
Qed.

Lemma parse_time_member E m k t : fld m k = option_map (fun t => JStr (format_time E t)) t ->
  (forall x, t = Some x -> good_time E x) ->
  exists t', parse_time_fld E m k = Ok t' /\ same_opt (same_time E) t t'.
Proof.
  intros Hf Hg. unfold parse_time_fld. rewrite Hf. destruct t as [x|]; cbn [option_map]; [|exists None; now split].
  specialize (Hg x eq_refl). unfold good_time in Hg.
  assert (Hx : format_time E x = tw_text E x).
  { unfold format_time, tw_text. now destruct (String.eqb (tw_str x) ""). }
  rewrite Hx. unfold parse_wrapper. rewrite Hg. cbn [rmap].
  eexists; split; [reflexivity|]. split; [reflexivity|].
  unfold tw_text at 2. cbn [tw_str tw_time].
  destruct (String.eqb_spec (tw_text E x) ""); [|reflexivity].
  unfold tw_text in *. destruct (String.eqb_spec (tw_str x) ""); [reflexivity|contradiction].
Qed.

Definition norm (o : option json) : option json := match o with Some JNull | None => None | Some v => Some v end.
Lemma norm_nonempty {A} (l : list A) v : v <> JNull -> norm (nonempty l v) = nonempty l v.
Proof. destruct l; cbn; [reflexivity|]. now destruct v. Qed.
Lemma norm_map {A} (f : A -> json) o : (forall x, f x <> JNull) -> norm (option_map f o) = option_map f o.
Proof. intros H. destruct o as [x|]; cbn; [|reflexivity]. specialize (H x). now destruct (f x). Qed.
Lemma fld_norm m k : fld m k = norm (mget m k).
Proof. reflexivity. Qed.

Definition time_mem (E : tenv) (t : option twrap) := option_map (fun t => JStr (format_time E t)) t.
(** A JSON object that agrees with the members of the contents parses back to them. *)
Lemma parse_members E c m :
  expressible c ->
  (forall t, vc_issued c = Some t \/ vc_expired c = Some t -> good_time E t) ->
  (forall k, In k data_model -> fld m k = norm (member E c [] k)) ->
  exists c', parse_contents E m (match vc_sdalg c with Some _ => true | None => false end) = Ok c' /\ same_contents E c c'.
Proof.
  intros (Hctx & Hcc & Hty & Hsub & Hiss & Htyp & Hev) Ht Hm.
  assert (M : forall k o, In k data_model -> norm (member E c [] k) = o -> fld m k = o) by (intros; rewrite Hm; auto).
  unfold parse_contents.
  rewrite (M "credentialSchema" (nonempty (vc_schemas c) (typed_ids_json (vc_schemas c))));
    [|cbn; tauto|apply norm_nonempty; destruct (vc_schemas c) as [|? [|? ?]]; discriminate].
  rewrite typed_ids_round by (intros t Hin; apply Htyp; tauto). cbn [bind].
  rewrite (M "type" (nonempty (vc_types c) (types_json (vc_types c))));
    [|cbn; tauto|apply norm_nonempty; destruct (vc_types c) as [|? [|? ?]]; discriminate].
  rewrite types_round by assumption. cbn [bind].
  rewrite (M "issuer" (option_map issuer_json (vc_issuer c)));
    [|cbn; tauto|apply norm_map; intros [? [|? ?]]; discriminate].
  assert (Hi : parse_issuer (option_map issuer_json (vc_issuer c)) = Ok (vc_issuer c)).
  { destruct (vc_issuer c) as [i|] eqn:Ei; [|reflexivity]. destruct (Hiss i eq_refl). now apply issuer_round. }
  rewrite Hi. cbn [bind].
  rewrite (M "@context" (nonempty (context_json (vc_context c) (vc_custom_ctx c)) (JArr (context_json (vc_context c) (vc_custom_ctx c)))));
    [|cbn; tauto|apply norm_nonempty; discriminate].
  rewrite context_round by assumption. cbn [bind].
  rewrite (M "termsOfUse" (nonempty (vc_terms c) (typed_ids_json (vc_terms c))));
    [|cbn; tauto|unfold member, members; destruct (v2 c);apply norm_nonempty; destruct (vc_terms c) as [|? [|? ?]]; discriminate].
  rewrite typed_ids_round by (intros t Hin; apply Htyp; tauto). cbn [bind].
  rewrite (M "refreshService" (option_map (fun t => JObj (typed_obj t)) (vc_refresh c)));
    [|cbn; tauto|apply (norm_map (fun t => JObj (typed_obj t))); discriminate].
  rewrite refresh_round by (intros t Hin; apply Htyp; tauto). cbn [bind].
  rewrite (M "relatedResource" (nonempty (vc_related c) (JArr (map relres_json (vc_related c)))));
    [|cbn; tauto|apply norm_nonempty; discriminate].
  rewrite related_round. cbn [bind].
  rewrite (M "credentialSubject" (nonempty (vc_subject c) (subjects_json (vc_subject c))));
    [|cbn; tauto|apply norm_nonempty; destruct (vc_subject c) as [|? [|? ?]]; discriminate].
  rewrite subjects_round by assumption. cbn [bind].
  assert (Hsd : parse_sd_alg m (vc_subject c) (match vc_sdalg c with Some _ => true | None => false end) = Ok (vc_sdalg c)).
  { unfold parse_sd_alg. destruct (vc_sdalg c) as [h|] eqn:Eh; [|reflexivity].
    unfold parse_string_fld. rewrite (M "_sd_alg" (Some (JStr (hash_name h)))); [|cbn; tauto|].
    - cbn [bind]. now rewrite hash_name_round.
    - unfold member, members. destruct (v2 c); cbn; now rewrite Eh. }
  rewrite Hsd. cbn [bind].
  assert (Hid : parse_string_fld m "id" = Ok (vc_id c)).
  { unfold parse_string_fld. rewrite (M "id" (if String.eqb (vc_id c) "" then None else Some (JStr (vc_id c)))); [|cbn; tauto|].
    - destruct (String.eqb_spec (vc_id c) "") as [->|]; reflexivity.
    - change (norm (if String.eqb (vc_id c) "" then None else Some (JStr (vc_id c))) = if String.eqb (vc_id c) "" then None else Some (JStr (vc_id c))).
      now destruct (String.eqb (vc_id c) ""). }
  rewrite Hid. cbn [bind].
  assert (Hdates : fld m "issuanceDate" = (if v2 c then None else time_mem E (vc_issued c)) /\
                   fld m "validFrom" = (if v2 c then time_mem E (vc_issued c) else None) /\
                   fld m "expirationDate" = (if v2 c then None else time_mem E (vc_expired c)) /\
                   fld m "validUntil" = (if v2 c then time_mem E (vc_expired c) else None)).
  { unfold time_mem. repeat split; apply M; try (cbn; tauto); unfold member, members; destruct (v2 c); cbn [mget String.eqb Ascii.eqb Bool.eqb];
      try reflexivity; apply (norm_map (fun t => JStr (format_time E t))); discriminate. }
  destruct Hdates as (D1 & D2 & D3 & D4).
  assert (Hissued : exists t, (let* issued := parse_time_fld E m "issuanceDate" in
     match issued with None => parse_time_fld E m "validFrom" | Some _ => Ok issued end) = Ok t /\ same_opt (same_time E) (vc_issued c) t).
  { destruct (v2 c).
    - unfold parse_time_fld at 1. rewrite D1. cbn [bind].
      apply parse_time_member; [exact D2|intros; apply Ht; tauto].
    - destruct (parse_time_member E m "issuanceDate" (vc_issued c)) as (t & Hp & Hs); [exact D1|intros; apply Ht; tauto|].
      rewrite Hp. cbn [bind]. destruct t as [t|]; [eauto|]. unfold parse_time_fld. rewrite D2. eauto. }
  assert (Hexp : exists t, (let* expired := parse_time_fld E m "expirationDate" in
     match expired with None => parse_time_fld E m "validUntil" | Some _ => Ok expired end) = Ok t /\ same_opt (same_time E) (vc_expired c) t).
  { destruct (v2 c).
    - unfold parse_time_fld at 1. rewrite D3. cbn [bind].
      apply parse_time_member; [exact D4|intros; apply Ht; tauto].
    - destruct (parse_time_member E m "expirationDate" (vc_expired c)) as (t & Hp & Hs); [exact D3|intros; apply Ht; tauto|].
      rewrite Hp. cbn [bind]. destruct t as [t|]; [eauto|]. unfold parse_time_fld. rewrite D4. eauto. }
  destruct Hissued as (ti & Hti & Hsi). destruct Hexp as (te & Hte & Hse).
  destruct (parse_time_fld E m "issuanceDate") as [i0| |]; cbn [bind] in Hti |- *; try discriminate.
  rewrite Hti. cbn [bind].
  destruct (parse_time_fld E m "expirationDate") as [e0| |]; cbn [bind] in Hte |- *; try discriminate.
  rewrite Hte. cbn [bind].
  rewrite (M "credentialStatus" (nonempty (vc_status c) (typed_ids_json (vc_status c))));
    [|cbn; tauto|apply norm_nonempty; destruct (vc_status c) as [|? [|? ?]]; discriminate].
  rewrite typed_array_round by (intros t Hin; apply Htyp; tauto). cbn [bind].
  rewrite (M "evidence" (vc_evidence c));
    [|cbn; tauto|change (norm (vc_evidence c) = vc_evidence c); revert Hev; destruct (vc_evidence c) as [[]|]; intros; solve [reflexivity|contradiction]].
  eexists; split; [reflexivity|]. unfold same_contents; cbn. tauto.
Qed.
