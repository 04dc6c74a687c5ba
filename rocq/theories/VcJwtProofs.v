(** How a JWT payload maps to a credential object: specification and lemmas (verifiable/credential_jwt.go). *)
From Coq Require Import Permutation.
From Verif Require Import GoBase Base64 StrLemmas JwtSpec DiSpec VcSpec JwtModel JwtProofs SdSpec SdModel SdParse DiModel VcModel
  VcJwt VcParse VcProofs VcView VcText VcSecure.

(** *** Specification *)
(** member names of a payload: no duplicates, and none is a registered name (or "vc") in another case *)
Definition plain_claims (ms : gomap json) : Prop :=
  NoDup (map fst ms) /\
  forall r k, In r ("vc" :: registered) -> In k (map fst ms) -> equal_fold r k = true -> k = r.
(** a NumericDate claim, truncated to whole seconds *)
Definition date_claim (ms : gomap json) (k : string) (d : option Z) : Prop :=
  match mget ms k with Some (JNum q) => d = Some (qtrunc q) | Some JNull | None => d = None | Some _ => False end.
(** the credential object before the registered claims are applied: the "vc" claim, or - when there is none - the
    claims that are not registered *)
Inductive body (ms m0 : gomap json) : Prop :=
| body_vc : mget ms "vc" = Some (JObj m0) -> m0 <> [] -> NoDup (map fst m0) -> body ms m0
| body_flat : mget ms "vc" = None ->
    (forall k j, In k registered -> mget ms k = Some j -> j <> JNull /\ j <> JStr "" /\ j <> JArr []) ->
    m0 <> [] -> m0 = filter (fun kv => negb (str_in (fst kv) registered)) ms -> body ms m0.
Definition issuer_rule (m0 m : gomap json) (iss : string) : Prop :=
  match mget m0 "issuer" with
  | None => mget m "issuer" = if String.eqb iss "" then None else Some (JStr iss)
  | Some (JStr s) => mget m "issuer" = Some (JStr (if String.eqb iss "" then s else iss))
  | Some (JObj o) => exists o', mget m "issuer" = Some (JObj o') /\
      forall k, mget o' k = if String.eqb k "id" && negb (String.eqb iss "") then Some (JStr iss) else mget o k
  | Some j => mget m "issuer" = Some j
  end.
Definition from_name (m0 : gomap json) : string := if has_base_context m0 v2_context then "validFrom" else "issuanceDate".
Definition until_name (m0 : gomap json) : string := if has_base_context m0 v2_context then "validUntil" else "expirationDate".
Definition date_rule (T : tenv) (m0 m : gomap json) (k : string) (d : option Z) : Prop :=
  mget m k = match d with Some n => Some (JStr (te_rfc T n)) | None => mget m0 k end.
Definition first_of {A} (a b : option A) : option A := match a with Some _ => a | None => b end.
Definition refined (T : tenv) (m0 m : gomap json) (iss jti : string) (nbf iat exp : option Z) : Prop :=
  issuer_rule m0 m iss
  /\ mget m "id" = (if String.eqb jti "" then mget m0 "id" else Some (JStr jti))
  /\ date_rule T m0 m (from_name m0) (first_of iat nbf)
  /\ date_rule T m0 m (until_name m0) exp
  /\ forall k, ~ In k ["issuer"; "id"; from_name m0; until_name m0] -> mget m k = mget m0 k.

(** *** Decoding *)
Lemma occ_nodup r (ms : gomap json) : NoDup (map fst ms) -> (forall k, In k (map fst ms) -> equal_fold r k = true -> k = r) ->
  occurrences r ms = match mget ms r with Some j => [j] | None => [] end.
Proof.
  unfold occurrences. induction ms as [|[k v] ms IH]; cbn [map fst filter mget]; intros Hn Hf; [reflexivity|].
  inversion Hn as [|? ? Hk Hn']; subst. specialize (IH Hn' (fun k' H => Hf k' (or_intror H))).
  destruct (String.eqb_spec r k) as [->|Hne].
  - assert (He : equal_fold k k = true) by apply String.eqb_refl. rewrite He. cbn [map snd]. rewrite IH.
    destruct (mget ms k) eqn:Em; [|reflexivity]. apply mget_In in Em. exfalso. apply Hk.
    change k with (fst (k, j)). now apply in_map.
  - destruct (equal_fold r k) eqn:Ee; [|assumption]. exfalso. apply Hne. symmetry. apply Hf; [now left|assumption].
Qed.
Lemma occ_plain r ms : plain_claims ms -> In r ("vc" :: registered) ->
  occurrences r ms = match mget ms r with Some j => [j] | None => [] end.
Proof. intros [Hn Hp] Hr. apply occ_nodup; [assumption|]. intros k. now apply Hp. Qed.
Lemma str_claim ms r s : plain_claims ms -> In r ("vc" :: registered) ->
  fold_res str_step (occurrences r ms) "" = Ok s -> text_member ms r s.
Proof.
  intros Hp Hr. rewrite occ_plain by assumption. unfold fold_res, text_member, absent.
  destruct (mget ms r) as [[]|]; cbn; intros H; try discriminate; injection H as <-; auto.
Qed.
Lemma dat_claim ms r d : plain_claims ms -> In r ("vc" :: registered) ->
  fold_res date_step (occurrences r ms) None = Ok d -> date_claim ms r d.
Proof.
  intros Hp Hr. rewrite occ_plain by assumption. unfold fold_res, date_claim.
  destruct (mget ms r) as [[]|]; cbn; intros H; try discriminate; injection H as <-; auto.
Qed.
Lemma map_claim ms vc : plain_claims ms -> fold_res map_step (occurrences "vc" ms) None = Ok vc ->
  match mget ms "vc" with
  | Some (JObj o) => vc = Some (to_map o) | Some JNull | None => vc = None | Some _ => False end.
Proof.
  intros Hp. rewrite occ_plain by (try assumption; cbn; tauto). unfold fold_res, to_map.
  destruct (mget ms "vc") as [[]|]; cbn; intros H; try discriminate; injection H as <-; auto.
Qed.
Lemma text_nonempty ms r s : text_member ms r s -> (forall j, mget ms r = Some j -> j <> JNull /\ j <> JStr "" /\ j <> JArr []) ->
  (s = "" <-> mget ms r = None).
Proof.
  intros [H|[[H|H] ->]] Hn.
  - split; [intros ->|congruence]. destruct (Hn _ H) as (_ & H1 & _). now destruct H1.
  - tauto.
  - destruct (Hn _ H) as (H1 & _). now destruct H1.
Qed.

(** the fields of decoded claims *)
Lemma aud_claim ms a : plain_claims ms -> fold_res aud_step (occurrences "aud" ms) [] = Ok a ->
  (forall j, mget ms "aud" = Some j -> j <> JNull /\ j <> JStr "" /\ j <> JArr []) -> (a = [] <-> mget ms "aud" = None).
Proof.
  intros Hp. rewrite occ_plain by (try assumption; cbn; tauto). unfold fold_res.
  destruct (mget ms "aud") as [j|] eqn:Ea; cbn; intros H Hn; [|injection H as <-; tauto].
  specialize (Hn j eq_refl). destruct j; try discriminate; cbn in H.
  - injection H as <-. split; discriminate.
  - destruct l as [|x l]; [destruct Hn as (_ & _ & Hn); congruence|]. cbn in H.
    destruct x; try discriminate. destruct (all_strings l); [|discriminate]. injection H as <-. split; discriminate.
Qed.
Lemma filter_ext_in' {A} (f g : A -> bool) l : (forall x, In x l -> f x = g x) -> filter f l = filter g l.
Proof.
  induction l as [|a l IH]; intros H; cbn [filter]; [reflexivity|].
  rewrite (H a) by (left; reflexivity). rewrite IH by (intros; apply H; now right). reflexivity.
Qed.

Lemma in_omit k r b : In k (omit_empty r b) <-> b = false /\ k = r.
Proof. unfold omit_empty. destruct b; cbn; intuition congruence. Qed.

Lemma claims_decoded ms c m0 : plain_claims ms -> body ms m0 -> unmarshal_claims ms = Ok c ->
  jc_vc c = Some m0 /\ text_member ms "iss" (jc_iss c) /\ text_member ms "jti" (jc_jti c)
  /\ date_claim ms "nbf" (jc_nbf c) /\ date_claim ms "iat" (jc_iat c) /\ date_claim ms "exp" (jc_exp c)
  /\ (jc_alloc c = true <-> exists k, In k registered /\ mget ms k <> None).
Proof.
  intros Hp Hb H. unfold unmarshal_claims in H. apply bind_ok in H as (d & Hd & H). injection H as Hc.
  unfold decode_claims in Hd.
  apply bind_ok in Hd as (iss & H1 & Hd). apply bind_ok in Hd as (sub & H2 & Hd). apply bind_ok in Hd as (aud & H3 & Hd).
  apply bind_ok in Hd as (exp & H4 & Hd). apply bind_ok in Hd as (nbf & H5 & Hd). apply bind_ok in Hd as (iat & H6 & Hd).
  apply bind_ok in Hd as (jti & H7 & Hd). apply bind_ok in Hd as (vc & H8 & Hd). injection Hd as <-.
  apply str_claim in H1; [|assumption|cbn; tauto]. apply str_claim in H2; [|assumption|cbn; tauto].
  apply dat_claim in H4; [|assumption|cbn; tauto]. apply dat_claim in H5; [|assumption|cbn; tauto].
  apply dat_claim in H6; [|assumption|cbn; tauto]. apply str_claim in H7; [|assumption|cbn; tauto].
  apply map_claim in H8; [|assumption].
  assert (Halloc : forall x, existsb (fun k => match occurrences k ms with [] => false | _ => true end) registered = x ->
    (x = true <-> exists k, In k registered /\ mget ms k <> None)).
  { intros x <-. rewrite existsb_exists. split; intros (k & Hk & Hx); exists k; (split; [assumption|]).
    - rewrite occ_plain in Hx by (try assumption; now right). destruct (mget ms k); [discriminate|discriminate].
    - rewrite occ_plain by (try assumption; now right). destruct (mget ms k); [reflexivity|now destruct Hx]. }
  set (d := {| jc_alloc := _; jc_iss := _; jc_sub := _; jc_jti := _; jc_aud := _; jc_exp := _; jc_nbf := _; jc_iat := _; jc_vc := _ |}) in *.
  set (custom := filter _ (to_map ms)) in Hc.
  assert (Hfields : jc_iss c = iss /\ jc_jti c = jti /\ jc_nbf c = nbf /\ jc_iat c = iat /\ jc_exp c = exp /\ jc_alloc c = jc_alloc d).
  { rewrite <- Hc. destruct (_ && _); cbn; auto 10. }
  destruct Hfields as (-> & -> & -> & -> & -> & ->).
  split; [|cbn [jc_alloc d]; repeat (split; [assumption|]); now apply Halloc].
  destruct Hb as [Hv Hne Hnd|Hv Hreg Hne Hm0].
  - rewrite Hv in H8. rewrite to_map_nodup in H8 by assumption. rewrite <- Hc.
    assert (Hl : vc_len0 d = false) by (unfold vc_len0; cbn [jc_vc d]; rewrite H8; now destruct m0).
    rewrite Hl, andb_false_r. cbn [jc_vc d]. assumption.
  - rewrite Hv in H8. assert (Hl : vc_len0 d = true) by (unfold vc_len0; cbn [jc_vc d]; now rewrite H8).
    assert (Hcu : custom = m0).
    { unfold custom. rewrite to_map_nodup by apply Hp. rewrite Hm0. apply filter_ext_in'. intros [k v] Hin. cbn [fst]. f_equal.
      assert (Hg : mget ms k = Some v) by (apply mget_In_nodup; [apply Hp|assumption]).
      assert (Hkv : k <> "vc") by congruence.
      assert (Ht : forall r s, text_member ms r s -> In r registered -> k = r -> String.eqb s "" = false).
      { intros r s Hts Hr ->. destruct (String.eqb_spec s "") as [->|]; [|reflexivity]. exfalso.
        assert (mget ms r = None) by (apply (text_nonempty ms r ""); [assumption|intros; now apply (Hreg r)|reflexivity]). congruence. }
      assert (Hdd : forall r x, date_claim ms r x -> In r registered -> k = r -> is_none x = false).
      { intros r x Htd Hr ->. destruct x; [reflexivity|]. unfold date_claim in Htd. rewrite Hg in Htd.
        destruct v; try discriminate; try contradiction. destruct (Hreg r _ Hr Hg) as (Hx' & _). now destruct Hx'. }
      assert (Ha : k = "aud" -> is_empty aud = false).
      { intros ->. destruct aud; [|reflexivity]. exfalso.
        assert (mget ms "aud" = None) by (apply (aud_claim ms []); [assumption|assumption|intros; apply (Hreg "aud"); [cbn; tauto|assumption]|reflexivity]).
        congruence. }
      apply Bool.eq_iff_eq_true. rewrite !str_in_In. unfold field_names. cbn [jc_iss jc_sub jc_aud jc_exp jc_nbf jc_iat jc_jti d].
      rewrite !in_app_iff, !in_omit. split.
      + intros Hk. repeat destruct Hk as [Hk|Hk]; destruct Hk as [_ ->]; cbn; tauto.
      + intros Hk. cbn [registered In] in Hk.
        assert (Hk2 : "iss" = k \/ "sub" = k \/ "aud" = k \/ "exp" = k \/ "nbf" = k \/ "iat" = k \/ "jti" = k) by tauto.
        clear Hk. destruct Hk2 as [Hk|[Hk|[Hk|[Hk|[Hk|[Hk|Hk]]]]]]; symmetry in Hk.
        * left. split; [apply (Ht "iss")|]; auto. cbn; tauto.
        * right; left. split; [apply (Ht "sub")|]; auto. cbn; tauto.
        * do 2 right; left. auto.
        * do 3 right; left. split; [apply (Hdd "exp")|]; auto. cbn; tauto.
        * do 4 right; left. split; [apply (Hdd "nbf")|]; auto. cbn; tauto.
        * do 5 right; left. split; [apply (Hdd "iat")|]; auto. cbn; tauto.
        * do 6 right; left. split; [apply (Ht "jti")|]; auto. cbn; tauto. }
    rewrite <- Hc, Hl, Hcu. destruct m0 as [|x m0]; [now destruct Hne|]. reflexivity.
Qed.

(** *** Applying the registered claims *)
Lemma base_ctx_ext m m' c : mget m "@context" = mget m' "@context" -> has_base_context m c = has_base_context m' c.
Proof. unfold has_base_context, mhas, fld. now intros ->. Qed.
Lemma from_cases m : from_name m = "validFrom" \/ from_name m = "issuanceDate".
Proof. unfold from_name. destruct (has_base_context _ _); auto. Qed.
Lemma until_cases m : until_name m = "validUntil" \/ until_name m = "expirationDate".
Proof. unfold until_name. destruct (has_base_context _ _); auto. Qed.
Lemma names_ext m m' : mget m "@context" = mget m' "@context" -> from_name m = from_name m' /\ until_name m = until_name m'.
Proof. intros H. unfold from_name, until_name. now rewrite (base_ctx_ext _ _ _ H). Qed.
Ltac names m := destruct (from_cases m) as [?F|?F], (until_cases m) as [?U|?U]; rewrite ?F, ?U in *.

Definition did_conflict (m0 : gomap json) (iss : string) : Prop :=
  exists id, (mget m0 "issuer" = Some (JStr id) \/ exists o, mget m0 "issuer" = Some (JObj o) /\ mget o "id" = Some (JStr id))
    /\ has_prefix "did:" iss = true /\ has_prefix "did:" id = true /\ iss <> id.
Lemma refine_issuer_ok m0 iss m : iss <> "" -> refine_issuer (Some m0) iss = Ok m ->
  exists m1, m = Some m1 /\ issuer_rule m0 m1 iss /\ (forall k, k <> "issuer" -> mget m1 k = mget m0 k)
    /\ ~ did_conflict m0 iss.
Proof.
  intros Hne. unfold refine_issuer, issuer_rule. cbn [oget oset]. rewrite (proj2 (String.eqb_neq iss "") Hne).
  assert (Hset : forall j k, k <> "issuer" -> mget (mset m0 "issuer" j) k = mget m0 k).
  { intros j k Hk. rewrite mget_mset. destruct (String.eqb_spec k "issuer"); [contradiction|reflexivity]. }
  destruct (mget m0 "issuer") as [v|] eqn:Ei.
  - intros H. apply bind_ok in H as (id & Hid & H).
    destruct (has_prefix "did:" iss && has_prefix "did:" id && negb (String.eqb iss id)) eqn:Ec; [discriminate|].
    assert (Hnc : forall x, x = id -> (has_prefix "did:" iss = true /\ has_prefix "did:" x = true /\ iss <> x) -> False).
    { intros x -> (A & B & C). rewrite A, B in Ec. cbn [andb] in Ec. apply negb_false_iff, String.eqb_eq in Ec. contradiction. }
    assert (Hconf : ~ did_conflict m0 iss).
    { intros (x & Hx & Hc). apply (Hnc x); [|assumption]. destruct Hx as [Hx|(o & Hx & Ho)].
      - rewrite Ei in Hx. injection Hx as ->. cbn in Hid. congruence.
      - rewrite Ei in Hx. injection Hx as ->. unfold parse_string_fld, fld in Hid. rewrite Ho in Hid. congruence. }
    destruct v; cbn in H; injection H as <-; eexists; (split; [reflexivity|]); rewrite ?mget_mset; cbn [String.eqb Ascii.eqb Bool.eqb];
      (split; [|split; auto]); try assumption.
    + reflexivity.
    + eexists. split; [reflexivity|]. intros k. rewrite mget_mset. cbn [negb]. rewrite andb_true_r.
      destruct (String.eqb_spec k "id") as [->|]; reflexivity.
  - intros [= <-]. eexists; split; [reflexivity|]. rewrite mget_mset. cbn. split; [reflexivity|]. split; [auto|].
    intros (x & [Hx|(o & Hx & _)] & _); congruence.
Qed.
Lemma refine_date_ok T d m f2 f1 m' : refine_date T d (Some m) f2 f1 = Ok m' ->
  exists m1, m' = Some m1 /\ m1 = match d with Some n => mset m (if has_base_context m v2_context then f2 else f1) (JStr (te_rfc T n)) | None => m end.
Proof. unfold refine_date. destruct d; cbn; intros [= <-]; eauto. Qed.
Lemma issuer_rule_same m0 : issuer_rule m0 m0 "".
Proof.
  unfold issuer_rule. destruct (mget m0 "issuer") as [[]|]; try reflexivity.
  eexists; split; [reflexivity|]. intros k. now rewrite andb_false_r.
Qed.
Lemma issuer_rule_ext m0 m m' iss : mget m "issuer" = mget m' "issuer" -> issuer_rule m0 m iss -> issuer_rule m0 m' iss.
Proof. intros H. unfold issuer_rule. now rewrite H. Qed.
Lemma refine_ok T c m0 m : jc_vc c = Some m0 -> refine T c = Ok m ->
  exists m1, m = Some m1 /\ refined T m0 m1 (jc_iss c) (jc_jti c) (jc_nbf c) (jc_iat c) (jc_exp c)
    /\ jc_alloc c = true /\ ~ (jc_iss c <> "" /\ did_conflict m0 (jc_iss c)).
Proof.
  intros Hvc H. unfold refine in H. destruct (jc_alloc c) eqn:Ea; [|discriminate]. cbn [negb] in H.
  apply bind_ok in H as (x1 & H1 & H). rewrite Hvc in H1.
  assert (G1 : exists a, x1 = Some a /\ issuer_rule m0 a (jc_iss c) /\ (forall k, k <> "issuer" -> mget a k = mget m0 k)
               /\ ~ (jc_iss c <> "" /\ did_conflict m0 (jc_iss c))).
  { destruct (String.eqb_spec (jc_iss c) "") as [E|E].
    - injection H1 as <-. exists m0. rewrite E. split; [reflexivity|]. split; [apply issuer_rule_same|]. split; [auto|]. tauto.
    - apply refine_issuer_ok in H1 as (a & -> & R & K & N); [|assumption]. exists a. tauto. }
  clear H1. destruct G1 as (a & -> & Ra & Ka & Na).
  apply bind_ok in H as (x2 & H2 & H). apply refine_date_ok in H2 as (b & -> & Hb).
  apply bind_ok in H as (x3 & H3 & H).
  assert (G3 : exists d, x3 = Some d /\ d = if String.eqb (jc_jti c) "" then b else mset b "id" (JStr (jc_jti c))).
  { destruct (String.eqb (jc_jti c) ""); cbn in H3; injection H3 as <-; eauto. }
  destruct G3 as (d & -> & Hd). apply bind_ok in H as (x4 & H4 & H). apply refine_date_ok in H4 as (e & -> & He).
  apply refine_date_ok in H as (f & -> & Hf).
  assert (Ca : mget a "@context" = mget m0 "@context") by (apply Ka; discriminate).
  assert (Cb : mget b "@context" = mget m0 "@context").
  { rewrite <- Ca, Hb. destruct (jc_nbf c); [|reflexivity]. rewrite mget_mset. destruct (has_base_context a v2_context); reflexivity. }
  assert (Cd : mget d "@context" = mget m0 "@context").
  { rewrite <- Cb, Hd. destruct (String.eqb (jc_jti c) ""); [reflexivity|]. rewrite mget_mset. reflexivity. }
  assert (Ce : mget e "@context" = mget m0 "@context").
  { rewrite <- Cd, He. destruct (jc_iat c); [|reflexivity]. rewrite mget_mset. destruct (has_base_context d v2_context); reflexivity. }
  rewrite (base_ctx_ext a m0) in Hb by assumption. rewrite (base_ctx_ext d m0) in He by assumption.
  rewrite (base_ctx_ext e m0) in Hf by assumption.
  fold (from_name m0) in Hb, He. fold (until_name m0) in Hf.
  assert (Hall : forall k, mget f k =
     if String.eqb k (until_name m0) then match jc_exp c with Some n => Some (JStr (te_rfc T n)) | None => mget m0 k end
     else if String.eqb k (from_name m0) then match first_of (jc_iat c) (jc_nbf c) with Some n => Some (JStr (te_rfc T n)) | None => mget m0 k end
     else if String.eqb k "id" then if String.eqb (jc_jti c) "" then mget m0 k else Some (JStr (jc_jti c))
     else mget a k).
  { intros k. subst f e d b. unfold first_of. names m0;
    destruct (jc_exp c), (jc_iat c), (jc_nbf c), (String.eqb (jc_jti c) ""); rewrite ?mget_mset;
    repeat match goal with |- context [String.eqb k ?s] => destruct (String.eqb_spec k s); [subst k; try reflexivity; now rewrite ?Ka by discriminate|] end;
    try reflexivity. }
  exists f. split; [reflexivity|]. split; [|split; [reflexivity|assumption]].
  unfold refined, date_rule. split; [|split; [|split; [|split]]].
  - apply (issuer_rule_ext _ a); [|assumption]. rewrite Hall. names m0; reflexivity.
  - rewrite Hall. names m0; reflexivity.
  - rewrite Hall. names m0; reflexivity.
  - rewrite Hall. rewrite String.eqb_refl. reflexivity.
  - intros k Hk. cbn [In] in Hk. rewrite Hall.
    destruct (String.eqb_spec k (until_name m0)); [exfalso; subst; tauto|].
    destruct (String.eqb_spec k (from_name m0)); [exfalso; subst; tauto|].
    destruct (String.eqb_spec k "id"); [exfalso; subst; tauto|]. apply Ka. intros ->. tauto.
Qed.

Lemma jwt_contents_refined E payload ms m0 m : jwt_contents E payload m -> ve_members E payload = Some ms ->
  plain_claims ms -> body ms m0 ->
  exists iss jti nbf iat exp, text_member ms "iss" iss /\ text_member ms "jti" jti /\ date_claim ms "nbf" nbf
    /\ date_claim ms "iat" iat /\ date_claim ms "exp" exp
    /\ refined (ve_time E) m0 m iss jti nbf iat exp
    /\ ~ (iss <> "" /\ did_conflict m0 iss) /\ (exists k, In k registered /\ mget ms k <> None).
Proof.
  intros (c & x & Hc & Hr & ->) Hm Hp Hb. unfold claims_of in Hc. rewrite Hm in Hc.
  destruct (claims_decoded ms c m0 Hp Hb Hc) as (Hv & H1 & H2 & H3 & H4 & H5 & H6).
  apply (refine_ok _ _ m0) in Hr as (m1 & -> & Hr & Ha & Hn); [|assumption].
  exists (jc_iss c), (jc_jti c), (jc_nbf c), (jc_iat c), (jc_exp c). tauto.
Qed.
