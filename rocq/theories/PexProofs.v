(** Proofs about presexch filters: C15, C16, C41. *)
From Verif Require Import GoBase PexSpec PexModel.

(** ** selects *)
Lemma selects_filter {A} (P : A -> Prop) (f : A -> bool) l :
  (forall x, f x = true <-> P x) -> selects P l (filter f l).
Proof.
  intros H. induction l as [|x l IH]; cbn; [constructor|].
  destruct (f x) eqn:E.
  - constructor; [now apply H|assumption].
  - apply sel_no; [intros HP; apply H in HP; congruence|assumption].
Qed.
Lemma selects_det {A} (P : A -> Prop) l a : selects P l a -> forall b, selects P l b -> a = b.
Proof.
  induction 1 as [|x l l' Hx H IH|x l l' Hx H IH]; intros b Hb; inversion Hb; subst; auto; try contradiction.
  f_equal. auto.
Qed.
Lemma selects_iff {A} (P : A -> Prop) (f : A -> bool) l a :
  (forall x, f x = true <-> P x) -> (selects P l a <-> filter f l = a).
Proof.
  intros H. pose proof (selects_filter P f l H) as Hf. split; [intros Ha; eapply selects_det; eassumption|].
  intros <-. exact Hf.
Qed.

(** ** C16 *)
Lemma cred_by_proof_iff c o : cred_by_proof c o = true <-> proof_allowed c o.
Proof.
  unfold cred_by_proof, proof_allowed, has_proof_with_type. destruct o as [l|].
  - rewrite existsb_exists. split.
    + intros (t & Ht & H). apply existsb_exists in H as (p & Hp & He).
      destruct p as [[| | |s| |]|]; try discriminate. apply String.eqb_eq in He. subst s. exists l, t. auto.
    + intros (l' & t & [= <-] & Ht & Hp). exists t. split; [assumption|]. apply existsb_exists.
      exists (Some (JStr t)). split; [assumption|]. cbn. apply String.eqb_refl.
  - split; [discriminate|]. intros (l & t & H & _). discriminate.
Qed.
Definition alg_ok (c : cred) (o : option (list string)) : bool :=
  match (if c_jwt c then c_alg c else None) with Some a => alg_match a o | None => false end.
Lemma alg_ok_iff c o : alg_ok c o = true <-> alg_allowed c o.
Proof.
  unfold alg_ok, alg_allowed, alg_match. destruct (c_jwt c); [destruct (c_alg c) as [a|]|].
  - destruct o as [l|].
    + rewrite existsb_exists. split.
      * intros (b & Hb & He). exists l, a, b. auto.
      * intros (l' & a' & b & [= <-] & _ & [= <-] & Hb & He). eauto.
    + split; [discriminate|]. intros (l & ? & ? & H & _). discriminate.
  - split; [discriminate|]. intros (l & ? & ? & _ & _ & H & _). discriminate.
  - split; [discriminate|]. intros (l & ? & ? & _ & H & _). discriminate.
Qed.

Lemma format_fold f creds : forall b,
  fold_left (format_step f) creds b =
  {| b_ldp := b_ldp b ++ filter (fun c => cred_by_proof c (f_ldp f)) creds;
     b_ldpvc := b_ldpvc b ++ filter (fun c => cred_by_proof c (f_ldp_vc f)) creds;
     b_ldpvp := b_ldpvp b ++ filter (fun c => cred_by_proof c (f_ldp_vp f)) creds;
     b_jwt := b_jwt b ++ filter (fun c => alg_ok c (f_jwt f)) creds;
     b_jwtvc := b_jwtvc b ++ filter (fun c => alg_ok c (f_jwt_vc f)) creds;
     b_jwtvp := b_jwtvp b ++ filter (fun c => alg_ok c (f_jwt_vp f)) creds |}%list.
Proof.
  induction creds as [|c cs IH]; intros b; cbn [fold_left filter].
  - rewrite !app_nil_r. now destruct b.
  - rewrite IH. unfold format_step, app_if. cbn [b_ldp b_ldpvc b_ldpvp b_jwt b_jwtvc b_jwtvp].
    fold (alg_ok c (f_jwt f)). fold (alg_ok c (f_jwt_vc f)). fold (alg_ok c (f_jwt_vp f)).
    f_equal; match goal with |- app (if ?t then _ else _) _ = _ => destruct t end;
      rewrite <- ?app_assoc; reflexivity.
Qed.

Definition first_b (creds : list cred) : list (string * (cred -> bool)) -> string * list cred :=
  fix go l := match l with [] => ("", []) | (n, p) :: r => if is_nil (filter p creds) then go r else (n, filter p creds) end.
Definition priority_b (f : pformat) : list (string * (cred -> bool)) :=
  [("ldp", fun c => cred_by_proof c (f_ldp f)); ("ldp_vc", fun c => cred_by_proof c (f_ldp_vc f));
   ("ldp_vp", fun c => cred_by_proof c (f_ldp_vp f)); ("jwt", fun c => alg_ok c (f_jwt f));
   ("jwt_vc", fun c => alg_ok c (f_jwt_vc f)); ("jwt_vp", fun c => alg_ok c (f_jwt_vp f))].
Lemma filter_format_first f creds : filter_format f creds = first_b creds (priority_b f).
Proof.
  unfold filter_format. rewrite format_fold. cbn [b_ldp b_ldpvc b_ldpvp b_jwt b_jwtvc b_jwtvp no_buckets app].
  unfold first_b, priority_b.
  repeat match goal with |- context [is_nil ?l] => destruct (is_nil l); cbn [negb]; [|reflexivity] end. reflexivity.
Qed.
Lemma first_format_iff creds l lb n r :
  Forall2 (fun a b => fst a = fst b /\ forall c, snd b c = true <-> snd a c) l lb ->
  (first_format creds l n r <-> first_b creds lb = (n, r)).
Proof.
  intros HF. revert n r. induction HF as [|[na P] [nb p] l lb [Hn Hp] HF IH]; intros n r.
  - cbn. split; [inversion 1; reflexivity|]. intros [= <- <-]. constructor.
  - cbn in Hn, Hp. subst nb. cbn [first_b]. fold (first_b creds).
    pose proof (selects_filter P p creds Hp) as Hs. split.
    + inversion 1 as [|? ? ? ? Hsel Hne|? ? ? ? ? Hsel Hrest]; subst.
      * rewrite (selects_det _ _ _ Hs _ Hsel). destruct r; [congruence|reflexivity].
      * rewrite (selects_det _ _ _ Hs _ Hsel). cbn. now apply IH.
    + destruct (filter p creds) as [|c cs] eqn:E; cbn [is_nil].
      * intros H. apply ff_next; [assumption|]. now apply IH.
      * intros [= <- <-]. apply ff_here; [assumption|discriminate].
Qed.
Lemma filter_format_iff f creds n l :
  first_format creds (format_priority f) n l <-> filter_format f creds = (n, l).
Proof.
  rewrite filter_format_first. apply first_format_iff.
  unfold format_priority, priority_b.
  repeat (apply Forall2_cons || apply Forall2_nil); (split; [reflexivity|]); intros c; cbn [snd];
    (apply cred_by_proof_iff || apply alg_ok_iff).
Qed.

(** ** C41: schemas *)
Section Schema.
  Variable ctx : Type.
  Variable load : string -> res ctx.
  Variable type_ids : ctx -> string -> option (list string).

  (** An id is offered by a credential: one of its contexts defines one of its types with that id. *)
  Definition offers (c : cred) (id : string) : Prop :=
    exists x t cx l, In x (c_contexts c) /\ In t (c_types c) /\ load x = Ok cx /\ type_ids cx t = Some l /\ In id l.
  Definition schemas_ok (schemas : list schema) (c : cred) : Prop :=
    (forall s, In s schemas -> sc_required s = true -> offers c (sc_uri s)) /\
    (exists s, In s schemas /\ offers c (sc_uri s)).

  Lemma schemas_applicable_iff ids l acc :
    schemas_applicable ids l acc = true <->
    (forall s, In s l -> sc_required s = true -> In (sc_uri s) ids) /\
    (acc = true \/ exists s, In s l /\ In (sc_uri s) ids).
  Proof.
    revert acc. induction l as [|s ss IH]; intros acc; cbn [schemas_applicable].
    - split; [intros ->; split; [intros ? []|now left]|]. intros [_ [H|(s & [] & _)]]; assumption.
    - destruct (str_in (sc_uri s) ids) eqn:E.
      + apply str_in_In in E. rewrite IH. split.
        * intros [H1 _]. split; [intros s' [<-|Hin]; auto|]. right. exists s. split; [now left|assumption].
        * intros [H1 _]. split; [intros; apply H1; auto; now right|now left].
      + apply str_in_nIn in E. destruct (sc_required s) eqn:Er.
        * split; [discriminate|]. intros [H1 _]. exfalso. apply E. apply H1; [now left|assumption].
        * rewrite IH. split.
          -- intros [H1 H2]. split; [intros s' [<-|Hin]; [congruence|auto]|].
             destruct H2 as [->|(s' & A & B)]; [now left|right; exists s'; split; [now right|assumption]].
          -- intros [H1 H2]. split; [intros s' Hin; apply H1; now right|].
             destruct H2 as [->|(s' & [<-|A] & B)]; [now left|contradiction|right; eauto].
  Qed.

  Definition cache_ok (cache : gomap ctx) : Prop := forall x c, mget cache x = Some c -> load x = Ok c.
  Lemma in_ids_of_types c types id :
    In id (ids_of_types _ type_ids c types) <-> exists t l, In t types /\ type_ids c t = Some l /\ In id l.
  Proof.
    unfold ids_of_types. rewrite in_concat. split.
    - intros (x & Hx & Hid). apply in_map_iff in Hx as (t & <- & Ht).
      destruct (type_ids c t) as [l|] eqn:E; [|destruct Hid]. eauto.
    - intros (t & l & Ht & E & Hid). exists l. split; [|assumption]. apply in_map_iff. exists t. now rewrite E.
  Qed.
  Lemma satisfied_ids_spec types ctxs : forall cache, cache_ok cache ->
    match satisfied_ids _ load type_ids cache ctxs types with
    | Ok (cache', ids) => cache_ok cache' /\ (forall x, In x ctxs -> exists c, load x = Ok c) /\
        forall id, In id ids <-> exists x t cx l, In x ctxs /\ In t types /\ load x = Ok cx /\ type_ids cx t = Some l /\ In id l
    | Err e => exists x, In x ctxs /\ load x = Err e
    | Panic => exists x, In x ctxs /\ load x = Panic
    end.
  Proof.
    induction ctxs as [|x xs IH]; intros cache Hc; cbn [satisfied_ids].
    - split; [assumption|]. split; [intros ? []|]. intros id. split; [intros []|]. intros (x & ? & ? & ? & [] & _).
    - assert (G : match mget cache x with Some c => Ok (c, cache) | None => let* c := load x in Ok (c, mset cache x c) end =
                  match load x with Ok c => Ok (c, if mhas cache x then cache else mset cache x c) | Err e => Err e | Panic => Panic end).
      { unfold mhas. destruct (mget cache x) as [c|] eqn:E; [rewrite (Hc x c E); reflexivity|].
        destruct (load x); reflexivity. }
      rewrite G. clear G. destruct (load x) as [c|e|] eqn:El; cbn [bind fst snd].
      2:{ exists x. split; [now left|assumption]. }
      2:{ exists x. split; [now left|assumption]. }
      set (cache2 := if mhas cache x then cache else mset cache x c).
      assert (Hc2 : cache_ok cache2).
      { unfold cache2. destruct (mhas cache x); [assumption|]. intros y cy. rewrite mget_mset.
        destruct (String.eqb_spec y x) as [->|]; [intros [= <-]; assumption|apply Hc]. }
      specialize (IH cache2 Hc2).
      destruct (satisfied_ids _ load type_ids cache2 xs types) as [[cache' ids]|e|]; cbn [bind fst snd].
      + destruct IH as (A & B & C). split; [assumption|]. split; [intros y [<-|Hy]; eauto|].
        intros id. rewrite in_app_iff, in_ids_of_types, C. split.
        * intros [(t & l & H1 & H2 & H3)|(y & t & cx & l & H1 & H2)].
          -- exists x, t, c, l. split; [now left|]. auto.
          -- exists y, t, cx, l. split; [now right|]. auto.
        * intros (y & t & cx & l & [<-|H1] & H2 & H3 & H4 & H5).
          -- left. rewrite El in H3. injection H3 as <-. eauto.
          -- right. exists y, t, cx, l. auto.
      + destruct IH as (y & Hy & E). exists y. split; [now right|assumption].
      + destruct IH as (y & Hy & E). exists y. split; [now right|assumption].
  Qed.

  Lemma filter_schema_loop_spec schemas creds : forall cache, cache_ok cache ->
    match filter_schema_loop _ load type_ids schemas cache creds with
    | Ok l => (forall c x, In c creds -> In x (c_contexts c) -> exists cx, load x = Ok cx) /\
              selects (schemas_ok schemas) creds l
    | Err e => exists c x, In c creds /\ In x (c_contexts c) /\ load x = Err e
    | Panic => exists c x, In c creds /\ In x (c_contexts c) /\ load x = Panic
    end.
  Proof.
    induction creds as [|c cs IH]; intros cache Hc; cbn [filter_schema_loop].
    - split; [intros ? ? []|constructor].
    - pose proof (satisfied_ids_spec (c_types c) (c_contexts c) cache Hc) as Hs.
      destruct (satisfied_ids _ load type_ids cache (c_contexts c) (c_types c)) as [[cache' ids]|e|]; cbn [bind fst snd].
      + destruct Hs as (A & B & C). specialize (IH cache' A).
        destruct (filter_schema_loop _ load type_ids schemas cache' cs) as [l|e|]; cbn [bind].
        * destruct IH as [I1 I2]. split; [intros c' x [<-|Hin] Hx; [auto|eauto]|].
          assert (G : schemas_applicable ids schemas false = true <-> schemas_ok schemas c).
          { rewrite schemas_applicable_iff. unfold schemas_ok, offers.
            assert (C' : forall id, In id ids <-> offers c id) by exact C.
            split.
            - intros [H1 [H2|(s & H2 & H3)]]; [discriminate|]. split.
              + intros s' Hs Hr. apply C'. now apply H1.
              + exists s. split; [assumption|]. now apply C'.
            - intros [H1 (s & H2 & H3)]. split.
              + intros s' Hs Hr. apply C'. now apply H1.
              + right. exists s. split; [assumption|]. now apply C'. }
          destruct (schemas_applicable ids schemas false) eqn:E.
          -- constructor; [now apply G|assumption].
          -- apply sel_no; [intros H; apply G in H; discriminate|assumption].
        * destruct IH as (c' & x & H1 & H2). exists c', x. split; [now right|assumption].
        * destruct IH as (c' & x & H1 & H2). exists c', x. split; [now right|assumption].
      + destruct Hs as (x & H1 & H2). exists c, x. split; [now left|auto].
      + destruct Hs as (x & H1 & H2). exists c, x. split; [now left|auto].
  Qed.
End Schema.

(** ** C15: constraints *)
Section Constraints.
  Variable jp_parse : string -> option (json -> list json).
  Variable validate : jschema -> json -> bool.
  Variable rfc3339 : string -> option Z.
  Variable order : list (string * string).
  Notation check := (check_path_value jp_parse validate rfc3339 order).
  Notation ffield := (filter_field jp_parse validate rfc3339 order).

  Lemma validate_path_res s v fd jwt :
    validate_path validate rfc3339 s v fd jwt = Ok tt \/ validate_path validate rfc3339 s v fd jwt = Err err_na.
  Proof. unfold validate_path, guard. destruct s; [|auto]. destruct (forallb _ _); auto. Qed.
  Lemma check_res jwt p doc fd s :
    check jwt p doc fd s = Ok tt \/ check jwt p doc fd s = Err err_na \/ check jwt p doc fd s = Err err_hard.
  Proof.
    unfold check_path_value. destruct (_ && _)%bool; [auto|]. destruct (parse_path _ _) as [sel|]; [|auto].
    destruct (sel (JObj doc)) as [|v [|v2 vs]]; [destruct (fd_optional fd); auto| |].
    - destruct (validate_path_res s v fd jwt) as [->| ->]; auto.
    - destruct (validate_path_res s (JArr (v :: v2 :: vs)) fd jwt) as [->| ->]; auto.
  Qed.
  Lemma try_paths_ok jwt doc fd s : forall paths last,
    try_paths jp_parse validate rfc3339 order jwt paths doc fd s last = Ok tt <->
    (exists p, In p paths /\ check jwt p doc fd s = Ok tt) \/ (paths = [] /\ last = None).
  Proof.
    induction paths as [|p ps IH]; intros last; cbn [try_paths].
    - destruct last; split; try discriminate; auto; intros [(p & [] & _)|[_ H]]; congruence.
    - destruct (check_res jwt p doc fd s) as [E|[E|E]]; rewrite E.
      + split; [|reflexivity]. intros _. left. exists p. split; [now left|assumption].
      + rewrite IH. split.
        * intros [(q & Hq & Eq)|[_ Hl]]; [|discriminate]. left. exists q. split; [now right|assumption].
        * intros [(q & [<-|Hq] & Eq)|[Hl _]]; [congruence| |discriminate]. left. eauto.
      + rewrite IH. split.
        * intros [(q & Hq & Eq)|[_ Hl]]; [|discriminate]. left. exists q. split; [now right|assumption].
        * intros [(q & [<-|Hq] & Eq)|[Hl _]]; [congruence| |discriminate]. left. eauto.
  Qed.
  Lemma try_paths_no_panic jwt doc fd s : forall paths last,
    try_paths jp_parse validate rfc3339 order jwt paths doc fd s last <> Panic.
  Proof.
    induction paths as [|p ps IH]; intros last; cbn [try_paths]; [destruct last; discriminate|].
    destruct (check_res jwt p doc fd s) as [E|[E|E]]; rewrite E; [discriminate|apply IH|apply IH].
  Qed.
  Lemma try_paths_err jwt doc fd s : forall paths last e,
    (last = None \/ last = Some err_na \/ last = Some err_hard) ->
    try_paths jp_parse validate rfc3339 order jwt paths doc fd s last = Err e ->
    (e = err_na <-> last = Some err_na \/ exists p, In p paths /\ check jwt p doc fd s = Err err_na) /\
    (e = err_na \/ e = err_hard).
  Proof.
    induction paths as [|p ps IH]; intros last e Hl; cbn [try_paths].
    - destruct last as [l|]; [|discriminate]. intros [= <-]. split.
      + split; [intros ->; now left|]. intros [[= ->]|(p & [] & _)]. reflexivity.
      + destruct Hl as [|[[= ->]|[= ->]]]; [discriminate|auto|auto].
    - destruct (check_res jwt p doc fd s) as [E|[E|E]]; rewrite E; [discriminate|..]; intros H; apply IH in H as [H1 H2].
      + split; [|assumption]. rewrite H1. split.
        * intros _. right. exists p. split; [now left|assumption].
        * intros _. left. destruct last as [l|]; [|reflexivity]. destruct (String.eqb l err_na); reflexivity.
      + right. left. destruct last as [l|]; [|reflexivity]. destruct (String.eqb l err_na); reflexivity.
      + split; [|assumption]. rewrite H1. split.
        * intros [Hx|(q & Hq & Eq)]; [|right; exists q; split; [now right|assumption]].
          left. destruct Hl as [->|[->| ->]]; [discriminate|reflexivity|discriminate].
        * intros [->|(q & [<-|Hq] & Eq)]; [now left|rewrite E in Eq; discriminate|right; eauto].
      + destruct Hl as [->|[->| ->]]; cbn; auto.
  Qed.


  Lemma has_prefix_at p : has_prefix p "@" = true <-> p = "" \/ p = "@".
  Proof.
    destruct p as [|c p]; [cbn; tauto|]. cbn. rewrite andb_true_iff, Ascii.eqb_eq.
    destruct p as [|c' p].
    - split; [intros [-> _]; now right|]. intros [H|H]; [discriminate|]. injection H as ->. auto.
    - split; [intros [_ H]; discriminate|]. intros [H|H]; discriminate.
  Qed.
  Lemma rooted_iff p : (negb (has_prefix "$" p) && negb (has_prefix p "@"))%bool = false <-> rooted p.
  Proof.
    unfold rooted. rewrite <- has_prefix_at. destruct (has_prefix "$" p), (has_prefix p "@"); cbn; intuition congruence.
  Qed.
  Lemma has_prefix_iff p s : has_prefix p s = true <-> exists b, s = p ++ b.
  Proof.
    revert s. induction p as [|c p IH]; intros s; cbn [has_prefix].
    - split; [intros _; exists s; reflexivity|reflexivity].
    - destruct s as [|d s].
      + split; [discriminate|]. intros (b & H). discriminate.
      + rewrite andb_true_iff, Ascii.eqb_eq, IH. split.
        * intros [-> (b & ->)]. now exists b.
        * intros (b & H). injection H as -> ->. eauto.
  Qed.
  Lemma contains_iff k s : contains k s = true <-> substring_of k s.
  Proof.
    unfold substring_of. induction s as [|c s IH]; cbn [contains]; rewrite orb_true_iff, has_prefix_iff.
    - split.
      + intros [(b & H)|H]; [|discriminate]. exists "", b. exact H.
      + intros (a & b & H). left. destruct a; [eauto|discriminate].
    - rewrite IH. split.
      + intros [(b & H)|(a & b & ->)]; [exists "", b; exact H|exists (String c a), b; reflexivity].
      + intros (a & b & H). destruct a as [|c' a]; [left; eauto|]. right. injection H as _ ->. eauto.
  Qed.
  Lemma is_date_field_iff l : is_date_field l = true <-> exists p, In p l /\ date_path p.
  Proof.
    unfold is_date_field, date_path. rewrite existsb_exists. split.
    - intros (p & Hp & H). apply existsb_exists in H as (k & Hk & Hc). apply contains_iff in Hc. eauto.
    - intros (p & Hp & k & Hk & Hc). exists p. split; [assumption|]. apply existsb_exists. exists k.
      split; [assumption|]. now apply contains_iff.
  Qed.

  Definition date_adjust (jwt : bool) (fd : field) (v : json) : json :=
    if (jwt && is_date_field (fd_paths fd))%bool then
      match v with JStr s => match rfc3339 s with Some z => jnum z | None => v end | _ => v end
    else v.
  Lemma dated_value_iff jwt fd v v' : dated_value rfc3339 jwt fd v v' <-> v' = date_adjust jwt fd v.
  Proof.
    unfold date_adjust. split.
    - intros [s z -> Hd Hr|w Hw].
      + apply is_date_field_iff in Hd. rewrite Hd. cbn. now rewrite Hr.
      + destruct jwt; [|reflexivity]. destruct (is_date_field (fd_paths fd)) eqn:E; [|reflexivity]. cbn.
        apply is_date_field_iff in E. destruct Hw as [H|[H|H]]; [discriminate|contradiction|].
        destruct w; try reflexivity. now rewrite (H s eq_refl).
    - intros ->. destruct jwt; [|apply dv_same; auto]. cbn [andb].
      destruct (is_date_field (fd_paths fd)) eqn:E.
      + apply is_date_field_iff in E. destruct v as [| | |s| |];
          try (apply dv_same; right; right; intros s' H; discriminate).
        destruct (rfc3339 s) as [z|] eqn:Er; [now apply dv_date|]. apply dv_same. right. right. intros s' [= <-]. exact Er.
      + apply dv_same. right. left. rewrite <- is_date_field_iff. congruence.
  Qed.

  Lemma prepare_typed f : ft_type f <> None -> prepare_filter rfc3339 f = Ok (dated_filter rfc3339 f).
  Proof.
    unfold prepare_filter, dated_filter. destruct (ft_type f) as [t|] eqn:Et; [|congruence]. intros _.
    destruct (String.eqb_spec t "string") as [->|Hne]; cbn [andb].
    - destruct (String.eqb (ft_format f) "date-time").
      + destruct (ft_min f) as [[| | |v| |]|]; try reflexivity.
        destruct (String.eqb v ""); [reflexivity|]. destruct (rfc3339 v); reflexivity.
      + destruct (ft_min f) as [[| | |v| |]|]; reflexivity.
    - assert (G : forall X Y : jfilter, match t with "string" => X | _ => Y end = Y).
      { intros X Y. repeat (destruct t as [|[[] [] [] [] [] [] [] []] t]; try reflexivity). congruence. }
      rewrite (G _ f). reflexivity.
  Qed.

  Definition schema_of (fd : field) : option jfilter :=
    match fd_filter fd with Some f => Some (dated_filter rfc3339 f) | None => None end.
  Lemma validate_iff jwt fd v :
    match fd_filter fd with Some ft => ft_type ft <> None /\ ft_allof ft = [] | None => True end ->
    (validate_path validate rfc3339 (schema_of fd) v fd jwt = Ok tt <-> filter_accepts validate rfc3339 jwt fd v).
  Proof.
    unfold filter_accepts, validate_path, schema_of. destruct (fd_filter fd) as [ft|]; [|split; auto].
    intros [_ Ha]. fold (date_adjust jwt fd v). rewrite Ha. cbn [map forallb]. rewrite andb_true_r.
    unfold guard. destruct (validate _ _) eqn:E.
    - split; [|reflexivity]. intros _. exists (date_adjust jwt fd v). rewrite dated_value_iff.
      split; [reflexivity|]. split; [assumption|]. intros s [].
    - split; [discriminate|]. intros (v' & Hv & Hval & _). apply dated_value_iff in Hv. subst v'. congruence.
  Qed.
  Notation pholds := (path_holds jp_parse validate rfc3339 (jwt_path order) convert_rfc9535).
  Lemma check_iff jwt p doc fd :
    match fd_filter fd with Some ft => ft_type ft <> None /\ ft_allof ft = [] | None => True end ->
    (check jwt p doc fd (schema_of fd) = Ok tt <-> pholds jwt doc fd p).
  Proof.
    intros Hf. unfold check_path_value, path_holds.
    set (q := if jwt then jwt_path order doc p else p).
    pose proof (rooted_iff q) as Hr. destruct (_ && _)%bool.
    { split; [discriminate|]. intros [H _]. apply Hr in H. discriminate. }
    assert (Hrq : rooted q) by now apply Hr. clear Hr.
    assert (V : forall sel : json -> list json,
      match sel (JObj doc) with [] => if fd_optional fd then Ok tt else Err err_na
        | [v] => validate_path validate rfc3339 (schema_of fd) v fd jwt
        | _ :: _ :: _ => validate_path validate rfc3339 (schema_of fd) (JArr (sel (JObj doc))) fd jwt end = Ok tt <->
      ((sel (JObj doc) = [] /\ fd_optional fd = true) \/
       (sel (JObj doc) <> [] /\ filter_accepts validate rfc3339 jwt fd (selected (sel (JObj doc)))))).
    { intros sel. destruct (sel (JObj doc)) as [|v [|v2 vs]] eqn:E.
      - destruct (fd_optional fd); split; auto; [discriminate|]. intros [[_ H]|[H _]]; congruence.
      - rewrite validate_iff by assumption. cbn [selected]. split; [right; split; [discriminate|assumption]|].
        intros [[H _]|[_ H]]; [discriminate|assumption].
      - rewrite validate_iff by assumption. cbn [selected]. split; [right; split; [discriminate|assumption]|].
        intros [[H _]|[_ H]]; [discriminate|assumption]. }
    unfold parse_path. destruct (jp_parse q) as [sel|] eqn:Ep.
    - specialize (V sel).
      match type of V with _ <-> ?R => match goal with |- ?L <-> _ => assert (HL : L <-> R)
        by (destruct (sel (JObj doc)) as [|v [|v2 vs]]; exact V) end end.
      rewrite HL. clear HL V. split.
      + intros H. split; [assumption|]. exists sel. auto.
      + intros (_ & sel' & [Hs|[Hs _]] & H); [|congruence]. injection Hs as <-. exact H.
    - destruct (jp_parse (convert_rfc9535 q)) as [sel|] eqn:Ep2.
      + specialize (V sel).
        match type of V with _ <-> ?R => match goal with |- ?L <-> _ => assert (HL : L <-> R)
          by (destruct (sel (JObj doc)) as [|v [|v2 vs]]; exact V) end end.
        rewrite HL. clear HL V. split.
        * intros H. split; [assumption|]. exists sel. auto.
        * intros (_ & sel' & [Hs|[_ Hs]] & H); [congruence|]. injection Hs as <-. exact H.
      + split; [discriminate|]. intros (_ & sel' & [Hs|[_ Hs]] & _); congruence.
  Qed.

  Notation fholds := (field_holds jp_parse validate rfc3339 (jwt_path order) convert_rfc9535).
  Lemma filter_field_eq fd doc jwt : plain_field fd ->
    ffield fd doc jwt = try_paths jp_parse validate rfc3339 order jwt (fd_paths fd) doc fd (schema_of fd) None.
  Proof.
    intros [_ Hf]. unfold filter_field, schema_of. destruct (fd_filter fd) as [ft|]; [|reflexivity].
    rewrite prepare_typed by tauto. reflexivity.
  Qed.
  Lemma filter_field_ok fd doc jwt : plain_field fd -> (ffield fd doc jwt = Ok tt <-> fholds jwt doc fd).
  Proof.
    intros Hp. rewrite filter_field_eq by assumption. rewrite try_paths_ok. destruct Hp as [Hne Hf]. unfold field_holds. split.
    - intros [(p & Hin & H)|[H _]]; [|contradiction]. exists p. split; [assumption|]. now apply check_iff.
    - intros (p & Hin & H). left. exists p. split; [assumption|]. now apply check_iff.
  Qed.
  (** A hard error: every path is malformed. *)
  Definition malformed (jwt : bool) (doc : gomap json) (p : string) : Prop :=
    let q := if jwt then jwt_path order doc p else p in
    ~ rooted q \/ (jp_parse q = None /\ jp_parse (convert_rfc9535 q) = None).
  Lemma check_hard jwt p doc fd s : check jwt p doc fd s = Err err_hard -> malformed jwt doc p.
  Proof.
    unfold check_path_value, malformed. set (q := if jwt then jwt_path order doc p else p).
    pose proof (rooted_iff q) as Hr. destruct (_ && _)%bool.
    { intros _. left. intros H. apply Hr in H. discriminate. }
    unfold parse_path. destruct (jp_parse q) as [sel|]; [|destruct (jp_parse (convert_rfc9535 q)) as [sel|]; [|auto]].
    - destruct (sel (JObj doc)) as [|v [|v2 vs]]; [destruct (fd_optional fd); discriminate| |].
      + destruct (validate_path_res s v fd jwt) as [->| ->]; discriminate.
      + destruct (validate_path_res s (JArr (v :: v2 :: vs)) fd jwt) as [->| ->]; discriminate.
    - destruct (sel (JObj doc)) as [|v [|v2 vs]]; [destruct (fd_optional fd); discriminate| |].
      + destruct (validate_path_res s v fd jwt) as [->| ->]; discriminate.
      + destruct (validate_path_res s (JArr (v :: v2 :: vs)) fd jwt) as [->| ->]; discriminate.
  Qed.
  Lemma filter_field_err fd doc jwt e : plain_field fd -> ffield fd doc jwt = Err e ->
    e = err_na \/ (e = err_hard /\ forall p, In p (fd_paths fd) -> malformed jwt doc p).
  Proof.
    intros Hp H. rewrite filter_field_eq in H by assumption.
    destruct (try_paths_err _ _ _ _ _ _ e (or_introl eq_refl) H) as [H1 [H2|H2]]; [now left|]. right. split; [assumption|].
    intros p Hin. destruct (check_res jwt p doc fd (schema_of fd)) as [E|[E|E]].
    - exfalso. assert (Hok : try_paths jp_parse validate rfc3339 order jwt (fd_paths fd) doc fd (schema_of fd) None = Ok tt)
        by (apply try_paths_ok; left; eauto). congruence.
    - exfalso. subst e. assert (err_hard = err_na) by (apply H1; right; eauto). discriminate.
    - eapply check_hard; eassumption.
  Qed.

  Lemma subject_is_issuer_iff c : subject_is_issuer c = true <-> subject_issues c.
  Proof.
    unfold subject_is_issuer, subject_issues. destruct (c_issuer c) as [i|].
    - rewrite existsb_exists. split.
      + intros (x & Hx & H). apply andb_true_iff in H as [H1 H2]. apply String.eqb_eq in H2. subst x.
        exists i. split; [reflexivity|]. split; [|assumption]. intros ->. discriminate.
      + intros (i' & [= <-] & Hne & Hin). exists i. split; [assumption|]. rewrite String.eqb_refl, andb_true_r.
        destruct (String.eqb_spec i ""); [contradiction|reflexivity].
    - split; [discriminate|]. intros (i & H & _). discriminate.
  Qed.

  Lemma fields_applicable_spec jwt doc : forall fields acc, Forall plain_field fields ->
    match fields_applicable jp_parse validate rfc3339 order fields doc jwt acc with
    | Ok true => (fields <> [] \/ acc = true) /\ forall f, In f fields -> fholds jwt doc f
    | Ok false => (fields = [] /\ acc = false) \/ exists f, In f fields /\ ~ fholds jwt doc f
    | Err e => e = err_hard /\ exists f, In f fields /\ forall p, In p (fd_paths f) -> malformed jwt doc p
    | Panic => False
    end.
  Proof.
    induction fields as [|f fs IH]; intros acc HF; cbn [fields_applicable].
    - destruct acc; [split; [now right|intros ? []]|now left].
    - inversion HF as [|? ? Hf HF']; subst.
      destruct (ffield f doc jwt) as [[]|e|] eqn:E.
      + apply filter_field_ok in E; [|assumption]. specialize (IH true HF').
        destruct (fields_applicable _ _ _ _ fs doc jwt true) as [[]|e|].
        * destruct IH as [_ IH]. split; [left; discriminate|]. intros g [<-|Hg]; auto.
        * destruct IH as [[_ H]|(g & Hg & H)]; [discriminate|]. right. exists g. split; [now right|assumption].
        * destruct IH as [He (g & Hg & H)]. split; [assumption|]. exists g. split; [now right|assumption].
        * exact IH.
      + assert (Hnot : ~ fholds jwt doc f) by (intros H; apply filter_field_ok in H; [congruence|assumption]).
        destruct (filter_field_err f doc jwt e Hf E) as [->|[-> Hm]].
        * rewrite String.eqb_refl. right. exists f. split; [now left|assumption].
        * cbn. split; [reflexivity|]. exists f. split; [now left|assumption].
      + rewrite filter_field_eq in E by assumption. now apply try_paths_no_panic in E.
  Qed.
  Notation cholds := (cred_holds jp_parse validate rfc3339 (jwt_path order) convert_rfc9535).
  Lemma filter_constraints_spec cs : forall creds, Forall plain_field (cs_fields cs) -> cs_fields cs <> [] ->
    match filter_constraints_loop jp_parse validate rfc3339 order cs creds with
    | Ok l => selects (cholds cs) creds l
    | Err e => exists c doc f, In c creds /\ c_src c = Some doc /\ In f (cs_fields cs) /\
                 forall p, In p (fd_paths f) -> malformed (c_jwt c) doc p
    | Panic => False
    end.
  Proof.
    intros creds HF Hne. induction creds as [|c rest IH]; cbn [filter_constraints_loop]; [constructor|].
    assert (Hskip : ~ cholds cs c ->
      match filter_constraints_loop jp_parse validate rfc3339 order cs rest with
      | Ok l => selects (cholds cs) (c :: rest) l
      | Err e => exists c' doc f, In c' (c :: rest) /\ c_src c' = Some doc /\ In f (cs_fields cs) /\
                   forall p, In p (fd_paths f) -> malformed (c_jwt c') doc p
      | Panic => False end).
    { intros Hn. destruct (filter_constraints_loop _ _ _ _ cs rest) as [l|e|]; [now apply sel_no| |exact IH].
      destruct IH as (c' & doc & f & A & B). exists c', doc, f. split; [now right|assumption]. }
    destruct (cs_subject_is_issuer cs && negb (subject_is_issuer c))%bool eqn:Es.
    - apply Hskip. apply andb_true_iff in Es as [E1 E2]. intros [H _].
      specialize (H E1). apply subject_is_issuer_iff in H. rewrite H in E2. discriminate.
    - destruct (c_src c) as [doc|] eqn:Ed.
      2:{ apply Hskip. intros [_ (doc & H & _)]. congruence. }
      pose proof (fields_applicable_spec (c_jwt c) doc (cs_fields cs) false HF) as Hfa.
      destruct (fields_applicable _ _ _ _ (cs_fields cs) doc (c_jwt c) false) as [[]|e|]; cbn [bind].
      + destruct (filter_constraints_loop _ _ _ _ cs rest) as [l|e|]; cbn [bind]; [|destruct IH as (c' & doc' & f & A & B); exists c', doc', f; split; [now right|assumption]|exact IH].
        apply sel_yes; [|assumption]. split.
        * intros E1. apply subject_is_issuer_iff. rewrite E1 in Es. cbn in Es. now apply negb_false_iff.
        * exists doc. split; [assumption|]. apply Hfa.
      + destruct (filter_constraints_loop _ _ _ _ cs rest) as [l|e|]; cbn [bind]; [|destruct IH as (c' & doc' & f & A & B); exists c', doc', f; split; [now right|assumption]|exact IH].
        apply sel_no; [|assumption]. intros [_ (doc' & E1 & E2)]. rewrite Ed in E1. injection E1 as <-.
        destruct Hfa as [[H _]|(f & Hin & Hn)]; [contradiction|]. apply Hn. now apply E2.
      + destruct Hfa as [-> (f & Hin & Hm)]. exists c, doc, f. split; [now left|]. auto.
      + destruct Hfa.
  Qed.
End Constraints.
