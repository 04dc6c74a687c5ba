(** Limited disclosure of credentials that are not SD-JWTs: properties C234 and following. *)
From Verif Require Import GoBase StrLemmas PexSpec PexModel PexCompact PexLimit StatusModel PxSpec JwtSpec DiSpec VcSpec JwtModel SdSpec SdModel SdParse DiModel
  VcModel VcJwt VcText VcParse VcSign ResSpec ResModel BbsModel PxModel PxProofs PxProofs2 PxFrame VcProps.

(** ** The template *)
Lemma select_obj_get m ks : forall acc k, mget (fold_left (fun acc k => mset acc k (get_any m k)) ks acc) k
  = if str_in k ks then Some (get_any m k) else mget acc k.
Proof.
  induction ks as [|a ks IH]; intros acc k; [reflexivity|]. cbn [fold_left]. rewrite IH. unfold str_in. cbn [existsb].
  fold (str_in k ks). rewrite mget_mset. destruct (str_in k ks); [now rewrite orb_true_r|]. rewrite orb_false_r.
  destruct (String.eqb k a) eqn:E; [apply String.eqb_eq in E as ->; reflexivity|reflexivity].
Qed.
Lemma only_id_look s q x : look (only_id s) q = Some x -> leaf x ->
  (q = ["id"] /\ x = JStr (sj_id s)) \/ (q = [] /\ x = JObj []).
Proof.
  unfold only_id, subject_to. cbn [sj_id sj_custom]. destruct (String.eqb (sj_id s) "") eqn:E.
  - destruct q as [|k q]; cbn [look]; [intros [= <-] _; now right|discriminate].
  - cbn [mset]. destruct q as [|k q]; cbn [look]; [intros [= <-] []|]. cbn [mget]. destruct (String.eqb k "id") eqn:Ek; [|discriminate].
    apply String.eqb_eq in Ek as ->. destruct q; cbn [look]; [intros [= <-] _; now left|discriminate].
Qed.
Lemma template_look raw subs q x : look (template raw subs) q = Some x -> leaf x ->
  void x \/ (exists k r, In k kept /\ q = k :: r /\ look (JObj raw) q = Some x) \/ tells_subject_id (map sj_id subs) q x.
Proof.
  unfold template. destruct q as [|k q]; cbn [look].
  - intros [= <-] H. exfalso. pose proof (mget_mset (select_obj raw kept) "credentialSubject" "credentialSubject" (copy_subject_ids subs)) as M.
    unfold kept in M. destruct (mset _ _ _) in H, M; [discriminate M|exact H].
  - rewrite mget_mset. destruct (String.eqb k "credentialSubject") eqn:Ek.
    + apply String.eqb_eq in Ek as ->. intros H Hx. unfold copy_subject_ids in H. destruct subs as [|s [|s2 subs]].
      * destruct q; cbn [look] in H; [injection H as <-; left; now left|discriminate].
      * destruct (sj_custom s).
        -- destruct q; cbn [look] in H; [injection H as <-; right; right; left; exists (sj_id s); auto|discriminate].
        -- apply only_id_look in H as [[-> ->]|[-> ->]]; [|left; now right|assumption]. right; right; left. exists (sj_id s). auto.
      * destruct q as [|n q]; cbn [look] in H; [injection H as <-; destruct Hx|]. remember (s :: s2 :: subs) as all eqn:Ea.
        destruct (index_of n) as [i|] eqn:Ei; [|discriminate]. apply index_of_inv in Ei as ->. destruct (nth_error (map only_id all) i) as [y|] eqn:En; [|discriminate].
        rewrite nth_error_map in En. destruct (nth_error all i) as [s'|] eqn:Es; [|discriminate]. injection En as <-.
        apply only_id_look in H as [[-> ->]|[-> ->]]; [|left; now right|assumption]. right; right; right. exists i, (sj_id s').
        split; [rewrite nth_error_map, Es; reflexivity|]. split; [reflexivity|]. split; [|reflexivity]. subst all. cbn. lia.
    + unfold select_obj. rewrite select_obj_get. destruct (str_in k _) eqn:Ei; [|discriminate]. apply str_in_In in Ei.
      intros H Hx. unfold get_any in H. destruct (mget raw k) as [y|] eqn:Er.
      * right; left. exists k, q. split; [exact Ei|]. split; [reflexivity|exact H].
      * destruct q; cbn [look] in H; [injection H as <-; left; now left|discriminate].
Qed.

(** ** C234: what a limited credential says *)
Lemma sj_set_obj p m v d : sj_set p (JObj m) v = Ok d -> exists m', d = JObj m'.
Proof.
  unfold sj_set. destruct (String.eqb p ""); [discriminate|]. destruct (existsb _ _); [discriminate|].
  destruct (split_on "." p) as [|a l] eqn:E; [now apply split_on_nonempty in E|]. cbn [sj_put].
  destruct (mget m a) as [x|].
  - intros H. apply bind_ok in H as (y & _ & [= <-]). eauto.
  - intros [= <-]. eauto.
Qed.
Lemma cut_paths_obj pred src : forall ps m d, cut_paths pred src (JObj m) ps = Ok d -> exists m', d = JObj m'.
Proof.
  induction ps as [|p ps IH]; intros m d; cbn [cut_paths]; [intros [= <-]; eauto|]. destruct (skipped p); [apply IH|].
  intros H. apply bind_ok in H as (d1 & H1 & H). apply sj_set_obj in H1 as (m1 & ->). now apply IH in H.
Qed.
Lemma cut_fields_obj jp src : forall fs m d, cut_fields jp src (JObj m) fs = Ok d -> exists m', d = JObj m'.
Proof.
  induction fs as [|f fs IH]; intros m d; cbn [cut_fields]; [intros [= <-]; eauto|].
  intros H. apply bind_ok in H as (ps & _ & H). apply bind_ok in H as (d1 & H1 & H). apply cut_paths_obj in H1 as (m1 & ->). now apply IH in H.
Qed.
Lemma raw_twice v jwt k : mget (to_raw_json {| cr_json := to_raw_json v; cr_contents := cr_contents v; cr_proofs := cr_proofs v; cr_jwt := jwt; cr_cwt := None |}) k
  = mget (to_raw_json v) k.
Proof. unfold to_raw_json. cbn [cr_proofs cr_json]. destruct (cr_proofs v); [reflexivity|]. rewrite !mget_mset. now destruct (String.eqb k "proof"). Qed.

Lemma limit_one_inv jp ord E D txt disclose limit_sd nonce uuid o r c ws w :
  fr_limits r = Some c -> cl_limit c = true -> is_sd (fr_cred r) = false -> has_bbs (fr_cred r) = false ->
  limit_one jp ord E D txt disclose limit_sd nonce uuid o r = Ok ws -> In w ws ->
  exists m n, cut_fields jp (JObj (fr_src r)) (template (to_raw_json (fr_cred r)) (vc_subject (cr_contents (fr_cred r)))) (cl_fields c) = Ok (JObj m)
    /\ parse_credential E (no_proof_check o) (txt (JObj m)) = Ok n
    /\ (forall k, mget (to_raw_json (wr_cred w)) k = mget (to_raw_json n) k)
    /\ cr_proofs (wr_cred w) = cr_proofs n /\ cr_contents (wr_cred w) = cr_contents n
    /\ (cr_jwt (fr_cred r) = None -> wr_cred w = n)
    /\ (cr_jwt (fr_cred r) <> None -> exists t claims, cr_jwt (wr_cred w) = Some (envelope t []) /\ se_unsec D claims = Ok t)
    /\ wr_id w = vc_id (cr_contents (fr_cred r)) ++ "tmp_unique_id_" ++ uuid.
Proof.
  intros Hl Hlim Hsd Hb H Hin. unfold limit_one in H. rewrite Hl, Hlim, Hsd, Hb in H. cbn [andb orb negb] in H.
  destruct (negb _); [injection H as <-; destruct Hin|]. cbv zeta in H.
  apply bind_ok in H as (p & Hp & H). cbn [bind] in H. injection H as <-. destruct Hin as [<-|[]].
  apply bind_ok in Hp as (n & Hn & Hp). apply bind_ok in Hp as (n' & Hn' & Hp). injection Hp as <-. cbn [fst snd wr_cred wr_id].
  unfold create_new in Hn. rewrite Hb in Hn. cbn [andb negb orb] in Hn. apply bind_ok in Hn as (d & Hd & Hn).
  unfold template in Hd. destruct (cut_fields_obj _ _ _ _ _ Hd) as (m & ->). exists m, n. split; [exact Hd|]. split; [exact Hn|].
  destruct (cr_jwt (fr_cred r)) as [j|] eqn:Ej.
  - unfold create_unsecured_jwt in Hn'. apply bind_ok in Hn' as (cl & _ & Hn'). apply bind_ok in Hn' as (tok & Ht & Hn'). injection Hn' as <-.
    split; [intros k; apply raw_twice|]. repeat split; try reflexivity; [discriminate|]. intros _. cbn [cr_jwt]. eauto.
  - injection Hn' as <-. repeat split; try reflexivity. intros A. now contradiction A.
Qed.

Lemma is_bbs v : bbs_signed v <-> has_bbs v = true.
Proof.
  unfold has_bbs, bbs_signed. rewrite existsb_exists. split; intros (p & H1 & H2); exists p; (split; [assumption|]).
  - rewrite H2. reflexivity.
  - destruct (mget p "type") as [[| | |t| |]|]; try discriminate. apply String.eqb_eq in H2. now subst t.
Qed.
Lemma not_bbs v : ~ bbs_signed v <-> has_bbs v = false.
Proof. rewrite is_bbs. destruct (has_bbs v); split; congruence. Qed.
Lemma sd_is v : sd_jwt v <-> is_sd v = true.
Proof. unfold sd_jwt, is_sd. destruct (vc_sdalg _); split; congruence. Qed.
Lemma not_sd v : ~ sd_jwt v <-> is_sd v = false.
Proof. rewrite sd_is. destruct (is_sd v); split; congruence. Qed.
Theorem C234_limited_credential : forall jp ord E D txt disclose limit_sd nonce uuid o r c ws w,
  fr_limits r = Some c -> cl_limit c = true -> ~ sd_jwt (fr_cred r) -> ~ bbs_signed (fr_cred r) ->
  all_plain jp (JObj (fr_src r)) (cl_fields c) ->
  limit_one jp ord E D txt disclose limit_sd nonce uuid o r = Ok ws -> In w ws ->
  wr_id w = vc_id (cr_contents (fr_cred r)) ++ "tmp_unique_id_" ++ uuid /\
  (* a JWT credential becomes an unsecured JWT *)
  (cr_jwt (fr_cred r) <> None -> exists t claims, cr_jwt (wr_cred w) = Some (envelope t []) /\ se_unsec D claims = Ok t) /\
  exists m rank, ranks_ok jp (JObj (fr_src r)) (cl_fields c) rank
    (* the credential is the one with the members [m] *)
    /\ (json_text E (txt (JObj m)) m -> co_external o = [] ->
        (forall ts, decode_type (fld m "type") = Ok ts -> ~ In "EnvelopedVerifiableCredential" ts) ->
        forall k, k <> "proof" -> mget (to_raw_json (wr_cred w)) k = mget m k)
    (* nothing but the kept members, the ids of the subjects and what was asked for *)
    /\ (forall q x, look (JObj m) q = Some x -> leaf x ->
          void x
          \/ (exists k r0, In k kept /\ q = k :: r0 /\ look (JObj (to_raw_json (fr_cred r))) q = Some x)
          \/ tells_subject_id (map sj_id (vc_subject (cr_contents (fr_cred r)))) q x
          \/ exists i f ks r0, request jp (JObj (fr_src r)) (cl_fields c) i f ks /\ ~ schema_path (moved (rank i) ks)
                /\ q = (moved (rank i) ks ++ r0)%list
                /\ if cf_pred f then r0 = [] /\ x = JBool true else look (JObj (fr_src r)) (steps ks ++ r0)%list = Some x)
    (* all that was asked for *)
    /\ (separate_arrays jp (JObj (fr_src r)) (cl_fields c) -> separate_values jp (JObj (fr_src r)) (cl_fields c) ->
        forall i f ks, request jp (JObj (fr_src r)) (cl_fields c) i f ks -> ~ schema_path (moved (rank i) ks) ->
          look (JObj m) (moved (rank i) ks) = Some (told (JObj (fr_src r)) f ks)).
Proof.
  intros jp ord E D txt disclose limit_sd nonce uuid o r c ws w Hl Hlim Hsd Hb Hpl H Hin. apply not_sd in Hsd. apply not_bbs in Hb.
  destruct (limit_one_inv _ _ _ _ _ _ _ _ _ _ _ _ _ _ Hl Hlim Hsd Hb H Hin) as (m & n & Hcut & Hn & Hraw & _ & _ & _ & Hjwt & Hid). split; [exact Hid|]. split; [exact Hjwt|].
  destruct (cut_spec _ _ _ _ _ Hpl Hcut) as (rank & Hr & Hleaf & Hall & _). exists m, rank. split; [exact Hr|]. split; [|split; [|exact Hall]].
  - intros Ht He Hty k Hk. rewrite Hraw. destruct (C97_raw_json_is_what_was_parsed E (no_proof_check o) (txt (JObj m)) m n Ht Hty Hn He) as [A _]. now apply A.
  - intros q x Hq Hx. destruct (Hleaf q x Hq Hx) as [A|[A|A]].
    + apply template_look in A as [A|[A|A]]; auto.
    + left. now left.
    + right; right; right. exact A.
Qed.

(** ** C235: members nobody asked for *)
Lemma put_other p m v m' k : sj_put p (JObj m) v = Ok (JObj m') -> (forall r, p <> k :: r) -> p <> [] -> mget m' k = mget m k.
Proof.
  destruct p as [|s p]; [congruence|]. intros H Hk _. assert (Hn : k <> s) by (intros ->; now apply (Hk p)). cbn [sj_put] in H.
  destruct (mget m s) as [x|].
  - apply bind_ok in H as (y & _ & [= <-]). rewrite mget_mset. destruct (String.eqb_spec k s); [contradiction|reflexivity].
  - injection H as <-. cbn [mget]. destruct (String.eqb_spec k s); [contradiction|reflexivity].
Qed.
Lemma put_obj p m v d : sj_put p (JObj m) v = Ok d -> p <> [] -> exists m', d = JObj m'.
Proof.
  destruct p as [|s p]; [congruence|]. intros H _. cbn [sj_put] in H. destruct (mget m s) as [x|]; [apply bind_ok in H as (y & _ & [= <-]); eauto|injection H as <-; eauto].
Qed.
Lemma puts_other : forall ops m d k, puts ops (JObj m) = Ok d -> (forall p v, In (p, v) ops -> p <> [] /\ forall r, p <> k :: r) ->
  exists m', d = JObj m' /\ mget m' k = mget m k.
Proof.
  induction ops as [|[p v] ops IH]; intros m d k H Ho; cbn [puts] in H; [injection H as <-; eauto|].
  apply bind_ok in H as (d1 & H1 & H). destruct (Ho p v (or_introl eq_refl)) as [Hne Hk]. destruct (put_obj p m v d1 H1 Hne) as (m1 & ->).
  destruct (IH m1 d k H) as (m' & -> & E); [intros; eapply Ho; right; eassumption|]. exists m'. split; [reflexivity|]. rewrite E. eapply put_other; eassumption.
Qed.
Lemma cut_other jp src fs m d k : all_plain jp src fs -> cut_fields jp src (JObj m) fs = Ok d ->
  (forall i f ks, request jp src fs i f ks -> exists s r, ks = KName s :: r /\ s <> k) -> exists m', d = JObj m' /\ mget m' k = mget m k.
Proof.
  intros Hpl H Hk. destruct (cut_ops jp src fs (JObj m) d Hpl H) as (rank & ops & _ & Hp & Ho). eapply puts_other; [exact Hp|].
  intros p v Hi. apply Ho in Hi as (i & f & ks & Hq & -> & _). destruct (Hk i f ks Hq) as (s & r & -> & Hn). cbn. split; [discriminate|]. intros r' [= E _]. congruence.
Qed.
Theorem C235_members_not_asked_for : forall jp ord E D txt disclose limit_sd nonce uuid o r c ws w k,
  fr_limits r = Some c -> cl_limit c = true -> ~ sd_jwt (fr_cred r) -> ~ bbs_signed (fr_cred r) ->
  all_plain jp (JObj (fr_src r)) (cl_fields c) ->
  (forall i f ks, request jp (JObj (fr_src r)) (cl_fields c) i f ks -> exists s r0, ks = KName s :: r0 /\ s <> k) ->
  limit_one jp ord E D txt disclose limit_sd nonce uuid o r = Ok ws -> In w ws ->
  exists m, (json_text E (txt (JObj m)) m -> co_external o = [] ->
        (forall ts, decode_type (fld m "type") = Ok ts -> ~ In "EnvelopedVerifiableCredential" ts) ->
        (k <> "proof" -> mget (to_raw_json (wr_cred w)) k = mget m k) /\ (k = "proof" -> cr_proofs (wr_cred w) = []))
    /\ (In k kept -> mget m k = Some (match mget (to_raw_json (fr_cred r)) k with Some x => x | None => JNull end))
    /\ (~ In k kept -> k <> "credentialSubject" -> mget m k = None).
Proof.
  intros jp ord E D txt disclose limit_sd nonce uuid o r c ws w k Hl Hlim Hsd Hb Hpl Hk H Hin. apply not_sd in Hsd. apply not_bbs in Hb.
  destruct (limit_one_inv _ _ _ _ _ _ _ _ _ _ _ _ _ _ Hl Hlim Hsd Hb H Hin) as (m & n & Hcut & Hn & Hraw & Hpr & _). exists m.
  destruct (cut_other _ _ _ _ _ k Hpl Hcut Hk) as (m' & Em & Hm). injection Em as <-. rewrite mget_mset in Hm. unfold select_obj in Hm. rewrite select_obj_get in Hm.
  assert (Hrest : (In k kept -> mget m k = Some (match mget (to_raw_json (fr_cred r)) k with Some x => x | None => JNull end))
    /\ (~ In k kept -> k <> "credentialSubject" -> mget m k = None)).
  { rewrite Hm. split; intros Hi.
    - destruct (String.eqb_spec k "credentialSubject") as [->|_]; [destruct Hi as [|[|[|[|[|[]]]]]]; discriminate|].
      apply str_in_In in Hi. unfold kept in Hi. rewrite Hi. reflexivity.
    - intros Hc. destruct (String.eqb_spec k "credentialSubject"); [contradiction|]. apply str_in_nIn in Hi. unfold kept in Hi. rewrite Hi. reflexivity. }
  split; [|exact Hrest]. intros Ht He Hty.
  destruct (C97_raw_json_is_what_was_parsed E (no_proof_check o) (txt (JObj m)) m n Ht Hty Hn He) as [A (ps & P1 & _ & P3)].
  split; [intros Hne; rewrite Hraw; now apply A|]. intros ->. rewrite Hpr, P3.
  assert (Hno : mget m "proof" = None) by (apply (proj2 Hrest); [cbn; intuition discriminate|discriminate]).
  inversion P1 as [|p Hp|l Hp]; [reflexivity|congruence|congruence].
Qed.

(** ** C236: which credentials are limited, which are left out, which stay as they are *)
Definition subject_issued (v : credential) : Prop :=
  exists i s, vc_issuer (cr_contents v) = Some i /\ In s (vc_subject (cr_contents v)) /\ sj_id s <> "" /\ sj_id s = is_id i.
Lemma issuer_is_subject_spec v : issuer_is_subject v = true <-> subject_issued v.
Proof.
  unfold issuer_is_subject, subject_issued. destruct (vc_issuer (cr_contents v)) as [i|].
  - rewrite existsb_exists. split.
    + intros (s & Hs & H). apply andb_true_iff in H as [H1 H2]. exists i, s. apply String.eqb_eq in H2. apply negb_true_iff, String.eqb_neq in H1. auto.
    + intros (i' & s & [= <-] & Hs & H1 & H2). exists s. split; [assumption|]. apply andb_true_iff. split; [now apply negb_true_iff, String.eqb_neq|now apply String.eqb_eq].
  - split; [discriminate|]. now intros (i & s & ? & _).
Qed.
Theorem C236_who_is_limited : forall jp ord E D txt disclose limit_sd nonce uuid o r,
  (* no constraints: handed over *)
  (fr_limits r = None -> limit_one jp ord E D txt disclose limit_sd nonce uuid o r = Ok [{| wr_id := vc_id (cr_contents (fr_cred r)); wr_cred := fr_cred r |}])
  (* neither limits nor predicates: handed over *)
  /\ (forall c, fr_limits r = Some c -> cl_limit c = false -> (forall f, In f (cl_fields c) -> cf_pred f = false) ->
      limit_one jp ord E D txt disclose limit_sd nonce uuid o r = Ok [{| wr_id := vc_id (cr_contents (fr_cred r)); wr_cred := fr_cred r |}])
  (* left out: what cannot be limited *)
  /\ (limit_one jp ord E D txt disclose limit_sd nonce uuid o r = Ok [] <->
      exists c, fr_limits r = Some c /\ cl_limit c = true /\ (forall f, In f (cl_fields c) -> cf_pred f = false)
                /\ ~ sd_jwt (fr_cred r) /\ ~ bbs_signed (fr_cred r) /\ ~ subject_issued (fr_cred r))
  (* never more than one *)
  /\ (forall ws, limit_one jp ord E D txt disclose limit_sd nonce uuid o r = Ok ws -> (List.length ws <= 1)%nat).
Proof.
  intros jp ord E D txt disclose limit_sd nonce uuid o r.
  assert (Hpf : forall fs, (forall f, In f fs -> cf_pred f = false) <-> existsb cf_pred fs = false).
  { intros fs. split.
    - intros H. destruct (existsb cf_pred fs) eqn:Ex; [|reflexivity]. apply existsb_exists in Ex as (f & Hf & Hc). rewrite H in Hc by assumption. discriminate.
    - intros H f Hf. destruct (cf_pred f) eqn:Ec; [|reflexivity]. assert (existsb cf_pred fs = true) by (apply existsb_exists; eauto). congruence. }
  unfold limit_one. split; [intros ->; reflexivity|]. split; [|split].
  - intros c -> Hl Hp. apply Hpf in Hp. rewrite Hl, Hp. reflexivity.
  - destruct (fr_limits r) as [c|]; [|split; [discriminate|intros (c & ? & _); discriminate]]. cbv zeta. split.
    + destruct (cl_limit c && negb _)%bool eqn:Ec.
      * intros _. apply andb_true_iff in Ec as [E1 E2]. apply negb_true_iff in E2. rewrite !orb_false_iff in E2. destruct E2 as [[[A B] C] F].
        exists c. split; [reflexivity|]. split; [assumption|]. split; [now apply Hpf|]. split; [now apply not_sd|]. split; [now apply not_bbs|].
        intros Hs. apply issuer_is_subject_spec in Hs. congruence.
      * intros H. apply bind_ok in H as (p & _ & H). apply bind_ok in H as (n & _ & H). discriminate.
    + intros (c' & [= <-] & Hl & Hp & Hs & Hb & Hi). apply Hpf in Hp. apply not_sd in Hs. apply not_bbs in Hb. rewrite Hl, Hp, Hs, Hb. cbn [andb orb negb].
      destruct (issuer_is_subject (fr_cred r)) eqn:Ei; [exfalso; now apply Hi, issuer_is_subject_spec|reflexivity].
  - intros ws. destruct (fr_limits r) as [c|]; [|intros [= <-]; cbn; lia]. cbv zeta. destruct (cl_limit c && negb _)%bool; [intros [= <-]; cbn; lia|].
    intros H. apply bind_ok in H as (p & _ & H). apply bind_ok in H as (n & _ & H). injection H as <-. cbn. lia.
Qed.

(** what becomes of an SD-JWT credential, and under which name the others are submitted *)
Theorem C236_sd_jwt : forall jp ord E D txt disclose limit_sd nonce uuid o r c, fr_limits r = Some c -> sd_jwt (fr_cred r) ->
  limit_one jp ord E D txt disclose limit_sd nonce uuid o r =
    if cl_limit c then rmap (fun n => [{| wr_id := vc_id (cr_contents (fr_cred r)); wr_cred := n |}]) (limit_sd c (fr_src r) (fr_cred r))
    else Ok [{| wr_id := vc_id (cr_contents (fr_cred r)); wr_cred := fr_cred r |}].
Proof.
  intros jp ord E D txt disclose limit_sd nonce uuid o r c Hl Hs. apply sd_is in Hs. unfold limit_one. rewrite Hl. cbv zeta. rewrite Hs, andb_false_r.
  rewrite orb_true_r. cbn [orb negb]. rewrite andb_false_r, andb_true_r. cbn [bind fst snd]. destruct (cl_limit c); [|reflexivity].
  destruct (limit_sd _ _ _); reflexivity.
Qed.

(** ** C237: when the limited document exists *)
Theorem C237_limited_document_exists : forall jp src fs raw subs,
  all_plain jp src fs -> separate_arrays jp src fs -> separate_values jp src fs ->
  (forall f, In f fs -> exists found, jp (cf_paths f) src = Ok found /\ ~ In [] found) ->
  (forall i f ks, request jp src fs i f ks -> located src ks) ->
  (forall i f ks rank, request jp src fs i f ks -> room (template raw subs) (moved rank ks)) ->
  exists d, cut_fields jp src (template raw subs) fs = Ok d.
Proof. intros jp src fs raw subs H1 H2 H3 H4 H5 H6. now apply cut_succeeds. Qed.

(** ** C238: the frame of a BBS+ derivation, for every order of map iteration *)
Theorem C238_bbs_frame : forall jp ord E txt disclose nonce o c src raw subs v,
  bbs_signed v -> cl_limit c = true -> (forall i f ks, request jp src (cl_fields c) i f ks -> cf_pred f = false) ->
  (forall l, Permutation (ord l) l) ->
  (forall f, In f (cl_fields c) -> exists found, jp (cf_paths f) src = Ok found) ->
  (forall i f ks, request jp src (cl_fields c) i f ks -> member_path ks /\ located src ks /\ room (template raw subs) (steps ks)) ->
  separate_values jp src (cl_fields c) ->
  exists frame, create_new jp ord E txt disclose nonce o c src (template raw subs) v = disclose v frame nonce
    /\ forall q x, leaf x ->
      (look (JObj frame) q = Some x <->
         (exists p y r, framed jp src (cl_fields c) p y /\ q = (p ++ r)%list /\ look y r = Some x)
         \/ (look (template raw subs) q = Some x /\ forall p y, framed jp src (cl_fields c) p y -> apart p q)).
Proof.
  intros jp ord E txt disclose nonce o c src raw subs v Hb Hl Hp Hord Hj Hq Hs.
  destruct (frame_spec jp src (cl_fields c)) with (ord := ord) (t := template raw subs) as (d & frame & Hd & He & Hlook);
    try assumption; try (intros i f ks H; now apply (Hq i f)); try (eexists; reflexivity).
  assert (Hobj : exists m, frame = JObj m).
  { assert (A : look frame ["@explicit"] = Some (JBool true)).
    { apply Hlook; [exact I|]. left. exists ["@explicit"], (JBool true), []. split; [constructor|]. split; reflexivity. }
    destruct frame as [| | | |l|m]; try discriminate A; eauto. }
  destruct Hobj as (m & ->). exists m. split; [|exact Hlook].
  assert (Hbp : by_predicate jp src (cl_fields c) = false).
  { unfold by_predicate. destruct (existsb _ _) eqn:Ex; [|reflexivity]. apply existsb_exists in Ex as (f & Hf & H). apply In_nth_error in Hf as (i & Hi).
    apply andb_true_iff in H as [Hc H]. unfold field_paths in H. destruct (jp (cf_paths f) src) as [rs| |] eqn:Ej; cbn [bind] in H; try discriminate.
    destruct rs as [|ks rs]; [discriminate|]. rewrite (Hp i f ks) in Hc; [discriminate|]. split; [assumption|]. exists (ks :: rs)%list. split; [assumption|now left]. }
  apply is_bbs in Hb.
  unfold create_new. rewrite Hd. cbn [bind]. rewrite Hb, Hl, Hbp. cbn [andb negb orb]. rewrite He. reflexivity.
Qed.
(** a predicate that says something: no derivation, the document that is cut is read instead *)
Theorem C238_predicate_hits : forall jp ord E txt disclose nonce o c src raw subs v d,
  all_plain jp src (cl_fields c) -> predicate_hits jp src (cl_fields c) -> cut_fields jp src (template raw subs) (cl_fields c) = Ok d ->
  create_new jp ord E txt disclose nonce o c src (template raw subs) v = parse_credential E (no_proof_check o) (txt d).
Proof.
  intros jp ord E txt disclose nonce o c src raw subs v d Hpl (i & f & ks & (Hi & rs & Hrs & Hks) & Hp & Hns) Hd.
  assert (Hb : by_predicate jp src (cl_fields c) = true).
  { unfold by_predicate. apply existsb_exists. exists f. split; [eapply nth_error_In; exact Hi|]. rewrite Hp. unfold field_paths. rewrite Hrs. cbn [bind andb].
    destruct (compact_paths_spec rs) as (rk & _ & ->).
    { apply Forall_forall. intros k Hk. apply plain_path_good. apply (Hpl i f). split; [assumption|]. exists rs. auto. }
    apply existsb_exists. exists (kp (renumber rk [] ks), kp ks). split; [apply in_map_iff; exists ks; auto|]. apply negb_true_iff. unfold skipped. cbn [fst].
    destruct (PexModel.contains _ _) eqn:Ec; [|reflexivity]. apply contains_sub in Ec. now apply (Hns rk) in Ec. }
  unfold create_new. rewrite Hd, Hb. cbn [bind]. rewrite orb_true_r. reflexivity.
Qed.
