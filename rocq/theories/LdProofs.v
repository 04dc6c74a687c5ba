(** Lemmas about linked-data proof creation. *)
From Coq Require Import Permutation.
From Verif Require Import GoBase Base64 StrLemmas JwtSpec DiSpec VcSpec JwtModel SdSpec SdModel SdParse DiModel VcModel VcJwt VcParse VcSign VpModel VcAdd
  LdModel LdSpec VcProofs.

(** ** creator *)
Definition lds_of (opts : list copt) : list (lddesc * csigner) :=
  flat_map (fun o => match o with WithLDProofType d s => [(d, s)] | _ => [] end) opts.
Definition jwts_of (opts : list copt) : list (jdesc * csigner) :=
  flat_map (fun o => match o with WithJWTAlg d s => [(d, s)] | _ => [] end) opts.
Lemma fold_copts opts c : fold_left apply_copt opts c = {| pc_lds := (pc_lds c ++ lds_of opts)%list; pc_jwts := (pc_jwts c ++ jwts_of opts)%list |}.
Proof.
  revert c. induction opts as [|[d s|d s] opts IH]; intros c; cbn [fold_left lds_of jwts_of flat_map].
  - rewrite !app_nil_r. now destruct c.
  - rewrite IH. cbn [apply_copt pc_lds pc_jwts]. now rewrite <- app_assoc.
  - rewrite IH. cbn [apply_copt pc_lds pc_jwts]. now rewrite <- app_assoc.
Qed.
Lemma new_creator_eq opts : new_creator opts = {| pc_lds := lds_of opts; pc_jwts := jwts_of opts |}.
Proof. apply fold_copts. Qed.
(** [find] in a projection of the registrations, as [first_of] *)
Lemma find_first {B} (proj : copt -> list B) (inj : B -> copt) (f : B -> bool) (P : copt -> Prop) opts :
  (forall o, proj o = [] \/ exists b, proj o = [b] /\ o = inj b) -> (forall b, proj (inj b) = [b]) ->
  (forall o, P o <-> exists b, o = inj b /\ f b = true) ->
  forall b, find f (flat_map proj opts) = Some b <-> first_of P opts (inj b).
Proof.
  intros H1 H2 H3 b. induction opts as [|o opts IH]; cbn [flat_map find].
  - split; [discriminate|]. intros (pre & post & E & _). destruct pre; discriminate.
  - assert (Hinj : forall x y, inj x = inj y -> x = y) by (intros x y E; assert (X := H2 x); rewrite E, H2 in X; congruence).
    assert (Hskip : ~ P o -> (first_of P opts (inj b) <-> first_of P (o :: opts) (inj b))).
    { intros Hn. split; intros (pre & post & E & HP & HF).
      - exists (o :: pre), post. subst. split; [reflexivity|]. split; [assumption|now constructor].
      - destruct pre as [|x pre]; cbn in E; injection E as -> ->; [contradiction|]. inversion HF; subst. exists pre, post. auto. }
    destruct (H1 o) as [E|(x & E & ->)]; rewrite E; cbn [app find].
    + assert (Hn : ~ P o) by (intros HP; apply H3 in HP as (x & -> & _); rewrite H2 in E; discriminate). rewrite IH. now apply Hskip.
    + destruct (f x) eqn:Ef.
      * assert (HP : P (inj x)) by (apply H3; eauto). split.
        -- intros [= ->]. exists [], opts. repeat split; auto.
        -- intros (pre & post & E' & _ & HF). destruct pre as [|y pre]; cbn in E'.
           ++ injection E' as E' _. now rewrite (Hinj _ _ E').
           ++ injection E' as <- _. inversion HF; subst. contradiction.
      * assert (Hn : ~ P (inj x)) by (intros HP; apply H3 in HP as (y & E' & Hy); apply Hinj in E'; congruence). rewrite IH. now apply Hskip.
Qed.
Lemma find_ld t opts d s :
  find (fun x => String.eqb (ld_type (le_desc (fst x))) t) (lds_of opts) = Some (d, s) <-> first_of (for_type t) opts (WithLDProofType d s).
Proof.
  apply (find_first _ (fun b => WithLDProofType (fst b) (snd b)) _ _ opts) with (b := (d, s)).
  - intros [x y|x y]; [right; now exists (x, y)|now left].
  - now intros [x y].
  - intros o. split.
    + intros (x & y & -> & E). exists (x, y). split; [reflexivity|]. now apply String.eqb_eq.
    + intros ([x y] & -> & E). exists x, y. split; [reflexivity|]. now apply String.eqb_eq in E.
Qed.
Lemma find_jwt f P opts d s : (forall x y, P (WithJWTAlg x y) <-> f (x, y) = true) -> (forall x y, ~ P (WithLDProofType x y)) ->
  find f (jwts_of opts) = Some (d, s) <-> first_of P opts (WithJWTAlg d s).
Proof.
  intros Hj Hl. apply (find_first _ (fun b => WithJWTAlg (fst b) (snd b)) f P opts) with (b := (d, s)).
  - intros [x y|x y]; [now left|right; now exists (x, y)].
  - now intros [x y].
  - intros [x y|x y]; split.
    + intros H. now apply Hl in H.
    + intros ([a b] & E & _). discriminate.
    + intros H. apply Hj in H. now exists (x, y).
    + intros ([a b] & [= -> ->] & H). now apply Hj.
Qed.
Lemma ktype_eqb_eq a b : ktype_eqb a b = true <-> a = b.
Proof. destruct a, b; cbn; split; intros H; (reflexivity || discriminate H). Qed.
Lemma has_key_spec k s : has_key k s = true <-> k = Some (sm_kms s).
Proof. destruct k as [k|]; cbn; [rewrite ktype_eqb_eq; split; congruence|split; discriminate]. Qed.
Lemma takes_spec k l : existsb (has_key k) l = true <-> takes k l.
Proof. rewrite existsb_exists. split; intros (s & H & E); exists s; (split; [assumption|now apply has_key_spec]). Qed.
Lemma methods_takes k l : methods_for k l <> [] <-> takes k l.
Proof.
  unfold methods_for. rewrite <- takes_spec. induction l as [|s l IH]; cbn; [now split|].
  destruct (has_key k s); cbn; [split; [reflexivity|discriminate]|exact IH].
Qed.
Lemma by_alg_spec a opts d s : find (fun x => String.eqb (jd_alg (fst x)) a) (jwts_of opts) = Some (d, s) <-> first_of (for_alg a) opts (WithJWTAlg d s).
Proof.
  apply find_jwt.
  - intros x y. cbn [fst]. rewrite String.eqb_eq. split; [intros (? & ? & [= <- <-] & E); exact E|intros E; now exists x, y].
  - intros x y (? & ? & E & _). discriminate.
Qed.
Lemma by_cose_spec a opts d s : find (fun x => Z.eqb (jd_cose (fst x)) a) (jwts_of opts) = Some (d, s) <-> first_of (for_cose a) opts (WithJWTAlg d s).
Proof.
  apply find_jwt.
  - intros x y. cbn [fst]. rewrite Z.eqb_eq. split; [intros (? & ? & [= <- <-] & E); exact E|intros E; now exists x, y].
  - intros x y (? & ? & E & _). discriminate.
Qed.
Lemma by_key_spec k opts d s : find (fun x => existsb (has_key k) (jd_vms (fst x))) (jwts_of opts) = Some (d, s) <-> first_of (for_key k) opts (WithJWTAlg d s).
Proof.
  apply find_jwt.
  - intros x y. cbn [fst]. rewrite takes_spec. split; [intros (? & ? & [= <- <-] & E); exact E|intros E; now exists x, y].
  - intros x y (? & ? & E & _). discriminate.
Qed.

(** ** signing *)
Lemma fld_some m k j : fld m k = Some j <-> mget m k = Some j /\ j <> JNull.
Proof. unfold fld. destruct (mget m k) as [[]|]; split; try (intros [= <-]; split; [reflexivity|discriminate]); try (intros [E _]; congruence); try discriminate; intros [[= <-] E]; contradiction. Qed.
Lemma map_res_app {A B} (f : A -> res B) a b : map_res f (a ++ b)%list = (let* x := map_res f a in let* y := map_res f b in Ok (x ++ y)%list).
Proof.
  induction a as [|x a IH]; cbn [app map_res]; [now destruct (map_res f b)|]. rewrite IH. destruct (f x); cbn [bind]; [|reflexivity|reflexivity].
  destruct (map_res f a); cbn [bind]; [|reflexivity|reflexivity]. now destruct (map_res f b).
Qed.
Lemma parse_earlier m ps : parse_ld_proof (fld m "proof") = Ok ps -> mget m "proof" <> Some JNull -> earlier m = map JObj ps.
Proof.
  unfold fld, earlier. destruct (mget m "proof") as [[| | | |l|o]|]; cbn [parse_ld_proof]; intros H Hn; try discriminate; try contradiction.
  - revert ps H. clear. induction l as [|x l IH]; cbn [map_res]; intros ps H; [injection H as <-; reflexivity|].
    apply bind_ok in H as (a & Ha & H). apply bind_ok in H as (b & Hb & H). injection H as <-. destruct x; cbn in Ha; try discriminate. injection Ha as <-.
    cbn [map]. now rewrite (IH _ Hb).
  - now injection H as <-.
  - now injection H as <-.
Qed.
Lemma map_res_objs e ps : map_res (obj_of e) (map JObj ps) = Ok ps.
Proof. induction ps as [|p ps IH]; cbn; [reflexivity|]. now rewrite IH. Qed.
Lemma get_to_raw ps : ps <> [] -> get_proofs (proofs_to_raw ps) = Ok ps.
Proof. intros H. destruct ps as [|p [|p' ps]]; [contradiction|reflexivity|]. cbn [proofs_to_raw get_proofs]. apply map_res_objs. Qed.
Lemma make_proof_spec L C now x doc p : make_proof L C now x doc = Ok p ->
  sc_type x <> "" /\ exists p0 s msg, p = apply_signature p0 s
    /\ (p0 = new_gproof now x /\ sc_rep x <> RepJWS \/ exists a, sc_rep x = RepJWS /\ lc_alg C (new_gproof now x) (sc_key x) = Ok a /\ p0 = with_jws (new_gproof now x) (ll_header L a ++ ".."))
    /\ ll_vdata L (wrap_suite C p0) doc p0 = Ok msg /\ lc_sign C p0 (sc_key x) msg = Ok s.
Proof.
  unfold make_proof, guard. intros H. destruct (String.eqb_spec (sc_type x) "") as [|Hne]; cbn in H; [discriminate|]. split; [assumption|].
  apply bind_ok in H as (p0 & Hp0 & H). apply bind_ok in H as (msg & Hm & H). apply bind_ok in H as (s & Hs & H). injection H as <-.
  exists p0, s, msg. split; [reflexivity|]. split; [|now split].
  destruct (sc_rep x); cbn in Hp0; [left; injection Hp0 as <-; now split| |left; injection Hp0 as <-; now split].
  right. apply bind_ok in Hp0 as (a & Ha & Hp0). injection Hp0 as <-. now exists a.
Qed.
Lemma add_ld_spec L ser now c doc d ps : ld_lib L ser -> add_ld L now c doc = (d, Ok ps) -> mget doc "proof" <> Some JNull ->
  exists p, make_proof L (lx_creator c) now (map_context c) doc = Ok p /\ d = mset doc "proof" (JArr (earlier doc ++ [JObj (ser p)]))
    /\ exists old, map_res (obj_of "unsupported proof value") (earlier doc) = Ok old /\ ps = (old ++ [ser p])%list.
Proof.
  intros HL H Hn. unfold add_ld, sign_object in H. destruct (make_proof L (lx_creator c) now (map_context c) doc) as [p|e|] eqn:Em; try discriminate.
  rewrite (la_add _ _ HL _ _ Hn) in H. injection H as <- H. exists p. split; [reflexivity|]. split; [reflexivity|].
  unfold fld in H. rewrite mget_mset, String.eqb_refl in H. cbn [parse_ld_proof] in H. rewrite map_res_app in H. apply bind_ok in H as (old & Ho & H).
  cbn in H. injection H as <-. eauto.
Qed.
Lemma unsigned_made L C now x doc p0 : (p0 = new_gproof now x /\ sc_rep x <> RepJWS \/ exists a, sc_rep x = RepJWS /\ lc_alg C doc (sc_key x) = Ok a /\ p0 = with_jws (new_gproof now x) (ll_header L a ++ "..")) ->
  sc_rep x <> RepOther -> unsigned L p0 /\ gp_type p0 = sc_type x /\ gp_vm p0 = sc_vm x /\ gp_rep p0 = sc_rep x.
Proof.
  intros [[-> Hr]|(a & Hr & _ & ->)] Ho; unfold unsigned; cbn [with_jws new_gproof gp_rep gp_type gp_vm gp_value gp_jws]; destruct (sc_rep x); try contradiction;
    (split; [|repeat split]); try (now split); try (split; [reflexivity|now exists a]); discriminate.
Qed.
Lemma verify_ld_app E chk m iss a b : verify_ld E chk m iss a = Ok tt -> verify_ld E chk m iss b = Ok tt -> verify_ld E chk m iss (a ++ b)%list = Ok tt.
Proof.
  intros Ha Hb. induction a as [|p a IH]; cbn [app verify_ld] in *; [assumption|].
  apply bind_ok in Ha as (msg & -> & Ha). apply bind_ok in Ha as (sig & -> & Ha). apply bind_ok in Ha as (i & Hi & Ha). apply bind_ok in Ha as (u & Hc & Ha).
  cbn [bind]. rewrite Hi. cbn [bind]. rewrite Hc. cbn [bind]. now apply IH.
Qed.
Lemma verify_ld_blind E chk m m' iss l : (forall q, ve_ldmsg E q m = ve_ldmsg E q m') -> verify_ld E chk m iss l = verify_ld E chk m' iss l.
Proof.
  intros H. induction l as [|p l IH]; cbn [verify_ld]; [reflexivity|]. rewrite H. destruct (ve_ldmsg E p m'); cbn [bind]; try reflexivity.
  destruct (lp_sig p); cbn [bind]; try reflexivity. destruct iss; [|destruct (lp_pkid p)]; cbn [bind]; try reflexivity;
  match goal with |- context [chk ?a ?b ?c ?d] => destruct (chk a b c d); cbn [bind]; try reflexivity end; exact IH.
Qed.
Definition issuer_of (iss : option string) (kid : string) : string := match iss with Some i => i | None => hd "" (split_on "#" kid) end.
(** what was added is accepted: earlier proofs stay accepted, the new one is *)
Lemma added_ld_verifies L ser E suites rd now c chk iss doc p old ms j : ld_lib L ser -> ld_reader L ser E suites rd ->
  make_proof L (lx_creator c) now (map_context c) doc = Ok p -> lx_rep c <> RepOther -> lx_vm c <> "" ->
  ld_fits suites (lx_creator c) chk (lx_type c) (lx_key c) (lx_vm c) (issuer_of iss (lx_vm c)) ->
  (exists l, map_res rd old = Ok l /\ verify_ld E chk doc iss l = Ok tt) ->
  same_but_proof doc ms -> fld ms "proof" = Some j -> get_proofs j = Ok (old ++ [ser p])%list ->
  exists l, ve_ldproofs E ms = Ok l /\ verify_ld E chk ms iss l = Ok tt.
Proof.
  intros HL HR Hm Hrep Hvm (Hsu & Hok) (l & Hl & Hv) Hsame Hf Hg.
  destruct (make_proof_spec _ _ _ _ _ _ Hm) as (Hty & p0 & s & msg & -> & Hp0 & Hmsg & Hs).
  destruct (unsigned_made _ _ _ _ _ _ Hp0 Hrep) as (Hun & Ht & Hvm0 & _). cbn [map_context sc_type sc_vm sc_key] in *.
  destruct (Hok p0 {| lp_type := ""; lp_pkid := Panic; lp_sig := Panic; lp_raw := JNull |} msg s Ht Hs) as (Hne & _).
  destruct (lr_read _ _ _ _ _ HR p0 s Hun ltac:(now rewrite Hvm0) Hne) as (q & Hq & Hqt & Hqk & Hqs & Hqm).
  exists (l ++ [q])%list. split.
  - rewrite (lr_get _ _ _ _ _ HR ms j _ Hf Hg), map_res_app, Hl. cbn [bind map_res]. now rewrite Hq.
  - apply verify_ld_app.
    + rewrite <- Hv. symmetry. apply verify_ld_blind. intros q0. now apply (lr_blind _ _ _ _ _ HR).
    + cbn [verify_ld]. rewrite Hqm, Ht, <- (la_ext _ _ HL _ _ _ _ (Hsu p0 Ht)), <- (la_blind _ _ HL _ _ _ _ Hsame), Hmsg. cbn [bind]. rewrite Hqs. cbn [bind].
      assert (Hchk : chk q (issuer_of iss (lx_vm c)) msg s = Ok tt) by (apply (Hok p0 q msg s Ht Hs); congruence).
      destruct iss as [i|]; cbn [issuer_of] in Hchk; cbn [bind]; [now rewrite Hchk|]. rewrite Hqk, Hvm0. cbn [bind]. now rewrite Hchk.
Qed.
