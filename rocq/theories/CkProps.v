(** C311-C314: the options of proof checkers and creators. *)
From Verif Require Import GoBase Base64 StrLemmas JwtSpec DiSpec VcSpec JwtModel SdSpec SdModel SdParse DiModel VcModel VcJwt VcParse JwtProofs JwtProps VcProps2 CkModel.
From Verif Require LdModel.

(** what a list of options gives, in order *)
Definition given_lds (opts : list chkopt) : list (ldesc * option exverifier) :=
  flat_map (fun o => match o with WithLDProofTypes l => map (fun d => (d, None)) l | WithLDProofTypeEx d f => [(d, f)] | _ => [] end) opts.
Definition given_jwts (opts : list chkopt) : list jdesc := flat_map (fun o => match o with WithJWTAlgs l => l | _ => [] end) opts.
Definition given_cwts (opts : list chkopt) : list jdesc := flat_map (fun o => match o with WithCWTAlgs l => l | _ => [] end) opts.
Definition given_verifiers (opts : list chkopt) : list verifier := flat_map (fun o => match o with WithSignatureVerifiers l => l | _ => [] end) opts.
(** [x] is the first element of [l] that satisfies [p] *)
Definition first_with {A} (p : A -> Prop) (l : list A) (x : A) : Prop := exists a b, l = (a ++ x :: b)%list /\ p x /\ Forall (fun y => ~ p y) a.
(** a supported method of a descriptor fits a verification method *)
Definition fits (vm : vmeth) (s : svm) : Prop :=
  sm_type s = vm_type vm /\
  match vm_jwk vm with None => sm_req s = false | Some j => sm_kty s = jk_kty j /\ sm_crv s = jk_crv j end.
(** the key that a verifier is given *)
Definition key_given (vm : vmeth) (s : svm) (pk : pubkey) : Prop :=
  pk_type pk = sm_kms s /\ pk_jwk pk = vm_jwk vm /\ (vm_jwk vm = None -> pk_bytes pk = Some (vm_value vm)) /\ (vm_jwk vm <> None -> pk_bytes pk = None).
(** the first verifier given for the type of the key accepts *)
Inductive accepted_by (vs : list verifier) (vms : list svm) (vm : vmeth) (msg sig : string) : Prop :=
| ab s pk v : first_with (fits vm) vms s -> key_given vm s pk -> first_with (fun v => sv_supports v (sm_kms s) = true) vs v -> sv_verify v sig msg pk = Ok tt ->
    accepted_by vs vms vm msg sig.

Lemma new_checker_given opts : new_checker opts = {| ck_lds := given_lds opts; ck_jwts := given_jwts opts; ck_cwts := given_cwts opts; ck_verifiers := given_verifiers opts |}.
Proof.
  assert (G : forall c, fold_left apply_chk opts c = {| ck_lds := ck_lds c ++ given_lds opts; ck_jwts := ck_jwts c ++ given_jwts opts; ck_cwts := ck_cwts c ++ given_cwts opts;
    ck_verifiers := ck_verifiers c ++ given_verifiers opts |}%list).
  { induction opts as [|o opts IH]; intros c; cbn [fold_left].
    - destruct c. cbn. now rewrite !app_nil_r.
    - rewrite IH. destruct o; cbn; now rewrite <- ?app_assoc. }
  unfold new_checker. now rewrite G.
Qed.
Lemma given_app opts more : given_lds (opts ++ more) = (given_lds opts ++ given_lds more)%list /\ given_jwts (opts ++ more) = (given_jwts opts ++ given_jwts more)%list /\
  given_cwts (opts ++ more) = (given_cwts opts ++ given_cwts more)%list /\ given_verifiers (opts ++ more) = (given_verifiers opts ++ given_verifiers more)%list.
Proof. unfold given_lds, given_jwts, given_cwts, given_verifiers. now rewrite !flat_map_app. Qed.
Lemma find_app_some {A} (p : A -> bool) l m x : find p l = Some x -> find p (l ++ m)%list = Some x.
Proof. induction l as [|y l IH]; [discriminate|]. cbn [find app]. now destruct (p y). Qed.
Lemma find_first {A} (p : A -> bool) (P : A -> Prop) l x : (forall y, p y = true <-> P y) -> (find p l = Some x <-> first_with P l x).
Proof.
  intros HP. split.
  - induction l as [|y l IH]; [discriminate|]. cbn [find]. destruct (p y) eqn:E.
    + intros H. injection H as <-. exists [], l. repeat split; [now apply HP|constructor].
    + intros H. apply IH in H as (a & b & -> & H1 & H2). exists (y :: a), b. repeat split; [assumption|]. constructor; [|assumption]. rewrite <- HP. congruence.
  - intros (a & b & -> & H1 & H2). apply HP in H1. induction H2 as [|y a Hy _ IH]; cbn [find app]; [now rewrite H1|]. rewrite <- HP in Hy. now destruct (p y).
Qed.
Lemma fits_iff vm s : svm_matches vm s = true <-> fits vm s.
Proof.
  unfold svm_matches, fits. rewrite !andb_true_iff, String.eqb_eq. destruct (vm_jwk vm) as [j|].
  - rewrite andb_true_iff, !String.eqb_eq. cbn. tauto.
  - rewrite negb_true_iff. tauto.
Qed.
Lemma convert_ok vms vm pk : convert_to_public_key vms vm = Ok pk <-> exists s, first_with (fits vm) vms s /\ key_given vm s pk.
Proof.
  unfold convert_to_public_key. split.
  - destruct (find (svm_matches vm) vms) as [s|] eqn:E; [|discriminate]. intros H. injection H as <-. exists s. split; [now apply (find_first _ _ _ _ (fits_iff vm))|].
    unfold create_public_key, key_given. destruct (vm_jwk vm); cbn; repeat split; congruence.
  - intros (s & H & K1 & K2 & K3 & K4). apply (find_first _ _ _ _ (fits_iff vm)) in H. rewrite H. f_equal. unfold create_public_key. destruct pk as [t b j]. cbn in *. subst t j.
    destruct (vm_jwk vm); [now rewrite K4|now rewrite K3].
Qed.
Lemma get_verifier_ok vs k v : get_verifier vs k = Ok v <-> first_with (fun v => sv_supports v k = true) vs v.
Proof.
  unfold get_verifier. rewrite <- (find_first (fun v => sv_supports v k) _ vs v (fun y => iff_refl _)). destruct (find _ vs); [|split; discriminate]. split; intros H; now injection H as ->.
Qed.
Lemma verify_with_ok vs vms vm msg sig : verify_with vs vms vm msg sig = Ok tt <-> accepted_by vs vms vm msg sig.
Proof.
  unfold verify_with. split.
  - intros H. apply bind_ok in H as (pk & Hk & H). apply bind_ok in H as (v & Hv & H). apply convert_ok in Hk as (s & Hs & Hk). apply get_verifier_ok in Hv.
    rewrite (proj1 Hk) in Hv. eauto using ab.
  - intros [s pk v Hs Hk Hv H]. rewrite (proj2 (convert_ok vms vm pk)) by eauto. cbn [bind]. rewrite (proj1 Hk), (proj2 (get_verifier_ok _ _ _) Hv). exact H.
Qed.
Lemma verify_with_more vs more vms vm msg sig : verify_with vs vms vm msg sig = Ok tt -> verify_with (vs ++ more) vms vm msg sig = Ok tt.
Proof.
  unfold verify_with, get_verifier. intros H. apply bind_ok in H as (pk & -> & H). cbn [bind]. destruct (find _ vs) as [v|] eqn:E; [|discriminate]. now rewrite (find_app_some _ _ more _ E).
Qed.
Lemma alg_more ds more a d : supported_by_alg ds a = Ok d -> supported_by_alg (ds ++ more) a = Ok d.
Proof. unfold supported_by_alg. destruct (find _ ds) as [x|] eqn:E; [|discriminate]. now rewrite (find_app_some _ _ more _ E). Qed.
Lemma cose_more ds more a d : supported_by_cose ds a = Ok d -> supported_by_cose (ds ++ more) a = Ok d.
Proof. unfold supported_by_cose. destruct (find _ ds) as [x|] eqn:E; [|discriminate]. now rewrite (find_app_some _ _ more _ E). Qed.

(** C311: giving a checker more never makes it refuse: what is accepted with some options is accepted with further options after them. *)
Theorem C311_jwt : forall R opts more h iss msg sig, new_check_jwt R opts h iss msg sig = Ok tt -> new_check_jwt R (opts ++ more) h iss msg sig = Ok tt.
Proof.
  intros R opts more h iss msg sig. unfold new_check_jwt. rewrite !new_checker_given. destruct (given_app opts more) as (_ & -> & _ & ->). cbn [ck_jwts ck_verifiers]. unfold check_jwt_proof.
  destruct (h_kid h) as [kid|]; [|discriminate]. destruct (h_alg h) as [alg|]; [|discriminate]. intros H. apply bind_ok in H as (vm & -> & H). cbn [bind].
  apply bind_ok in H as (d & Hd & H). rewrite (alg_more _ _ _ _ Hd). cbn [bind]. now apply verify_with_more.
Qed.
Theorem C311_embedded : forall vm opts more h iss msg sig, new_check_embedded vm opts h iss msg sig = Ok tt -> new_check_embedded vm (opts ++ more) h iss msg sig = Ok tt.
Proof.
  intros vm opts more h iss msg sig. unfold new_check_embedded. rewrite !new_checker_given. destruct (given_app opts more) as (_ & -> & _ & ->). cbn [ck_jwts ck_verifiers]. unfold check_jwt_embedded.
  destruct (h_alg h) as [alg|]; [|discriminate]. intros H. apply bind_ok in H as (d & Hd & H). rewrite (alg_more _ _ _ _ Hd). cbn [bind]. now apply verify_with_more.
Qed.
Theorem C311_cwt : forall R cosekey opts more q iss msg sig, new_check_cwt R cosekey opts q iss msg sig = Ok tt -> new_check_cwt R cosekey (opts ++ more) q iss msg sig = Ok tt.
Proof.
  intros R ck opts more q iss msg sig. unfold new_check_cwt. rewrite !new_checker_given. destruct (given_app opts more) as (_ & _ & -> & ->). cbn [ck_cwts ck_verifiers]. unfold check_cwt_proof.
  intros H. apply bind_ok in H as (u & -> & H). cbn [bind]. apply bind_ok in H as (u' & -> & H). cbn [bind]. destruct (negb (String.eqb (cw_kid q) "")).
  - apply bind_ok in H as (vm & -> & H). cbn [bind]. apply bind_ok in H as (d & Hd & H). rewrite (cose_more _ _ _ _ Hd). cbn [bind]. now apply verify_with_more.
  - apply bind_ok in H as (u2 & -> & H). cbn [bind]. apply bind_ok in H as (jk & -> & H). cbn [bind]. apply bind_ok in H as (d & Hd & H). rewrite (cose_more _ _ _ _ Hd). cbn [bind].
    apply bind_ok in H as (pk & -> & H). cbn [bind]. unfold get_verifier in *. destruct (find _ (given_verifiers opts)) as [v|] eqn:E; [|discriminate]. now rewrite (find_app_some _ _ _ _ E).
Qed.
Theorem C311_ld : forall R opts more p iss msg sig, new_check_ld R opts p iss msg sig = Ok tt -> new_check_ld R (opts ++ more) p iss msg sig = Ok tt.
Proof.
  intros R opts more p iss msg sig. unfold new_check_ld, checker_ld. rewrite !new_checker_given. destruct (given_app opts more) as (-> & _ & _ & ->). cbn [ck_lds ck_verifiers].
  intros H. apply bind_ok in H as (k & -> & H). cbn [bind]. apply bind_ok in H as (vm & -> & H). cbn [bind].
  destruct (find _ (given_lds opts)) as [x|] eqn:E; [|discriminate]. rewrite (find_app_some _ _ _ _ E). cbn [bind] in *. apply bind_ok in H as (pk & -> & H). cbn [bind].
  destruct (snd x); [assumption|]. unfold get_verifier in *. destruct (find (fun v => sv_supports v (pk_type pk)) (given_verifiers opts)) as [v|] eqn:E2; [|discriminate]. now rewrite (find_app_some _ _ _ _ E2).
Qed.

(** C312: a checker accepts exactly what its options stand for: the first descriptor given for the algorithm (COSE algorithm, proof type) has a first method that fits the resolved
    verification method, and the first verifier given for that method's key type (or the one given with the proof type) accepts the signature under this key. *)
Theorem C312_jwt : forall R opts h iss msg sig, new_check_jwt R opts h iss msg sig = Ok tt <->
  exists kid alg vm d, mget h "kid" = Some (JStr kid) /\ mget h "alg" = Some (JStr alg) /\ R kid iss = Ok vm /\
    first_with (fun d => jd_alg d = alg) (given_jwts opts) d /\ accepted_by (given_verifiers opts) (jd_vms d) vm msg sig.
Proof.
  intros R opts h iss msg sig. unfold new_check_jwt, check_jwt_proof, h_kid, h_alg, h_str, supported_by_alg. rewrite !new_checker_given. cbn [ck_jwts ck_verifiers].
  assert (F : forall alg d, find (fun d => String.eqb (jd_alg d) alg) (given_jwts opts) = Some d <-> first_with (fun d => jd_alg d = alg) (given_jwts opts) d)
    by (intros alg d; apply find_first; intros y; apply String.eqb_eq).
  split.
  - intros H. destruct (mget h "kid") as [[| | |kid| |]|]; try discriminate. destruct (mget h "alg") as [[| | |alg| |]|]; try discriminate.
    apply bind_ok in H as (vm & Hr & H). destruct (find _ (given_jwts opts)) as [d|] eqn:E; [|discriminate]. exists kid, alg, vm, d. repeat split; auto; [now apply F|now apply verify_with_ok].
  - intros (kid & alg & vm & d & -> & -> & Hr & Hf & H). rewrite Hr. cbn [bind]. rewrite (proj2 (F _ _) Hf). now apply verify_with_ok.
Qed.
Theorem C312_embedded : forall vm opts h iss msg sig, new_check_embedded vm opts h iss msg sig = Ok tt <->
  exists alg d, mget h "alg" = Some (JStr alg) /\ first_with (fun d => jd_alg d = alg) (given_jwts opts) d /\ accepted_by (given_verifiers opts) (jd_vms d) vm msg sig.
Proof.
  intros vm opts h iss msg sig. unfold new_check_embedded, check_jwt_embedded, h_alg, h_str, supported_by_alg. rewrite !new_checker_given. cbn [ck_jwts ck_verifiers].
  assert (F : forall alg d, find (fun d => String.eqb (jd_alg d) alg) (given_jwts opts) = Some d <-> first_with (fun d => jd_alg d = alg) (given_jwts opts) d)
    by (intros alg d; apply find_first; intros y; apply String.eqb_eq).
  split.
  - intros H. destruct (mget h "alg") as [[| | |alg| |]|]; try discriminate. destruct (find _ (given_jwts opts)) as [d|] eqn:E; [|discriminate].
    exists alg, d. repeat split; auto; [now apply F|now apply verify_with_ok].
  - intros (alg & d & -> & Hf & H). rewrite (proj2 (F _ _) Hf). now apply verify_with_ok.
Qed.
Theorem C312_cwt : forall R cosekey opts kid alg mat iss msg sig, kid <> "" ->
  (new_check_cwt R cosekey opts {| cw_kid := kid; cw_key := mat; cw_alg := alg |} iss msg sig = Ok tt <->
   alg <> 0%Z /\ exists vm d, R kid iss = Ok vm /\ first_with (fun d => jd_cose d = alg) (given_cwts opts) d /\ accepted_by (given_verifiers opts) (jd_vms d) vm msg sig).
Proof.
  intros R ck opts kid alg mat iss msg sig Hk. unfold new_check_cwt, check_cwt_proof, supported_by_cose. rewrite !new_checker_given. cbn [ck_cwts ck_verifiers cw_kid cw_key cw_alg].
  apply String.eqb_neq in Hk. rewrite Hk. cbn [andb negb guard bind].
  assert (F : forall d, find (fun d => Z.eqb (jd_cose d) alg) (given_cwts opts) = Some d <-> first_with (fun d => jd_cose d = alg) (given_cwts opts) d)
    by (intros d; apply find_first; intros y; apply Z.eqb_eq).
  destruct (Z.eqb_spec alg 0) as [->|Ha]; cbn [negb guard bind]; [split; [discriminate|now intros [? _]]|]. split.
  - intros H. split; [assumption|]. apply bind_ok in H as (vm & Hr & H). destruct (find _ (given_cwts opts)) as [d|] eqn:E; [|discriminate]. exists vm, d. repeat split; auto; [now apply F|now apply verify_with_ok].
  - intros (_ & vm & d & Hr & Hf & H). rewrite Hr. cbn [bind]. rewrite (proj2 (F _) Hf). now apply verify_with_ok.
Qed.
Theorem C312_ld : forall R opts p iss msg sig, new_check_ld R opts p iss msg sig = Ok tt <->
  exists kid vm x, lp_pkid p = Ok kid /\ R kid iss = Ok vm /\ first_with (fun x => ld_type (fst x) = lp_type p) (given_lds opts) x /\
    match snd x with
    | None => accepted_by (given_verifiers opts) (ld_vms (fst x)) vm msg sig
    | Some f => exists s pk, first_with (fits vm) (ld_vms (fst x)) s /\ key_given vm s pk /\ f sig msg pk p = Ok tt
    end.
Proof.
  intros R opts p iss msg sig. unfold new_check_ld, checker_ld. rewrite !new_checker_given. cbn [ck_lds ck_verifiers].
  assert (F : forall x, find (fun x => String.eqb (ld_type (fst x)) (lp_type p)) (given_lds opts) = Some x <-> first_with (fun x => ld_type (fst x) = lp_type p) (given_lds opts) x)
    by (intros d; apply find_first; intros y; apply String.eqb_eq).
  split.
  - intros H. apply bind_ok in H as (kid & Hk & H). apply bind_ok in H as (vm & Hr & H). destruct (find _ (given_lds opts)) as [x|] eqn:E; [|discriminate]. cbn [bind] in H.
    exists kid, vm, x. repeat split; auto; [now apply F|]. destruct (snd x) as [f|].
    + apply bind_ok in H as (pk & Hp & H). apply convert_ok in Hp as (s & H1 & H2). eauto.
    + now apply verify_with_ok.
  - intros (kid & vm & x & -> & Hr & Hf & H). cbn [bind]. rewrite Hr. cbn [bind]. rewrite (proj2 (F _) Hf). cbn [bind]. destruct (snd x) as [f|].
    + destruct H as (s & pk & H1 & H2 & H). rewrite (proj2 (convert_ok (ld_vms (fst x)) vm pk)) by eauto. exact H.
    + now apply verify_with_ok.
Qed.
(** in particular nothing is accepted under an algorithm that was not given, and algorithms for JWTs are not algorithms for CWTs *)
Theorem C312_not_given : forall R opts h iss msg sig alg, mget h "alg" = Some (JStr alg) -> (forall d, In d (given_jwts opts) -> jd_alg d <> alg) -> new_check_jwt R opts h iss msg sig <> Ok tt.
Proof.
  intros R opts h iss msg sig alg Ha Hn H. apply C312_jwt in H as (kid & a & vm & d & _ & Ha' & _ & (l & m & Hd & Hx & _) & _).
  assert (a = alg) as -> by congruence. apply (Hn d); [|assumption]. rewrite Hd. apply in_or_app. right. now left.
Qed.
Theorem C312_no_cwt : forall R cosekey opts q iss msg sig, (forall l, ~ In (WithCWTAlgs l) opts) -> new_check_cwt R cosekey opts q iss msg sig <> Ok tt.
Proof.
  intros R ck opts q iss msg sig Hn. assert (E : given_cwts opts = []).
  { clear - Hn. induction opts as [|o l IH]; [reflexivity|]. change (given_cwts (o :: l)) with ((match o with WithCWTAlgs l => l | _ => [] end) ++ given_cwts l)%list.
    rewrite IH by (intros x Hx; now apply (Hn x); right). destruct o; try reflexivity. exfalso. now apply (Hn l0); left. }
  unfold new_check_cwt, check_cwt_proof, supported_by_cose. rewrite new_checker_given. cbn [ck_cwts]. rewrite E. cbn [find]. intros H.
  apply bind_ok in H as (u & _ & H). apply bind_ok in H as (u' & _ & H). destruct (negb (String.eqb (cw_kid q) "")).
  - apply bind_ok in H as (vm & _ & H). discriminate H.
  - apply bind_ok in H as (x & _ & H). apply bind_ok in H as (y & _ & H). discriminate H.
Qed.
(** the options of NewDefaultProofChecker (proof/defaults/all.go:37-57), without the derived BBS proofs, give the default checker *)
Definition default_chk (C : cenv) : list chkopt :=
  [WithSignatureVerifiers (default_verifiers C); WithLDProofTypes default_ldescs; WithJWTAlgs default_jdescs; WithCWTAlgs default_jdescs].
Theorem C312_default : forall C R ck, new_check_jwt R (default_chk C) = check_jwt_proof R default_jdescs (default_verifiers C) /\
  new_check_cwt R ck (default_chk C) = check_cwt_proof R default_jdescs (default_verifiers C) ck /\
  (forall p iss msg sig, new_check_ld R (default_chk C) p iss msg sig = check_ld_proof R default_ldescs (fun _ => None) (default_verifiers C) (lp_type p) (lp_pkid p) iss msg sig).
Proof.
  intros C R ck. split; [reflexivity|]. split; [reflexivity|]. intros p iss msg sig. unfold new_check_ld, check_ld_proof, checker_ld, supported_ld. rewrite new_checker_given.
  cbn [ck_lds ck_verifiers given_lds given_verifiers default_chk flat_map app]. rewrite !app_nil_r. destruct (lp_pkid p); cbn [bind]; try reflexivity. match goal with |- context [R ?k iss] => destruct (R k iss) end; cbn [bind]; try reflexivity.
  induction default_ldescs as [|d l IH]; [reflexivity|]. cbn [map find fst]. destruct (String.eqb (ld_type d) (lp_type p)); [reflexivity|exact IH].
Qed.
Definition ck_h : headers := [("alg", JStr "EdDSA"); ("kid", JStr "did:i#k")].
Definition ck_vm : vmeth := jwk_vm {| jk_kty := "OKP"; jk_crv := "Ed25519"; jk_key := KEd ex_key |}.
Definition deny : verifier := {| sv_supports := fun _ => true; sv_verify := fun _ _ _ => Err "no" |}.
Example C311_example : new_check_jwt (fun _ _ => Ok ck_vm) (default_chk ex_cenv) ck_h "did:i" "m" "sig:m" = Ok tt /\
  new_check_jwt (fun _ _ => Ok ck_vm) (default_chk ex_cenv ++ [WithSignatureVerifiers [deny]]) ck_h "did:i" "m" "sig:m" = Ok tt /\
  new_check_jwt (fun _ _ => Ok ck_vm) ([WithSignatureVerifiers [deny]] ++ default_chk ex_cenv) ck_h "did:i" "m" "sig:m" = Err "no".
Proof. repeat split. Qed.
Example C312_example : first_with (fun d => jd_alg d = "EdDSA") (given_jwts (default_chk ex_cenv)) d_eddsa /\
  (exists s, first_with (fits ck_vm) (jd_vms d_eddsa) s /\ sm_kms s = ED25519Type) /\
  (forall d, In d (given_jwts [WithJWTAlgs [d_eddsa; d_es256]]) -> jd_alg d <> "none") /\ (forall l, ~ In (WithCWTAlgs l) [WithJWTAlgs [d_eddsa; d_es256]]).
Proof.
  split; [|split; [|split]].
  - exists [], (tl default_jdescs). repeat split. constructor.
  - eexists. split; [|shelve]. apply (find_first (svm_matches ck_vm) _ _ _ (fits_iff ck_vm)). vm_compute. reflexivity.
  - cbn. intros d [<-|[<-|[]]]; discriminate.
  - intros l [H|[]]. discriminate H.
  Unshelve. reflexivity.
Qed.
Print Assumptions C311_jwt. Print Assumptions C311_embedded. Print Assumptions C311_cwt. Print Assumptions C311_ld.
Print Assumptions C312_jwt. Print Assumptions C312_embedded. Print Assumptions C312_cwt. Print Assumptions C312_ld. Print Assumptions C312_not_given. Print Assumptions C312_no_cwt. Print Assumptions C312_default.

(** C313: a creator signs with the signer given first for the algorithm, whatever else it is given; without one it does not sign. *)
Definition given_signers (opts : list LdModel.copt) : list (jdesc * LdModel.csigner) := flat_map (fun o => match o with LdModel.WithJWTAlg d s => [(d, s)] | _ => [] end) opts.
Lemma creator_given opts : LdModel.pc_jwts (LdModel.new_creator opts) = given_signers opts.
Proof.
  assert (G : forall c, LdModel.pc_jwts (fold_left LdModel.apply_copt opts c) = (LdModel.pc_jwts c ++ given_signers opts)%list).
  { induction opts as [|o opts IH]; intros c; cbn [fold_left]; [now rewrite app_nil_r|]. rewrite IH. destruct o; cbn; now rewrite <- ?app_assoc. }
  apply G.
Qed.
Theorem C313_first_signer : forall opts alg data sig,
  LdModel.creator_sign_jwt (LdModel.new_creator opts) alg data = Ok sig <-> exists x, first_with (fun x => jd_alg (fst x) = alg) (given_signers opts) x /\ snd x data = Ok sig.
Proof.
  intros opts alg data sig. unfold LdModel.creator_sign_jwt, LdModel.creator_by_alg. rewrite creator_given.
  assert (F : forall x, find (fun x => String.eqb (jd_alg (fst x)) alg) (given_signers opts) = Some x <-> first_with (fun x => jd_alg (fst x) = alg) (given_signers opts) x)
    by (intros d; apply find_first; intros y; apply String.eqb_eq).
  split.
  - destruct (find _ (given_signers opts)) as [x|] eqn:E; [|discriminate]. cbn [bind]. intros H. exists x. split; [now apply F|assumption].
  - intros (x & Hx & H). rewrite (proj2 (F _) Hx). exact H.
Qed.
Theorem C313_first_cose_signer : forall opts alg data sig,
  LdModel.creator_sign_cwt (LdModel.new_creator opts) alg data = Ok sig <-> exists x, first_with (fun x => jd_cose (fst x) = alg) (given_signers opts) x /\ snd x data = Ok sig.
Proof.
  intros opts alg data sig. unfold LdModel.creator_sign_cwt, LdModel.creator_by_cwt. rewrite creator_given.
  assert (F : forall x, find (fun x => Z.eqb (jd_cose (fst x)) alg) (given_signers opts) = Some x <-> first_with (fun x => jd_cose (fst x) = alg) (given_signers opts) x)
    by (intros d; apply find_first; intros y; apply Z.eqb_eq).
  split.
  - destruct (find _ (given_signers opts)) as [x|] eqn:E; [|discriminate]. cbn [bind]. intros H. exists x. split; [now apply F|assumption].
  - intros (x & Hx & H). rewrite (proj2 (F _) Hx). exact H.
Qed.
Theorem C313_more : forall opts more alg data sig, LdModel.creator_sign_jwt (LdModel.new_creator opts) alg data = Ok sig -> LdModel.creator_sign_jwt (LdModel.new_creator (opts ++ more)) alg data = Ok sig.
Proof.
  intros opts more alg data sig. rewrite !C313_first_signer. intros (x & (a & b & E & Hx & Ha) & H). exists x. split; [|assumption].
  exists a, (b ++ given_signers more)%list. repeat split; auto. unfold given_signers in *. rewrite flat_map_app, E, <- app_assoc. reflexivity.
Qed.
Example C313_example : let s : LdModel.csigner := fun d => Ok ("k1:" ++ d) in let s2 : LdModel.csigner := fun d => Ok ("k2:" ++ d) in
  LdModel.creator_sign_jwt (LdModel.new_creator [LdModel.WithJWTAlg d_es256 s2; LdModel.WithJWTAlg d_eddsa s; LdModel.WithJWTAlg d_eddsa s2]) "EdDSA" "m" = Ok "k1:m".
Proof. reflexivity. Qed.
Print Assumptions C313_first_signer. Print Assumptions C313_first_cose_signer. Print Assumptions C313_more.

(** C314 (does not hold): a token made with the key id of a signer that the creator was given is signed by that signer.  The key id does not choose: of two signers for the same
    algorithm the first signs, also tokens that carry the key id of the second. *)
Theorem C314_named_key_refuted : ~ (forall (signer_of : string -> LdModel.csigner) kids kid alg desc data sig,
  In kid kids -> jd_alg desc = alg -> mget (LdModel.creator_headers alg kid) "kid" = Some (JStr kid) ->
  LdModel.creator_sign_jwt (LdModel.new_creator (map (fun k => LdModel.WithJWTAlg desc (signer_of k)) kids)) alg data = Ok sig -> signer_of kid data = Ok sig).
Proof.
  intros H. specialize (H (fun k d => Ok (k ++ ":" ++ d)) ["k1"; "k2"] "k2" "EdDSA" d_eddsa "m" "k1:m"). assert (X : Ok ("k2" ++ ":" ++ "m") = Ok "k1:m"); [|discriminate X].
  apply H; [right; now left|reflexivity|reflexivity|reflexivity].
Qed.
Example C314_example : mget (LdModel.creator_headers "EdDSA" "k2") "kid" = Some (JStr "k2").
Proof. reflexivity. Qed.
Print Assumptions C314_named_key_refuted.
