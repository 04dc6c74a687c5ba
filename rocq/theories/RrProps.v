(** Properties of the related-resource validator (verifiable/related_resource.go), for every schedule of its goroutines,
    every cache history and every server. *)
From Verif Require Import GoBase Base64 JwtSpec StrLemmas DiProofs VcSpec RrSpec RrModel RrProofs.
From Coq Require Import Lia.

(** Every hash in the cache is that of bytes received from the URL it is kept under. *)
Definition cache_of (E : renv) (serve : string -> answer -> Prop) (m : gomap hashes) : Prop :=
  forall u h, mget m u = Some h -> exists a b, serve u a /\ received a b /\
    h_256 h = re_hash E SHA256 b /\ h_384 h = re_hash E SHA384 b /\ h_512 h = re_hash E SHA512 b.
Lemma cache_genuine E serve m : cache_of E serve m -> forall u h, mget m u = Some h -> genuine E serve u h.
Proof.
  intros H u h Hm. destruct (H _ _ Hm) as (a & b & Hs & Hr & H1 & H2 & H3). exists a, b. split; [assumption|]. split; [assumption|].
  destruct h; cbn in *; subst; reflexivity.
Qed.

(** C161 *)
Theorem C161_related_resources_sound E serve cache rs n d :
  cache_of E serve cache -> run E serve (start cache rs) n d -> returned d (Ok tt) ->
  forall r, In r rs -> exists a b, serve (rr_id r) a /\ received a b /\ matches E r b.
Proof.
  intros Hc Hr Hret. eapply returned_sound; [|eassumption|reflexivity].
  eapply inv_run; [apply inv_start; apply cache_genuine; exact Hc|exact Hr].
Qed.
Print Assumptions C161_related_resources_sound.

(** C162 *)
Theorem C162_related_resources_schedule_independent E srv cache rs n d r :
  (forall a b, 2 <= String.length (re_hash E a b))%nat ->
  cache_of E (fun u a => a = srv u) cache -> run E (fun u a => a = srv u) (start cache rs) n d -> returned d r ->
  (r = Ok tt <-> forall x, In x rs -> exists b, received (srv (rr_id x)) b /\ matches E x b).
Proof.
  intros Hlen Hc Hr Hret.
  assert (I0 : inv E (fun u a => a = srv u) rs (start cache rs)) by (apply inv_start; apply cache_genuine; exact Hc).
  assert (I : inv E (fun u a => a = srv u) rs d) by (eapply inv_run; eassumption).
  split.
  - intros Hok x Hx. destruct (returned_sound _ _ _ _ _ I Hret Hok x Hx) as (a & b & -> & Hb & Hm). eauto.
  - intros Hall. pose proof Hret as (_ & Hp & ->). destruct (cf_err d) eqn:He; [|reflexivity]. exfalso.
    destruct (i_err _ _ _ _ I He) as (j & x & v & Hj & Hn & Hv).
    assert (Hs : Forall (settled E srv) (cf_threads d)).
    { eapply settled_run; [exact Hlen|exact I0| |exact Hr]. cbn [start cf_threads]. apply Forall_forall.
      intros t Ht. apply in_map_iff in Ht as (y & <- & _). intros ? HH. discriminate HH. }
    rewrite Forall_forall in Hs. apply nth_error_In in Hn as Hin. refine (Hs _ Hin v eq_refl Hv _).
    apply Hall. rewrite <- (i_rs _ _ _ _ I). apply in_map_iff. exists (x, TDone v). auto.
Qed.
Print Assumptions C162_related_resources_schedule_independent.

(** C163 *)
Theorem C163_related_resources_terminates E serve cache rs n d :
  cache_of E serve cache ->
  (forall u, exists a, serve u a /\ (forall st, a <> Answer st (Some Panic))) ->
  (forall r a t x, In r rs -> digest_of r a t -> re_mb E t = Some (true, x) -> (2 <= String.length x)%nat) ->
  run E serve (start cache rs) n d ->
  (n <= 5 * List.length rs)%nat /\ cf_crash d = false /\ ((exists r, returned d r) \/ exists e, step E serve d e).
Proof.
  intros Hc Hsrv Hd Hr.
  assert (I0 : inv E serve rs (start cache rs)) by (apply inv_start; apply cache_genuine; exact Hc).
  assert (I : inv E serve rs d) by (eapply inv_run; eassumption).
  assert (Hcr : cf_crash d = false).
  { eapply (no_crash E serve rs); [exact I0|reflexivity| |exact Hr].
    intros r Hin (a & t & x & Hdg & Hm & Hl). pose proof (Hd _ _ _ _ Hin Hdg Hm). lia. }
  split; [|split; [exact Hcr|]].
  - pose proof (measure_run _ _ _ _ _ _ I0 Hr) as Hm. rewrite measure_start in Hm. lia.
  - destruct (progress E serve rs d I) as [Hx|Hx]; [|congruence|exact Hx].
    intros u. destruct (Hsrv u) as (a & Hs & Ha). exists a. split; [assumption|].
    destruct a as [|st [[b|e|]|]]; cbn; try discriminate.
    + unfold guard. destruct (st =? 200); cbn; [destruct (String.eqb b "")|]; discriminate.
    + unfold guard. destruct (st =? 200); discriminate.
    + exfalso. exact (Ha st eq_refl).
    + unfold guard. destruct (st =? 200); discriminate.
Qed.
Print Assumptions C163_related_resources_terminates.

(** *** A concrete world: two resources, one fetched and one cached; a toy hash (any function is allowed) *)
Definition toy_hash (a : hashalg) (b : string) : string :=
  (match a with SHA256 => "h256:" | SHA384 => "h384:" | _ => "h512:" end ++ b)%string.
(* "u" is base64url, "m" another base; the alphabet is not decoded *)
Definition toy_mb (s : string) : option (bool * string) :=
  match s with
  | String c x => if Ascii.eqb c "u" then Some (true, x) else if Ascii.eqb c "m" then Some (false, x) else None
  | "" => None
  end.
Definition toyE : renv := {| re_hash := toy_hash; re_mb := toy_mb |}.
Definition r_img : relres := {| rr_id := "https://x/img"; rr_sri := "SHA384-mh384:PNG"; rr_mb := ""; rr_media := "image/png" |}.
Definition r_ctx : relres := {| rr_id := "https://x/ctx"; rr_sri := ""; rr_mb := "u" ++ mh_header ++ "h256:CTX"; rr_media := "" |}.
Definition toy_srv (u : string) : answer :=
  if String.eqb u "https://x/img" then Answer 200 (Some (Ok "PNG")) else
  if String.eqb u "https://x/ctx" then Answer 200 (Some (Ok "CTX")) else NoAnswer.
Definition toy_cache : gomap hashes := [("https://x/ctx", calc toyE "CTX")].
Example C161_example_cache : cache_of toyE (fun u a => a = toy_srv u) toy_cache.
Proof.
  intros u h Hm. unfold toy_cache in Hm. cbn [mget] in Hm.
  destruct (String.eqb_spec u "https://x/ctx") as [->|]; [|discriminate]. injection Hm as <-.
  exists (toy_srv "https://x/ctx"), "CTX". repeat split. discriminate.
Qed.
(** an execution in which the second goroutine runs inside the first *)
Example C161_example_run : exists d,
  run toyE (fun u a => a = toy_srv u) (start toy_cache [r_img; r_ctx]) 8 d /\ returned d (Ok tt).
Proof.
  eexists. split.
  - eapply run_step. eapply run_step. eapply run_step. eapply run_step. eapply run_step. eapply run_step. eapply run_step. eapply run_step.
    + apply run_refl.
    + eapply (st_miss _ _ _ 0); reflexivity.
    + eapply (st_hit _ _ _ 1); reflexivity.
    + eapply (st_got _ _ _ 0); reflexivity.
    + eapply (st_check _ _ _ 1); [reflexivity|reflexivity|]. vm_compute. discriminate.
    + eapply (st_add _ _ _ 0); reflexivity.
    + eapply (st_check _ _ _ 0); [reflexivity|reflexivity|]. vm_compute. discriminate.
    + eapply st_recv; reflexivity.
    + eapply st_recv; reflexivity.
  - repeat split.
Qed.
Example C162_example : matches toyE r_img "PNG" /\ matches toyE r_ctx "CTX" /\ ~ matches toyE r_img "GIF"
  /\ (forall a b, 2 <= String.length (toy_hash a b))%nat.
Proof.
  assert (Hlen : forall a b, (2 <= String.length (toy_hash a b))%nat) by (intros [] b; cbn; lia).
  split; [apply validate_single_sound; reflexivity|]. split; [apply validate_single_sound; reflexivity|]. split; [|exact Hlen].
  intros H. apply (validate_single_complete toyE) in H; [discriminate H|intros a; apply Hlen].
Qed.
(** a base64url digest without bytes is the one hypothesis of C163 that input can break: see C164 *)
Example C163_example : forall r a t x, In r [r_img; r_ctx] -> digest_of r a t -> re_mb toyE t = Some (true, x) -> (2 <= String.length x)%nat.
Proof.
  intros r a t x [<-|[<-|[]]] Hd Hm.
  - destruct (parts_of_complete _ _ _ Hd) as (alg & Hp & _). cbn in Hp. injection Hp as <- <-. discriminate Hm.
  - destruct (parts_of_complete _ _ _ Hd) as (alg & Hp & _). cbn in Hp. injection Hp as <- <-. injection Hm as <-. cbn. lia.
Qed.

(** C164 *)
Theorem C164_short_digest_crashes_refuted (E : renv) (serve : string -> answer -> Prop) (cache : gomap hashes) r al t x a b :
  digest_of r al t -> re_mb E t = Some (true, x) -> x = "" \/ x = String (ascii_of_N 18) "" ->
  mget cache (rr_id r) = None -> serve (rr_id r) a -> received a b ->
  exists d, run E serve (start cache [r]) 4 d /\ cf_crash d = true.
Proof.
  intros Hd Hmb Hx Hm Hs Hr.
  assert (Hp : forall h, validate_single E r h = Panic).
  { intros h. assert (Hsd : short_digest E r) by (exists al, t, x; repeat split; auto; destruct Hx as [-> | ->]; cbn; lia).
    destruct (short_digest_panics E r h Hsd) as [Hv|(al' & t' & Hd' & c & s & Hmb' & Hc)]; [exact Hv|]. exfalso.
    destruct (parts_of_complete _ _ _ Hd) as (alg & Hp & _). destruct (parts_of_complete _ _ _ Hd') as (alg' & Hp' & _).
    assert (t' = t) as -> by congruence. rewrite Hmb in Hmb'. injection Hmb' as ->.
    destruct Hx as [Hx|Hx]; [discriminate Hx|]. injection Hx as -> _. exact (Hc eq_refl). }
  eexists. split.
  - eapply run_step. eapply run_step. eapply run_step. eapply run_step.
    + apply run_refl.
    + eapply (st_miss _ _ _ 0); [reflexivity|reflexivity|exact Hm].
    + eapply (st_got _ _ _ 0); [reflexivity|reflexivity|exact Hs|apply received_body; exact Hr].
    + eapply (st_add _ _ _ 0); reflexivity.
    + eapply (st_crash _ _ _ 0); [reflexivity|reflexivity|]. apply Hp.
  - reflexivity.
Qed.
Print Assumptions C164_short_digest_crashes_refuted.
Example C164_example : digest_of {| rr_id := "https://x/img"; rr_sri := ""; rr_mb := "u"; rr_media := "" |} SHA256 "u"
  /\ re_mb toyE "u" = Some (true, "").
Proof. split; [apply do_mb; [reflexivity|discriminate]|reflexivity]. Qed.

(** C165: right digests that are refused, and a wrong label that is accepted *)
Theorem C165_right_digests_refused_refuted E (a : hashalg) (n b : string) :
  (forall x, re_mb E ("u" ++ b64_encode x) = Some (true, x)) ->
  alg_name n a -> free_of "-" n ->
  (* base64url uses '-', which the digestSRI parser takes for a separator *)
  (forall r h, rr_sri r = n ++ "-u" ++ b64_encode (re_hash E a b) -> char_in "-" (b64_encode (re_hash E a b)) ->
     exists e, validate_single E r h = Err e) /\
  (* a bare hash that happens to begin with 0x12 0x20 loses these two bytes *)
  (forall r y, re_hash E a b = mh_header ++ y -> rr_sri r = n ++ "-u" ++ b64_encode (re_hash E a b) ->
     exists e, validate_single E r (calc E b) = Err e) /\
  (* the SHA-256 multihash header is accepted before a SHA-512 hash *)
  (forall r, a = SHA512 -> rr_sri r = n ++ "-u" ++ b64_encode (mh_header ++ re_hash E a b) ->
     free_of "-" (b64_encode (mh_header ++ re_hash E a b)) -> validate_single E r (calc E b) = Ok tt).
Proof.
  intros Hmb Ha Hn.
  assert (Hsplit : forall s, split_on "-" (n ++ "-u" ++ s) = n :: split_on "-" ("u" ++ s)).
  { intros s. change ("-u" ++ s) with (String "-" ("u" ++ s)). apply split_on_app. exact Hn. }
  assert (Hne : forall s, String.eqb (n ++ "-u" ++ s) "" = false) by (intros s; destruct n; reflexivity).
  split; [|split].
  - intros r h Hs Hin. rewrite validate_single_eq. unfold parts_of. rewrite Hs, Hne. cbn [negb]. rewrite Hsplit.
    destruct (split_on "-" ("u" ++ b64_encode (re_hash E a b))) as [|p [|q l]] eqn:Hp.
    + exfalso. eapply split_on_nonempty; eassumption.
    + exfalso. apply split_on_cons_inv in Hp as [Hp _]. destruct (Hp eq_refl) as [_ Hf]. apply Hf. right. exact Hin.
    + eexists. reflexivity.
  - intros r y Hy Hs. rewrite validate_single_eq. unfold parts_of. rewrite Hs, Hne. cbn [negb]. rewrite Hsplit.
    destruct (split_on "-" ("u" ++ b64_encode (re_hash E a b))) as [|p [|q l]] eqn:Hp.
    + eexists. reflexivity.
    + apply split_on_cons_inv in Hp as [Hp _]. destruct (Hp eq_refl) as [<- _]. cbn [bind fst snd]. unfold validate_hash.
      rewrite Hmb.
      assert (Hr : (if String.eqb (to_lower n) "sha256" then Ok (h_256 (calc E b))
        else if String.eqb (to_lower n) "sha384" then Ok (h_384 (calc E b))
        else if String.eqb (to_lower n) "sha512" then Ok (h_512 (calc E b))
        else Err "unsupported hash algorithm") = Ok (re_hash E a b)).
      { destruct Ha as [s Hs'|s Hs'|s Hs']; rewrite Hs'; reflexivity. }
      rewrite Hr. cbn [bind]. rewrite Hy.
      assert (Hh : has_header true (mh_header ++ y) = Ok true) by (apply has_header_true; auto).
      rewrite Hh. cbn [bind]. unfold mh_header. cbn [append drop2]. unfold guard.
      match goal with |- context [String.eqb ?u ?v] => destruct (String.eqb_spec u v) as [He|] end; [|eexists; reflexivity].
      exfalso. apply (f_equal String.length) in He. cbn in He. lia.
    + eexists. reflexivity.
  - intros r -> Hs Hf. rewrite validate_single_eq. unfold parts_of. rewrite Hs, Hne. cbn [negb]. rewrite Hsplit.
    rewrite split_on_free.
    2:{ cbn [append]. apply free_of_cons. split; [discriminate|exact Hf]. }
    cbn [bind fst snd]. unfold validate_hash.
    change (String "u" (b64_encode (mh_header ++ re_hash E SHA512 b))) with ("u" ++ b64_encode (mh_header ++ re_hash E SHA512 b)).
    rewrite Hmb. assert (Hln : to_lower n = "sha512") by (inversion Ha; assumption). rewrite Hln. cbn [String.eqb Ascii.eqb Bool.eqb bind].
    assert (Hh : has_header true (mh_header ++ re_hash E SHA512 b) = Ok true) by (apply has_header_true; auto).
    rewrite Hh. cbn [bind]. unfold mh_header. cbn [append drop2]. unfold guard. cbn [calc h_512]. rewrite String.eqb_refl. reflexivity.
Qed.
Print Assumptions C165_right_digests_refused_refuted.
Example C165_example : char_in "-" (b64_encode (String (ascii_of_N 251) "")) /\ alg_name "sha256" SHA256 /\ free_of "-" "sha256".
Proof.
  split; [vm_compute; auto|]. split; [apply an_256; reflexivity|]. intros H. vm_compute in H. intuition discriminate.
Qed.

(** C166: while the hashes are cached, what the server answers now does not matter *)
Theorem C166_cached_resource_not_fetched_refuted E (now : string -> answer -> Prop) r old :
  (forall a, 2 <= String.length (re_hash E a old))%nat -> matches E r old ->
  exists d, run E now (start [(rr_id r, calc E old)] [r]) 3 d /\ returned d (Ok tt).
Proof.
  intros Hlen Hm. pose proof (validate_single_complete E r old Hlen Hm) as Hv. eexists. split.
  - eapply run_step. eapply run_step. eapply run_step.
    + apply run_refl.
    + eapply (st_hit _ _ _ 0); [reflexivity|reflexivity|]. cbn [start cf_cache mget]. rewrite String.eqb_refl. reflexivity.
    + eapply (st_check _ _ _ 0); [reflexivity|reflexivity|]. rewrite Hv. discriminate.
    + eapply st_recv; reflexivity.
  - split; [reflexivity|]. split; [reflexivity|]. cbn [cf_err cf_threads set_thread start]. rewrite Hv. reflexivity.
Qed.
Print Assumptions C166_cached_resource_not_fetched_refuted.
Example C166_example : matches toyE r_img "PNG" /\ ~ matches toyE r_img "GIF".
Proof. destruct C162_example as (H & _ & H' & _). auto. Qed.
