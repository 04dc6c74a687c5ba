(** The wallet side of presentation exchange: properties C249 to C252. *)
From Verif Require Import GoBase JwtModel StatusModel StatusProofs PexSpec ReqSpec ReqModel ReqSearch PexModel PexProofs PexMerge PexMatch VcSpec VcModel VcView PxModel
  WmModel WmSpec WmProofs WmProofs2 WmProofs3 WmProofs4 WmProofs5 WmLink.

Lemma answers_mono pd (M M' : wdesc -> list nat -> Prop) ts : (forall d l, In d (wp_descs pd) -> M d l -> M' d l) -> answers pd M ts -> answers pd M' ts.
Proof.
  intros H [(Er & l & Hl & ->)|(Er & Hm)]; [left|right]; (split; [assumption|]).
  - exists l. split; [|reflexivity]. revert H. induction Hl as [|d m ds ms Hd _ IH]; intros H; constructor.
    + eapply described_mono; [|exact Hd]. intros x Hx. apply H; [now left|assumption].
    + apply IH. intros d' x Hd' Hx. apply H; [now right|assumption].
  - exact (proj2 (mirrors_mono _ _ _ H) _ _ Hm).
Qed.

(** ** C249: without selective disclosure, the answer has the shape of the definition's requirements, and for every descriptor it
    lists exactly the wallet's credentials (pointers, in the order of the wallet) that match it.  The wallet stays as it is. *)
Theorem C249_lists_the_matching_credentials : forall A obs none valid frame limit idof ctx load type_ids jp_parse validate rfc3339 order pd (creds : list A) h ts,
  plain_def pd ->
  match_submission A obs none valid frame limit idof ctx load type_ids jp_parse validate rfc3339 order pd false creds = Ok (h, ts) ->
  h = creds /\ valid pd = Ok tt /\
  answers pd (fun d l => exists fmt, matching ctx load type_ids jp_parse validate rfc3339 order (fun p => obs (at_ptr A none creds p)) pd d (seq 0 (List.length creds)) fmt l) ts.
Proof. intros A obs none valid frame limit idof ctx load type_ids jp_parse validate rfc3339 order pd creds h ts Hp H. exact (submission0 _ _ _ _ _ _ _ _ _ _ _ _ _ _ pd Hp creds h ts H). Qed.
(** the credentials are determined *)
Theorem C249_determined : forall B (look : B -> cred) ctx load type_ids jp_parse validate rfc3339 order pd d l f1 l1 f2 l2,
  matching ctx load type_ids jp_parse validate rfc3339 order look pd d l f1 l1 ->
  matching ctx load type_ids jp_parse validate rfc3339 order look pd d l f2 l2 -> f1 = f2 /\ l1 = l2.
Proof. intros. eapply matching_det; eassumption. Qed.

(** ** C250: what makes it fail: an invalid definition, a requirement for a group without descriptors, a credential with a context that cannot be
    loaded (when a descriptor has schemas), or a field all of whose paths are malformed.  Never a panic. *)
Theorem C250_errors : forall A obs none valid frame limit idof ctx load type_ids jp_parse validate rfc3339 order pd (creds : list A),
  plain_def pd ->
  (forall e, match_submission A obs none valid frame limit idof ctx load type_ids jp_parse validate rfc3339 order pd false creds = Err e ->
     valid pd = Err e
     \/ (e = "no descriptors for from" /\ exists s, In s (wp_reqs pd) /\ empty_group (wp_descs pd) s)
     \/ exists d, In d (wp_descs pd) /\
        ((exists s a x, wd_schema d = Some s /\ In a creds /\ In x (c_contexts (obs a)) /\ load x = Err e)
         \/ (exists w a doc f, wd_cons d = Some w /\ In a creds /\ c_src (obs a) = Some doc /\ In f (cs_fields (wc_base w)) /\
               forall p, In p (fd_paths f) -> malformed jp_parse order (c_jwt (obs a)) doc p))) /\
  ((forall x, load x <> Panic) -> valid pd <> Panic ->
     match_submission A obs none valid frame limit idof ctx load type_ids jp_parse validate rfc3339 order pd false creds <> Panic).
Proof.
  intros A obs none valid frame limit idof ctx load type_ids jp_parse validate rfc3339 order pd creds Hp. split.
  - intros e H. exact (submission0_err _ _ _ _ _ _ _ _ _ _ _ _ _ _ pd Hp creds e H).
  - intros Hl Hv. exact (submission0_np _ _ _ _ _ _ _ _ _ _ _ _ _ _ pd Hp creds Hl Hv).
Qed.

(** ** C251: with selective disclosure, and no credential changed in place: the listed credentials are what limiting makes of the (framed) credentials
    that match; the credentials of the wallet are still there, unchanged. *)
Theorem C251_lists_limited_credentials : forall A obs none valid frame limit idof ctx load type_ids jp_parse validate rfc3339 order pd (creds : list A) h ts,
  plain_def pd ->
  (forall d w a fr id b, In d (wp_descs pd) -> wd_cons d = Some w -> framed frame (wp_frame pd) creds fr -> In a fr -> limit w a <> Ok (LChange id b)) ->
  match_submission A obs none valid frame limit idof ctx load type_ids jp_parse validate rfc3339 order pd true creds = Ok (h, ts) ->
  (exists new, h = (creds ++ new)%list) /\ valid pd = Ok tt /\
  answers pd (fun d l => exists fr fmt kept outs,
    framed frame (wp_frame pd) creds fr /\ matching ctx load type_ids jp_parse validate rfc3339 order obs pd d fr fmt kept /\
    Forall2 (handed limit (wd_cons d)) kept outs /\ map (at_ptr A none h) l = List.concat outs) ts.
Proof.
  intros A obs none valid frame limit idof ctx load type_ids jp_parse validate rfc3339 order pd creds h ts Hp Hq H.
  destruct (submission1 _ _ _ _ _ _ _ _ _ _ _ _ _ _ pd Hp creds Hq h ts H) as (E & V & An). split; [exact E|]. split; [assumption|].
  eapply answers_mono; [|exact An]. cbv beta. intros d l _ (_ & fr & fmt & kept & outs & H1 & H2 & H3 & H4 & _). exists fr, fmt, kept, outs. auto.
Qed.
(** for the library's own limiting the premise says: no SD-JWT credential is asked for with limited disclosure *)
Theorem C251_in_place_only_sd_jwt : forall jp ord E D txt disclose limit_sd nonce uuid o shown w v id b,
  vc_limit jp ord E D txt disclose limit_sd nonce uuid o shown w v = Ok (LChange id b) -> PxSpec.sd_jwt v /\ cs_limit (wc_base w) = true.
Proof. intros. destruct (vc_limit_change _ _ _ _ _ _ _ _ _ _ _ _ _ _ _ H) as (H1 & H2 & _). auto. Qed.

(** ** C252: the answer tells what CreateVP and CreateVPArray will do: presentationData succeeds exactly when some set of listed descriptors with
    non-empty lists meets the requirements; it then submits, for such a set, credentials listed for its descriptors (all of them, at the place the
    descriptor map says, when different credentials have different identifiers). *)
Theorem C252_agrees_with_create_vp : forall valid frame limit ctx load type_ids jp_parse validate rfc3339 order none pd creds h ts sep fmt,
  plain_def pd -> NoDup (map wd_id (wp_descs pd)) -> Forall plain_rule (wp_reqs pd) ->
  (forall d w a fr id b, In d (wp_descs pd) -> wd_cons d = Some w -> framed frame (wp_frame pd) creds fr -> In a fr -> limit w a <> Ok (LChange id b)) ->
  (exists m, listed_in ts m) ->
  match_submission cred (fun c => c) none valid frame limit c_id ctx load type_ids jp_parse validate rfc3339 order pd true creds = Ok (h, ts) ->
  match presentation_data valid frame limit ctx load type_ids jp_parse validate rfc3339 order pd sep fmt creds with
  | Ok (cs, maps) => exists T, shows pd ts T /\ NoDup T /\
      (forall c, In c cs -> exists m, listed_in ts m /\ In (md_id m) T /\ In c (map (at_ptr cred none h) (md_vcs m))) /\
      (forall id, In id T <-> exists x, In x maps /\ m_id x = id) /\
      ((forall fr, framed frame (wp_frame pd) creds fr -> ids_identify limit c_id (wp_descs pd) fr) ->
        exists f, forall m, listed_in ts m -> In (md_id m) T -> forall c, In c (map (at_ptr cred none h) (md_vcs m)) ->
          exists i, nth_error cs i = Some c /\ In (entry f sep (md_id m) c i) maps)
  | Err e => e = "credentials do not satisfy requirements" /\ ~ exists T, shows pd ts T
  | Panic => False
  end.
Proof.
  intros valid frame limit ctx load type_ids jp_parse validate rfc3339 order none pd creds h ts sep fmt H1 H2 H3 H4 H5 H6.
  exact (data_spec valid frame limit ctx load type_ids jp_parse validate rfc3339 order none pd creds h ts H1 H2 H3 H4 H5 H6 sep fmt).
Qed.

(** ** A wallet of three credentials *)
Definition wcred (id member : string) : cred :=
  {| c_id := id; c_issuer := None; c_subject_ids := []; c_proof_types := [Some (JStr "Ed25519Signature2018")]; c_jwt := false; c_alg := None;
     c_contexts := [v1_context]; c_types := ["VerifiableCredential"]; c_src := Some [("id", JStr id); (member, JStr "x")] |}.
Definition toy_jp (p : string) : option (json -> list json) :=
  if has_prefix "$." p then Some (fun j => match j with JObj m => match mget m (str_drop 2 p) with Some x => [x] | None => [] end | _ => [] end) else None.
Definition toy_cons (limit : bool) (p : string) : wcons :=
  {| wc_holder := []; wc_base := {| cs_subject_is_issuer := false; cs_limit := limit; cs_fields := [{| fd_paths := [p]; fd_filter := None; fd_optional := false |}] |}; wc_preds := [false] |}.
Definition toy_desc (id : string) (groups : list string) (limit : bool) (p : string) : wdesc :=
  {| wd_id := id; wd_group := groups; wd_name := "n" ++ id; wd_purpose := ""; wd_schema := None; wd_cons := Some (toy_cons limit p); wd_format := None |}.
Definition toy_pd : wdef :=
  {| wp_id := "PD"; wp_format := None; wp_frame := None; wp_reqs := [WSR "r" "why" "pick" 1 0 0 "A" []; WSR "s" "" "all" 0 0 0 "B" []];
     wp_descs := [toy_desc "1" ["A"] false "$.degree"; toy_desc "2" ["A"] false "$.passport"; toy_desc "3" ["B"] true "$.license"] |}.
Definition toy_limit (w : wcons) (c : cred) : res (limited cred) :=
  if cs_limit (wc_base w) then Ok (LNew (c_id c ++ "-tmp") (wcred (c_id c) "cut")) else Ok (LSame (c_id c)).
Definition toy_wallet : list cred := [wcred "u" "degree"; wcred "v" "license"; wcred "w" "degree"].
Notation toy_ms := (match_submission cred (fun c => c) (wcred "" "") (fun _ => Ok tt) (fun _ c => Ok c) toy_limit c_id string (fun s => Ok s) (fun c t => Some [c ++ t]) toy_jp (fun _ _ => true) (fun _ => None) []).
Example C249_example : plain_def toy_pd /\
  option_map (map (fun t => match t with MR n _ r _ _ _ l _ => (n, r, map (fun m => (md_id m, md_name m, md_vcs m)) l) end))
    (match toy_ms toy_pd false toy_wallet with Ok (h, ts) => Some ts | _ => None end)
  = Some [("r", "pick", [("1", "n1", [0; 2]%nat); ("2", "n2", [])]); ("s", "all", [("3", "n3", [1]%nat)])].
Proof.
  split; [|vm_compute; reflexivity]. intros d Hd. cbn in Hd. destruct Hd as [<-|[<-|[<-|[]]]]; (split; [|discriminate]); (constructor; [|constructor]); (split; [discriminate|exact I]).
Qed.
Example C250_example : toy_ms {| wp_id := "PD"; wp_format := None; wp_frame := None; wp_reqs := [WSR "r" "" "pick" 1 0 0 "Z" []]; wp_descs := wp_descs toy_pd |} false toy_wallet
    = Err "no descriptors for from"
  /\ is_ok (toy_ms {| wp_id := "PD"; wp_format := None; wp_frame := None; wp_reqs := []; wp_descs := [toy_desc "1" [] false "degree"] |} false toy_wallet) = false.
Proof. split; vm_compute; reflexivity. Qed.
Example C251_example : exists ts, toy_ms toy_pd true toy_wallet = Ok ((toy_wallet ++ [wcred "v" "cut"])%list, ts)
  /\ (exists m, listed_in ts m /\ md_id m = "3" /\ md_vcs m = [3%nat])
  /\ (forall d w a fr id b, In d (wp_descs toy_pd) -> wd_cons d = Some w -> framed (fun _ c => Ok c) (wp_frame toy_pd) toy_wallet fr -> In a fr -> toy_limit w a <> Ok (LChange id b)).
Proof.
  eexists. split; [vm_compute; reflexivity|]. split.
  - eexists. split; [eexists; split; [right; left; reflexivity|]; apply li_here; left; reflexivity|]. split; reflexivity.
  - intros d w a fr id b _ _ _ _. unfold toy_limit. destruct (cs_limit _); discriminate.
Qed.
Notation toy_data := (presentation_data (fun _ => Ok tt) (fun _ c => Ok c) toy_limit string (fun s => Ok s) (fun c t => Some [c ++ t]) toy_jp (fun _ _ => true) (fun _ => None) []).
Example C252_example : exists ts, toy_ms toy_pd true toy_wallet = Ok ((toy_wallet ++ [wcred "v" "cut"])%list, ts)
  /\ NoDup (map wd_id (wp_descs toy_pd)) /\ Forall plain_rule (wp_reqs toy_pd)
  /\ (exists m, listed_in ts m) /\ shows toy_pd ts ["1"; "3"]
  /\ (forall fr, framed (fun _ c => Ok c) (wp_frame toy_pd) toy_wallet fr -> ids_identify toy_limit c_id (wp_descs toy_pd) fr)
  /\ (exists maps, toy_data toy_pd false "ldp_vp" toy_wallet = Ok ([wcred "u" "degree"; wcred "w" "degree"; wcred "v" "cut"], maps) /\ map m_id maps = ["1"; "1"; "3"])
  /\ is_ok (toy_data toy_pd false "ldp_vp" [wcred "u" "degree"]) = false.
Proof.
  eexists. split; [vm_compute; reflexivity|]. split; [vm_compute; repeat constructor; cbn; intuition discriminate|].
  split; [repeat (constructor; try (intros Hx; first [discriminate Hx|split; lia]))|]. split; [|split; [|split; [|split]]].
  - eexists. eexists. split; [left; reflexivity|]. apply li_here. left. reflexivity.
  - split; [discriminate|]. split; [|right; split; [discriminate|]; intros s [<-|[<-|[]]]; reflexivity]. intros id [<-|[<-|[]]].
    + eexists. split; [eexists; split; [left; reflexivity|]; apply li_here; left; reflexivity|]. split; [reflexivity|discriminate].
    + eexists. split; [eexists; split; [right; left; reflexivity|]; apply li_here; left; reflexivity|]. split; [reflexivity|discriminate].
  - intros fr Hfr d d' a a' id b b' Hd Hd' Ha Ha' Hn Hn'. inversion Hfr; subst; clear Hfr.
    cbn in Ha, Ha', Hd, Hd'.
    destruct Hd as [<-|[<-|[<-|[]]]], Hd' as [<-|[<-|[<-|[]]]]; destruct Ha as [<-|[<-|[<-|[]]]], Ha' as [<-|[<-|[<-|[]]]];
      inversion Hn as [|? ? ? Hx|? ? ? ? Hx]; subst; vm_compute in Hx; try discriminate Hx; inversion Hx; subst;
      inversion Hn' as [|? ? ? Hy|? ? ? ? Hy]; subst; vm_compute in Hy; try discriminate Hy; inversion Hy; subst; try reflexivity; try discriminate.
  - eexists. split; vm_compute; reflexivity.
  - vm_compute. reflexivity.
Qed.
Print Assumptions C249_lists_the_matching_credentials.
Print Assumptions C249_determined.
Print Assumptions C250_errors.
Print Assumptions C251_lists_limited_credentials.
Print Assumptions C251_in_place_only_sd_jwt.
Print Assumptions C252_agrees_with_create_vp.
