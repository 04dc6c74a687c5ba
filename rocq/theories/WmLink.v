(** The wallet side with the credentials and the limited disclosure of the other parts of the model: what the filters see of a
    credential, and limitDisclosure (PxModel.limit_one) as a step that leaves out, hands on, makes or changes a credential. *)
From Verif Require Import GoBase StrLemmas PexSpec PexModel PexCompact PexLimit StatusModel PxSpec JwtSpec DiSpec VcSpec JwtModel SdSpec SdModel SdParse DiModel
  VcModel VcJwt VcText VcParse VcSign ResSpec ResModel BbsModel PxModel PxProofs PxProps VcView WmModel WmSpec.

(** Contents() and the envelope as definition.go 842-1022, 1758-1902 read them; [shown]: JSON of the credential, of the fully disclosed one for an SD-JWT
    (962-982: CreateDisplayCredential, MarshalAsJSONLD) *)
Definition seen (shown : credential -> option (gomap json)) (v : credential) : cred :=
  {| c_id := vc_id (cr_contents v); c_issuer := option_map is_id (vc_issuer (cr_contents v));
     c_subject_ids := map sj_id (vc_subject (cr_contents v)); c_proof_types := map (fun p => mget p "type") (cr_proofs v);
     c_jwt := match cr_jwt v with Some _ => true | None => false end;
     c_alg := match cr_jwt v with Some e => match mget (je_headers e) "alg" with Some (JStr a) => Some a | _ => None end | None => None end;
     c_contexts := vc_context (cr_contents v); c_types := vc_types (cr_contents v); c_src := shown v |}.
(** the constraints as limitDisclosure reads them *)
Definition limits_of (w : wcons) : climits :=
  {| cl_limit := cs_limit (wc_base w);
     cl_fields := map (fun fp => {| cf_paths := fd_paths (fst fp); cf_pred := snd fp |})
                      (combine (cs_fields (wc_base w)) (wc_preds w)) |}.
Section Link.
  Variable jp : list string -> json -> res (list (list pkey)).
  Variable ord : list string -> list string.
  Variable E : venv.
  Variable D : senv.
  Variable txt : json -> string.
  Variable disclose : credential -> gomap json -> string -> res credential.
  Variable limit_sd : climits -> gomap json -> credential -> res credential.
  Variable nonce uuid : string.
  Variable o : copts.
  Variable shown : credential -> option (gomap json).
  (** 1024-1130 for one credential that passed the constraints; the pointer stays the same unless a new credential is made (1058-1108);
      SetSDJWTDisclosures 1117 changes the credential behind it *)
  Definition vc_limit (w : wcons) (v : credential) : res (limited credential) :=
    let c := limits_of w in
    let* ws := limit_one jp ord E D txt disclose limit_sd nonce uuid o
                 {| fr_cred := v; fr_src := match shown v with Some m => m | None => [] end; fr_limits := Some c |} in
    Ok match ws with
       | [] => LDrop
       | x :: _ => if is_sd v then if cl_limit c then LChange (wr_id x) (wr_cred x) else LSame (wr_id x)
                   else if (cl_limit c || existsb cf_pred (cl_fields c))%bool then LNew (wr_id x) (wr_cred x) else LSame (wr_id x)
       end.
  (** 1223-1242 *)
  Definition vc_frame (f : gomap json) (v : credential) : res credential := disclose v f "".

  Lemma vc_limit_same w v id : vc_limit w v = Ok (LSame id) -> id = vc_id (cr_contents v) /\
    limit_one jp ord E D txt disclose limit_sd nonce uuid o {| fr_cred := v; fr_src := match shown v with Some m => m | None => [] end; fr_limits := Some (limits_of w) |}
      = Ok [{| wr_id := id; wr_cred := v |}].
  Proof.
    unfold vc_limit. generalize (limits_of w). intros c H. cbv zeta in H. apply bind_ok in H as (ws & Hw & H). injection H as H. rewrite Hw. revert Hw H. unfold limit_one. cbn [fr_cred fr_src fr_limits]. cbv zeta.
    destruct (cl_limit c) eqn:El; cbn [andb orb].
    - destruct (negb _) eqn:En; [intros [= <-] X; discriminate X|]. destruct (is_sd v) eqn:Es; cbn [negb].
      + intros H. apply bind_ok in H as (p & _ & H). apply bind_ok in H as (n & _ & H). injection H as <-. intros X; discriminate X.
      + intros H. apply bind_ok in H as (p & _ & H). apply bind_ok in H as (n & _ & H). injection H as <-. intros X; discriminate X.
    - destruct (existsb cf_pred (cl_fields c)) eqn:Ep; cbn [andb orb].
      + destruct (is_sd v) eqn:Es; cbn [negb bind fst snd].
        * intros [= <-]. cbn [wr_id]. intros [= <-]. auto.
        * intros H. apply bind_ok in H as (p & _ & H). cbn [andb bind] in H. injection H as <-. intros X; discriminate X.
      + cbn [bind fst snd]. intros [= <-]. cbn [wr_id]. destruct (is_sd v); intros [= <-]; auto.
  Qed.
  (** changed in place: exactly the SD-JWT credentials whose disclosure is limited *)
  Lemma vc_limit_change w v id b : vc_limit w v = Ok (LChange id b) -> sd_jwt v /\ cs_limit (wc_base w) = true /\ id = vc_id (cr_contents v) /\
    exists m, limit_sd (limits_of w) m v = Ok b.
  Proof.
    change (cs_limit (wc_base w)) with (cl_limit (limits_of w)). unfold vc_limit. generalize (limits_of w). intros c H. cbv zeta in H. apply bind_ok in H as (ws & Hw & H). injection H as H. destruct ws as [|x ws]; [discriminate|].
    destruct (is_sd v) eqn:Es; [|destruct (_ || _)%bool; discriminate]. destruct (cl_limit c) eqn:El; [|discriminate]. injection H as <- <-.
    split; [now apply sd_is|]. split; [reflexivity|]. unfold limit_one in Hw. cbn [fr_cred fr_src fr_limits] in Hw. cbv zeta in Hw. rewrite El, Es in Hw. cbn [andb orb negb] in Hw.
    rewrite orb_true_r in Hw. cbn [orb negb bind fst snd] in Hw. apply bind_ok in Hw as (n & Hn & Hw). injection Hw as <- _. cbn [wr_id wr_cred]. eauto.
  Qed.
  Lemma vc_limit_drop w v : vc_limit w v = Ok LDrop <->
    cs_limit (wc_base w) = true /\ (forall f, In f (cl_fields (limits_of w)) -> cf_pred f = false) /\ ~ sd_jwt v /\ ~ bbs_signed v /\ ~ subject_issued v.
  Proof.
    set (r := {| fr_cred := v; fr_src := match shown v with Some m => m | None => [] end; fr_limits := Some (limits_of w) |}).
    destruct (C236_who_is_limited jp ord E D txt disclose limit_sd nonce uuid o r) as (_ & _ & H & _).
    assert (Eq : vc_limit w v = Ok LDrop <-> limit_one jp ord E D txt disclose limit_sd nonce uuid o r = Ok []).
    { unfold vc_limit. fold r. split.
      - intros Hx. apply bind_ok in Hx as (ws & Hw & Hx). destruct ws as [|x ws]; [assumption|]. exfalso. revert Hx. clear. generalize (limits_of w). intros c.
        destruct (is_sd v); [destruct (cl_limit c); discriminate|destruct (cl_limit c || existsb cf_pred (cl_fields c))%bool; discriminate].
      - intros ->. reflexivity. }
    rewrite Eq, H. cbn [fr_limits fr_cred r]. split.
    - intros (c & [= <-] & H1 & H2 & H3 & H4 & H5). auto.
    - intros (H1 & H2 & H3 & H4 & H5). exists (limits_of w). auto 8.
  Qed.
End Link.
