(** C328: a credential signed with a proof creator and parsed with a proof checker. *)
From Coq Require Import Permutation.
From Verif Require Import GoBase Base64 StrLemmas JwtSpec DiSpec VcSpec JwtModel SdSpec SdModel SdParse DiModel VcModel VcJwt VcParse VcProofs VcSign VcSignProofs JwtProofs JwtProps VcProps VcProps2 VcProps3 VcProps4 CkModel CkProps
  JnModel JnProofs JnProps KaModel.
From Verif Require LdModel.

(** verifiable/jws.go:17-40 marshalJWS for a proof creator (the other ways to sign are not used); [text_of]: json.Marshal of JWTCredClaims, given its members *)
Definition marshal_jws (L : jlib) (text_of : gomap json -> option string) (k : jcreator) (claims : gomap json) (alg kid : string) : res (string * headers) :=
  let* x := new_signed L (CValue (text_of claims)) {| sp_kid := kid; sp_alg := alg; sp_extra := [] |} k in
  let* s := serialize L (snd x) false in
  Ok (s, tk_headers (fst x)).
Definition signing (L : jlib) (text_of : gomap json -> option string) (k : jcreator) : senv :=
  {| se_alg := jws_name; se_jws := marshal_jws L text_of k; se_unsec := fun _ => Err "not used"; se_cose := fun _ _ _ => Err "not used"; se_hex := fun s => s |}.

(** the environment of the parser uses the same JSON library: what was written are object texts with the members written, and a text that starts like base64 is no JSON object *)
Record same_json (L : jlib) (E : venv) : Prop := {
  sj_jwt : ve_jwt E = lib_denv L;
  sj_obj : forall m b, jl_marshal L m = Some b -> ve_obj E b = true;
  sj_members : forall m b, jl_marshal L m = Some b -> ve_members E b = jl_members L b;
  sj_base64 : forall s t, s <> "" -> ve_members E (b64_encode s ++ t) = None
}.

Lemma json_eqb_refl a : json_eqb a a = true.
Proof.
  induction a as [|b|q|s|l IH|l IH] using json_ind'; cbn; [reflexivity|apply Bool.eqb_reflx|now rewrite Z.eqb_refl, Pos.eqb_refl|apply String.eqb_refl| |].
  - induction IH as [|x l Hx _ IHl]; [reflexivity|]. now rewrite Hx.
  - induction IH as [|[x u] l Hx _ IHl]; [reflexivity|]. cbn in Hx. now rewrite String.eqb_refl, Hx.
Qed.
(** lists stand for maps: the headers are read in the order in which they are listed *)
Definition reads_headers (L : jlib) (h : headers) : Prop := NoDup (map fst h) /\ forall b, jl_marshal L h = Some b -> jl_headers L b = Some h /\ exists ms, jl_members L b = Some ms /\ Permutation ms h.
Lemma reads_survives L h : reads_headers L h -> survives L h.
Proof. intros [N H]. split; [exact N|]. intros b Hb. destruct (H b Hb) as [H1 H2]. split; [exists h; auto|exact H2]. Qed.
Lemma signing_text L E copts text_of claims a k t h : sorts L -> same_json L E -> NoDup (map fst claims) -> survives L claims ->
  (forall b, text_of claims = Some b -> exists ms, jl_members L b = Some ms /\ Permutation ms claims) -> reads_headers L (LdModel.creator_headers a k) ->
  (forall x data, In x (given_signers copts) -> snd x data <> Ok "") ->
  marshal_jws L text_of (creator_jwt (LdModel.new_creator copts)) claims a k = Ok (t, h) ->
  exists j ms, jws_text E t j ms /\ Permutation ms claims /\ jws_headers j = h /\ h = LdModel.creator_headers a k /\
    exists x, first_with (fun x => jd_alg (fst x) = a) (given_signers copts) x /\ snd x (jws_input j) = Ok (jws_sig j).
Proof.
  intros S J N V Ht R Hne H. unfold marshal_jws in H. apply bind_ok in H as ([t0 j0] & H0 & H). apply bind_ok in H as (s & Hs & H). injection H as -> <-. cbn [fst snd] in Hs.
  unfold new_signed in H0. cbn [creator_jwt jc_heads bind sp_alg sp_kid] in H0. apply jose_signed_ok in H0 as (m & b & Hm & Hb & Eh & Ep & Et & _ & Ha & Hin & Hsg). cbn [fst snd sp_extra sp_alg] in Eh, Hsg.
  change (merge_headers [] (LdModel.creator_headers a k)) with (LdModel.creator_headers a k) in Eh.
  cbn [claims_map] in Hm. destruct (text_of claims) as [b0|]; [|discriminate]. destruct (Ht b0 eq_refl) as (ms0 & Hms0 & P0). unfold payload_to_map in Hm. cbn [lib_denv de_members] in Hm.
  rewrite Hms0 in Hm. destruct (nodup_str (map fst ms0)); [|discriminate]. injection Hm as ->.
  assert (Nm : NoDup (map fst m)) by (eapply perm_nodup; [apply Permutation_sym, P0|exact N]).
  assert (Hbc : jl_marshal L claims = Some b) by now rewrite <- (proj1 S _ _ Nm P0).
  destruct V as [_ V]. destruct (V _ Hbc) as [_ (ms & Hms & P)].
  assert (Hpne : jws_payload j0 <> "") by (rewrite Ep; intros ->; now apply (proj2 S) in Hb).
  assert (Vh : survives L (jws_headers j0)) by (rewrite Eh; now apply reads_survives).
  rewrite <- Ep in Hin. destruct (parse_serialised L j0 false t S Vh Ha Hpne Hin Hs) as (Hcp & h & Ph & Hpar).
  assert (T : exists hb, jl_marshal L (LdModel.creator_headers a k) = Some hb /\ t = (b64_encode hb ++ String "." (b64_encode (jws_payload j0) ++ String "." (b64_encode (jws_sig j0))))).
  { unfold serialize in Hs. apply bind_ok in Hs as (hb & Hh & Hs). injection Hs as Hs. exists hb. apply marshal_ok in Hh. now rewrite Eh in Hh. }
  destruct T as (hb & Hhb & T).
  assert (Sp : split_on "." t = [b64_encode hb; b64_encode (jws_payload j0); b64_encode (jws_sig j0)]) by (rewrite T; apply split3; apply b64_dots).
  destruct R as [Rn R]. destruct (R _ Hhb) as [Rh (mh & Rm & _)].
  assert (h = LdModel.creator_headers a k) as ->.
  { unfold parse_compact in Hpar. rewrite Sp, !b64_decode_encode in Hpar. cbn [bind] in Hpar. rewrite Rh in Hpar. cbn [bind] in Hpar. rewrite Eh in Ha.
    rewrite Ha in Hpar. cbn [guard bind] in Hpar. apply bind_ok in Hpar as (i' & _ & Hpar). injection Hpar as Hpar _. now rewrite Hpar. }
  apply C313_first_signer in Hsg as (x & Hx1 & Hx2).
  assert (Hsne : jws_sig j0 <> "").
  { intros Hz. rewrite Hz in Hx2. destruct Hx1 as (l1 & l2 & El & _). apply (Hne x (jws_input j0)); [|exact Hx2]. rewrite El. apply in_or_app. right. now left. }
  exists j0, ms. split; [|split; [exact P|split; [now rewrite Et|split; [now rewrite Et, Eh|exists x; auto]]]].
  assert (Ej : parse_compact L t None = Ok j0) by (rewrite Hpar, <- Eh; now destruct j0).
  assert (Hbne : forall z, z <> "" -> b64_encode z <> "") by (intros z Hz Hz'; apply Hz; apply (b64_encode_inj z ""); exact Hz').
  split; [|split; [|split; [|split; [|split; [|split]]]]].
  - apply split_on_free. rewrite T. unfold free_of, char_in.
    assert (G : forall u v, list_ascii_of_string (u ++ v) = (list_ascii_of_string u ++ list_ascii_of_string v)%list) by (induction u as [|? u IHu]; intros v; [reflexivity|]; cbn; now rewrite IHu).
    intros Hc. rewrite G in Hc. apply in_app_or in Hc as [Hc|[Hc|Hc]]; [now apply b64_encode_chars in Hc as [Hc _]|discriminate Hc|].
    rewrite G in Hc. apply in_app_or in Hc as [Hc|[Hc|Hc]]; [now apply b64_encode_chars in Hc as [Hc _]|discriminate Hc|]. now apply b64_encode_chars in Hc as [Hc _].
  - rewrite T. apply (sj_base64 _ _ J). intros ->. now apply (proj2 S) in Hhb.
  - unfold is_jws, is_valid_json. rewrite Sp, !b64_decode_encode, (sj_obj _ _ J _ _ Hhb). rewrite Ep, (sj_obj _ _ J _ _ Hb). cbn [andb].
    apply negb_true_iff, String.eqb_neq. now apply Hbne.
  - rewrite (sj_jwt _ _ J). exact Hcp.
  - rewrite (sj_jwt _ _ J). exact Ej.
  - rewrite Eh. unfold check_headers, LdModel.creator_headers. destruct (String.eqb k ""); reflexivity.
  - rewrite Ep, (sj_members _ _ J _ _ Hb). exact Hms.
Qed.

(** ** C328  A credential signed with CreateSignedJWTVC and a proof creator is accepted by ParseCredential with a proof checker that has a descriptor for the algorithm and accepts what the
    creator's first signer for it signs, when the key id resolves under the credential's issuer; what it gives is the credential. *)
Theorem C328_sign_then_parse : forall L text_of E copts kopts (R : resolver) o v v' mi alg kid name i vm d je ps c,
  create_signed_jwt (signing L text_of (creator_jwt (LdModel.new_creator copts))) v mi alg kid = Ok v' -> cr_jwt v' = Some je -> jws_name alg = Ok name ->
  coherent (ve_time E) v -> NoDup (map fst (cr_json v)) -> parse_ld_proof (fld (cr_json v) "proof") = Ok ps ->
  nonzero (vc_issued (cr_contents v)) -> nonzero (vc_expired (cr_contents v)) -> rfc_ok (ve_time E) (vc_issued (cr_contents v)) -> rfc_ok (ve_time E) (vc_expired (cr_contents v)) ->
  (* the JSON library *)
  sorts L -> same_json L E -> reads_headers L (LdModel.creator_headers name kid) -> new_jwt_claims v mi = Ok c -> survives L (claims_json c) ->
  (forall b, text_of (claims_json c) = Some b -> exists ms, jl_members L b = Some ms /\ Permutation ms (claims_json c)) ->
  (* the parser has the checker; key and checker fit the creator *)
  co_jwt_check o = Some (new_check_jwt R kopts) -> kid <> "" -> vc_issuer (cr_contents v) = Some i -> R kid (is_id i) = Ok vm ->
  first_with (fun d => jd_alg d = name) (given_jwts kopts) d ->
  (forall x data sig, first_with (fun x => jd_alg (fst x) = name) (given_signers copts) x -> snd x data = Ok sig -> accepted_by (given_verifiers kopts) (jd_vms d) vm data sig) ->
  (forall x data, In x (given_signers copts) -> snd x data <> Ok "") ->
  (co_no_related o = true \/ ve_related E (vc_related (cr_contents v)) = Ok tt) ->
  exists w, parse_credential E o (je_jwt je) = Ok w /\ same_signed (cr_contents v) (cr_contents w) /\
    (forall k, ~ In k ["issuer"; "id"; "issuanceDate"; "validFrom"; "expirationDate"; "validUntil"] -> mget (cr_json w) k = mget (cr_json v) k) /\
    cr_jwt w = Some je /\ cr_proofs w = ps.
Proof.
  intros L text_of E copts kopts R o v v' mi alg kid name i vm d je ps c H Hje Hn Hco Hnd Hps Hz1 Hz2 Hr1 Hr2 S J Rh Hcl V Ht Hck Hk Hi Hr Hd Hx Hne Hrel.
  set (K := creator_jwt (LdModel.new_creator copts)) in *.
  set (S' := {| se_alg := jws_name; se_jws := fun cl a k => if (json_eqb (JObj cl) (JObj (claims_json c)) && String.eqb a name && String.eqb k kid)%bool then marshal_jws L text_of K cl a k else Err "x";
    se_unsec := fun _ => Err "not used"; se_cose := fun _ _ _ => Err "not used"; se_hex := fun s => s |}).
  assert (H' : create_signed_jwt S' v mi alg kid = Ok v').
  { unfold create_signed_jwt in *. rewrite Hcl in *. cbn [bind signing S' se_alg se_jws] in *. rewrite Hn in *. cbn [bind] in *. now rewrite json_eqb_refl, !String.eqb_refl. }
  assert (Hmk : makes_jws E S').
  { intros cl a k t h Ncl. cbn [S' se_jws]. destruct (json_eqb _ _) eqn:Ej; [|discriminate]. apply json_eqb_eq in Ej. injection Ej as ->. destruct (String.eqb_spec a name) as [->|]; [|discriminate].
    destruct (String.eqb_spec k kid) as [->|]; [|discriminate]. cbn [andb]. intros Hm. destruct (signing_text _ _ _ _ _ _ _ _ _ S J Ncl V Ht Rh Hne Hm) as (j & ms & A & B & C & _). eauto. }
  destruct (C115_sign_then_parse E S' o v v' mi alg kid je ps H' Hje Hco Hnd Hps Hz1 Hz2 Hr1 Hr2 Hmk) as (_ & w & Hw & Hs & Ho & Hj & Hp & _); [|exact Hrel|exists w; auto].
  right. intros i' j Hi' Hdj. assert (i' = i) as -> by congruence. exists (new_check_jwt R kopts). split; [exact Hck|].
  unfold create_signed_jwt in H. rewrite Hcl in H. cbn [bind signing se_alg se_jws] in H. rewrite Hn in H. cbn [bind] in H. apply bind_ok in H as ([t h] & Hm & H). injection H as <-. cbn [cr_jwt fst snd] in Hje.
  injection Hje as <-. cbn [envelope je_jwt] in Hdj.
  assert (Ncl : NoDup (map fst (claims_json c))) by apply V.
  destruct (signing_text _ _ _ _ _ _ _ _ _ S J Ncl V Ht Rh Hne Hm) as (j' & ms & A & B & C & D & x & X1 & X2).
  destruct A as (_ & _ & _ & _ & A & _). assert (j' = j) as -> by congruence.
  apply C312_jwt. exists kid, name, vm, d. rewrite C, D. pose proof (creator_heads_get name kid) as [G1 G2]. repeat split; auto. eapply Hx; eassumption.
Qed.

(** an instance: the credential of C115, minimised or not *)
Definition jm_same (a b : gomap json) : bool := (Nat.eqb (List.length a) (List.length b) && forallb (fun kv => match mget b (fst kv) with Some v => json_eqb (snd kv) v | None => false end) a)%bool.
Definition jm_heads : headers := LdModel.creator_headers "EdDSA" "did:i#k".
Definition jm_table (x y : gomap json) : list (gomap json * string) := [(jm_heads, "H"); (x, "P"); (y, "V")].
Definition jm_read (x y : gomap json) (s : string) : option (gomap json) :=
  if String.eqb s "H" then Some jm_heads else if String.eqb s "P" then Some x else if String.eqb s "S" then Some (rev x)
  else if String.eqb s "V" then Some y else if String.eqb s "T" then Some (rev y) else None.
Definition jm_lib (x y : gomap json) : jlib := {| jl_marshal := fun m => option_map snd (find (fun e => jm_same (fst e) m) (jm_table x y)); jl_headers := jm_read x y; jl_members := jm_read x y; jl_gstr := fun _ => "" |}.
Definition jm_env (x y : gomap json) : venv := let E := toyV0 [] [] in {|
  ve_time := ve_time E; ve_jwt := lib_denv (jm_lib x y); ve_members := jm_read x y; ve_obj := fun s => match jm_read x y s with Some _ => true | None => false end; ve_sd := ve_sd E;
  ve_order := ve_order E; ve_cose := ve_cose E; ve_hex := ve_hex E; ve_cbor := ve_cbor E; ve_schema := ve_schema E; ve_valid := ve_valid E; ve_jsonld := ve_jsonld E;
  ve_ext := ve_ext E; ve_ldproofs := ve_ldproofs E; ve_ldmsg := ve_ldmsg E; ve_di := ve_di E; ve_now := ve_now E; ve_related := ve_related E |}.
Lemma jm_marshal_in x y m b : jl_marshal (jm_lib x y) m = Some b -> b = "H" \/ b = "P" \/ b = "V".
Proof.
  cbn [jm_lib jl_marshal]. destruct (find _ (jm_table x y)) as [z|] eqn:E; [|discriminate]. apply find_some in E as [E _]. cbn [option_map]. intros H. injection H as <-.
  destruct E as [<-|[<-|[<-|[]]]]; auto.
Qed.
Lemma jm_sorts x y : sorts (jm_lib x y).
Proof.
  split.
  - intros m m' N P. cbn [jm_lib jl_marshal]. f_equal. apply find_same. intros [e s]. cbn [fst]. unfold jm_same. rewrite (Permutation_length P). f_equal.
    induction e as [|kv e IH]; [reflexivity|]. cbn [forallb]. rewrite IH. now rewrite (mget_perm _ _ _ N P).
  - intros m H. apply jm_marshal_in in H as [H|[H|H]]; discriminate H.
Qed.
Lemma jm_json x y : same_json (jm_lib x y) (jm_env x y).
Proof.
  split; [reflexivity| |reflexivity|].
  - intros m b H. apply jm_marshal_in in H as [-> |[-> | ->]]; reflexivity.
  - assert (G : forall p q z, jm_read x y (String p (String q z)) = None).
    { intros p q z. unfold jm_read. assert (Q : forall c, String.eqb (String p (String q z)) (String c "") = false) by (intros c; cbn; destruct (Ascii.eqb p c); reflexivity). now rewrite !Q. }
    intros s t Hs. cbn [jm_env ve_members]. destruct s as [|a [|b [|c s]]]; [now destruct Hs| | |]; cbn [b64_encode append]; apply G.
Qed.
Lemma jm_survives mi : reads_headers (jm_lib (sg_claims mi) []) jm_heads /\ survives (jm_lib (sg_claims mi) []) (sg_claims mi).
Proof.
  split.
  - split; [vm_compute; nodup_keys|]. intros b H. destruct mi; vm_compute in H; injection H as <-; (split; [reflexivity|]); exists jm_heads; auto.
  - split; [destruct mi; vm_compute; nodup_keys|]. intros b H.
    assert (b = "P") as -> by (destruct mi; vm_compute in H; now injection H as <-). split; exists (sg_claims mi); auto.
Qed.
Definition jm_sign (mi : bool) : senv := signing (jm_lib (sg_claims mi) []) (fun _ => Some "S") (creator_jwt (LdModel.new_creator jn_copts)).
Definition jm_copts : copts := with_checkers toyO (Some (new_check_jwt (fun k i => if String.eqb i "did:i" then Ok ck_vm else Err "x") jn_kopts)) None None None.
Example C328_example mi : exists v' je c,
  create_signed_jwt (jm_sign mi) sg_cred mi EdDSA "did:i#k" = Ok v' /\ cr_jwt v' = Some je /\ coherent toyT sg_cred /\ NoDup (map fst (cr_json sg_cred)) /\
  parse_ld_proof (fld (cr_json sg_cred) "proof") = Ok [] /\ new_jwt_claims sg_cred mi = Ok c /\ claims_json c = sg_claims mi /\
  sorts (jm_lib (sg_claims mi) []) /\ same_json (jm_lib (sg_claims mi) []) (jm_env (sg_claims mi) []) /\ reads_headers (jm_lib (sg_claims mi) []) jm_heads /\ survives (jm_lib (sg_claims mi) []) (sg_claims mi) /\ Permutation (rev (sg_claims mi)) (sg_claims mi) /\
  co_jwt_check jm_copts = Some (new_check_jwt (fun k i => if String.eqb i "did:i" then Ok ck_vm else Err "x") jn_kopts) /\ co_no_proof jm_copts = false /\
  (forall x data, In x (given_signers jn_copts) -> snd x data <> Ok "") /\
  (exists w, parse_credential (jm_env (sg_claims mi) []) jm_copts (je_jwt je) = Ok w /\ mget (cr_json w) "expirationDate" = Some (JStr "T12")).
Proof.
  destruct mi; (eexists; eexists; eexists; split; [vm_compute; reflexivity|]; split; [reflexivity|]; split; [destruct (C115_example true) as (? & ? & _ & _ & X & _); exact X|]; split; [destruct (C115_example true) as (? & ? & _ & _ & _ & X & _); exact X|]; split; [reflexivity|];
    split; [vm_compute; reflexivity|]; split; [vm_compute; reflexivity|];
    split; [apply jm_sorts|]; split; [apply jm_json|]; split; [apply jm_survives|]; split; [apply jm_survives|]; split; [apply Permutation_sym, Permutation_rev|]; split; [reflexivity|]; split; [reflexivity|];
    split; [intros x data [<-|[<-|[]]]; cbn; discriminate|]; eexists; split; [vm_compute; reflexivity|vm_compute; reflexivity]).
Qed.
Print Assumptions C328_sign_then_parse.
