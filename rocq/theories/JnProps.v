(** C321-C327: making JWTs, and checking what was made. *)
From Coq Require Import Permutation.
From Verif Require Import GoBase Base64 StrLemmas JwtSpec DiSpec VcSpec JwtModel SdSpec SdModel SdParse DiModel VcModel VcJwt VcParse JwtProofs JwtProps CkModel CkProps JnModel JnProofs.
From Verif Require LdModel.

(** ** C321  A JWT made by NewSigned with a creator and serialised (attached or detached) is accepted by ParseAndCheckProof with a checker that was given a descriptor for the algorithm
    and accepts what the creator's first signer for it signs; headers and claims come back. *)
Theorem C321_sign_then_check : forall L c p copts kopts (R : resolver) vm d t j m det text (ci : bool) iss,
  sorts L -> new_signed L c p (creator_jwt (LdModel.new_creator copts)) = Ok (t, j) -> tk_payload t = Some m -> serialize L j det = Ok text ->
  survives L (tk_headers t) -> survives L m ->
  ~ In "alg" (map fst (sp_extra p)) -> ~ In "kid" (map fst (sp_extra p)) -> check_headers (tk_headers t) = Ok tt -> sp_kid p <> "" ->
  (if ci then mget m "iss" = Some (JStr iss) else iss = hd "" (split_on "#" (sp_kid p))) ->
  R (sp_kid p) iss = Ok vm -> first_with (fun d => jd_alg d = sp_alg p) (given_jwts kopts) d ->
  (forall x data sig, first_with (fun x => jd_alg (fst x) = sp_alg p) (given_signers copts) x -> snd x data = Ok sig -> accepted_by (given_verifiers kopts) (jd_vms d) vm data sig) ->
  exists t' m', parse_and_check (lib_denv L) text (new_check_jwt R kopts) ci (if det then Some (jws_payload j) else None) false (fun _ => true) = Ok (t', jws_payload j) /\
    tk_payload t' = Some m' /\ Permutation m' m /\ Permutation (tk_headers t') (tk_headers t).
Proof.
  intros L c p copts kopts R vm d t j m det text ci iss S H Hm Hs Vh Vm Na Nk Hc Hk Hi Hr Hd Hx. unfold new_signed in H. cbn [creator_jwt jc_heads bind] in H.
  apply jose_signed_ok in H as (m0 & b & _ & Hb & Eh & Ep & Et & Em & Ha & Hin & Hsg). assert (m0 = m) as -> by congruence. cbn [fst snd] in Eh, Hsg. rewrite Et in *.
  assert (Hne : jws_payload j <> "") by (rewrite Ep; intros ->; now apply (proj2 S) in Hb).
  rewrite <- Ep in Hin. destruct (parse_serialised L j det text S Vh Ha Hne Hin Hs) as (Hcp & h & P & Hpar).
  assert (Nh : NoDup (map fst h)) by (eapply perm_nodup; [apply Permutation_sym, P|apply Vh]).
  assert (Sm : same_map h (jws_headers j)) by (intros k; now apply mget_perm).
  destruct Vm as [NVm Vm]. destruct (Vm _ Hb) as (_ & ms & Hms & Pm). rewrite <- Ep in Hms.
  assert (Nm : NoDup (map fst ms)) by (eapply perm_nodup; [apply Permutation_sym, Pm|assumption]).
  assert (Galg : mget h "alg" = Some (JStr (sp_alg p))) by (rewrite Sm, Eh, merge_get by assumption; apply creator_heads_get).
  assert (Gkid : mget h "kid" = Some (JStr (sp_kid p))) by (rewrite Sm, Eh, merge_get by assumption; now apply creator_heads_get).
  assert (Hm2 : payload_to_map (lib_denv L) (jws_payload j) = Ok ms) by (unfold payload_to_map; cbn [lib_denv de_members]; now rewrite Hms, nodup_str_ok).
  exists {| tk_headers := h; tk_payload := Some ms |}, ms. split; [|cbn; auto].
  unfold parse_and_check, jwt_parse, parse_jwt, map_jws. cbn [lib_denv de_compact de_jws]. rewrite Hcp. cbn [guard bind]. rewrite Hpar. cbn [bind jws_headers jws_payload].
  rewrite (headers_same _ _ Sm), Hc. cbn [bind]. rewrite Hm2. cbn [rmap bind guard snd].
  assert (Hchk : check_proof (lib_denv L) text (new_check_jwt R kopts) (if ci then Some iss else None) (if det then Some (jws_payload j) else None) = Ok tt).
  { unfold check_proof. cbn [lib_denv de_jws]. rewrite Hpar. cbn [bind]. unfold jose_verify. cbn [jws_headers jws_input jws_sig]. unfold h_kid, h_str at 1. rewrite Gkid.
    assert (Hg : (if ci then Some iss else None) = Some iss \/ (if ci then Some iss else None) = None /\ iss = hd "" (split_on "#" (sp_kid p))) by (destruct ci; auto).
    apply C313_first_signer in Hsg as (x & Hx1 & Hx2).
    assert (Hfin : new_check_jwt R kopts h iss (jws_input j) (jws_sig j) = Ok tt).
    { apply C312_jwt. exists (sp_kid p), (sp_alg p), vm, d. repeat split; auto. eapply Hx; eassumption. }
    destruct Hg as [->|[-> <-]]; exact Hfin. }
  assert (Hiss : (if ci then match gjson_get (lib_denv L) (jws_payload j) "iss" with None => Err "check jwt failure: iss claim is required" | Some v => Ok (Some (gjson_string (lib_denv L) v)) end
    else Ok None) = Ok (if ci then Some iss else None)).
  { destruct ci; [|reflexivity]. unfold gjson_get. cbn [lib_denv de_members]. rewrite Hms, (mget_perm _ _ _ Nm Pm), Hi. reflexivity. }
  rewrite Hiss. cbn [bind]. rewrite Hchk. reflexivity.
Qed.

(** the toy library, a creator and a checker of the examples *)
Definition jn_str (a b : json) : bool := match a, b with JStr x, JStr y => String.eqb x y | _, _ => false end.
Definition jn_same (a b : gomap json) : bool := (Nat.eqb (List.length a) (List.length b) && forallb (fun kv => match mget b (fst kv) with Some v => jn_str (snd kv) v | None => false end) a)%bool.
Definition jn_heads : headers := [("alg", JStr "EdDSA"); ("kid", JStr "did:i#k"); ("typ", JStr "JWT")].
Definition jn_claims : gomap json := [("iss", JStr "did:i"); ("sub", JStr "did:s")].
Definition jn_none : headers := [("alg", JStr "none")].
Definition jn_table : list (gomap json * string) := [(jn_heads, "H"); (jn_claims, "C"); (jn_none, "N")].
Definition jn_lib : jlib := {| jl_marshal := fun m => option_map snd (find (fun e => jn_same (fst e) m) jn_table);
  jl_headers := fun s => option_map fst (find (fun e => String.eqb (snd e) s) jn_table); jl_members := fun s => option_map fst (find (fun e => String.eqb (snd e) s) jn_table); jl_gstr := fun _ => "" |}.
Lemma find_same {A} (p q : A -> bool) l : (forall x, p x = q x) -> find p l = find q l.
Proof. intros H. induction l as [|x l IH]; [reflexivity|]. cbn [find]. now rewrite H, IH. Qed.
Lemma jn_sorts : sorts jn_lib.
Proof.
  split.
  - intros m m' N P. cbn [jn_lib jl_marshal]. f_equal. apply find_same. intros [e s]. cbn [fst]. unfold jn_same. rewrite (Permutation_length P). f_equal.
    induction e as [|kv e IH]; [reflexivity|]. cbn [forallb]. rewrite IH. now rewrite (mget_perm _ _ _ N P).
  - intros m. cbn [jn_lib jl_marshal]. destruct (find _ jn_table) as [x|] eqn:E; [|discriminate]. apply find_some in E as [E _]. cbn. cbn in E. intros [= H].
    destruct E as [<-|[<-|[<-|[]]]]; discriminate H.
Qed.
Lemma jn_survives : survives jn_lib jn_heads /\ survives jn_lib jn_claims /\ survives jn_lib jn_none.
Proof.
  repeat split; try (cbn; repeat (constructor; [cbn; intuition discriminate|]); constructor); vm_compute in H; injection H as <-; eexists; (split; [reflexivity|reflexivity]).
Qed.
Definition jn_params : sign_params := {| sp_kid := "did:i#k"; sp_alg := "EdDSA"; sp_extra := [("typ", JStr "JWT")] |}.
Definition jn_copts : list LdModel.copt := [LdModel.WithJWTAlg d_es256 (fun _ => Err "not this"); LdModel.WithJWTAlg d_eddsa (fun d => Ok ("sig:" ++ d))].
Definition jn_verifier : verifier := {| sv_supports := fun _ => true; sv_verify := fun s m _ => if String.eqb s ("sig:" ++ m) then Ok tt else Err "signature" |}.
Definition jn_kopts : list chkopt := [WithJWTAlgs default_jdescs; WithSignatureVerifiers [jn_verifier]].
Definition jn_token : token := {| tk_headers := [("alg", JStr "EdDSA"); ("kid", JStr "did:i#k"); ("typ", JStr "JWT")]; tk_payload := Some jn_claims |}.
Definition jn_jws : jws := {| jws_headers := tk_headers jn_token; jws_payload := "C"; jws_input := "SA.Qw"; jws_sig := "sig:SA.Qw" |}.
Example C321_example : sorts jn_lib /\ new_signed jn_lib (CMap jn_claims) jn_params (creator_jwt (LdModel.new_creator jn_copts)) = Ok (jn_token, jn_jws) /\
  serialize jn_lib jn_jws false = Ok "SA.Qw.c2lnOlNBLlF3" /\ serialize jn_lib jn_jws true = Ok "SA..c2lnOlNBLlF3" /\
  survives jn_lib (tk_headers jn_token) /\ survives jn_lib jn_claims /\ check_headers (tk_headers jn_token) = Ok tt /\
  first_with (fun d => jd_alg d = sp_alg jn_params) (given_jwts jn_kopts) d_eddsa /\
  (forall x data sig, first_with (fun x => jd_alg (fst x) = sp_alg jn_params) (given_signers jn_copts) x -> snd x data = Ok sig -> accepted_by (given_verifiers jn_kopts) (jd_vms d_eddsa) ck_vm data sig) /\
  parse_and_check (lib_denv jn_lib) "SA..c2lnOlNBLlF3" (new_check_jwt (fun k i => if String.eqb i "did:i" then Ok ck_vm else Err "x") jn_kopts) true (Some "C") false (fun _ => true) = Ok (jn_token, "C").
Proof.
  split; [exact jn_sorts|]. split; [vm_compute; reflexivity|]. split; [vm_compute; reflexivity|]. split; [vm_compute; reflexivity|].
  split; [apply jn_survives|]. split; [apply jn_survives|]. split; [vm_compute; reflexivity|]. split; [|split; [|vm_compute; reflexivity]].
  - exists [], (tl default_jdescs). repeat split. constructor.
  - intros x data sig Hx Hs. apply (find_first (fun x : jdesc * LdModel.csigner => String.eqb (jd_alg (fst x)) "EdDSA") _ _ _ (fun y => String.eqb_eq _ _)) in Hx. vm_compute in Hx. injection Hx as <-. cbn [snd] in Hs. injection Hs as <-.
    apply verify_with_ok. transitivity (if String.eqb ("sig:" ++ data) ("sig:" ++ data) then Ok tt else Err "signature"); [reflexivity|now rewrite String.eqb_refl].
Qed.
Print Assumptions C321_sign_then_check.

(** ** C322  An unsecured JWT reads back as its claims under alg none; it is recognised as unsecured, not as signed; no proof checker made with New accepts it, and an embedded one only
    if it was given a descriptor for "none". *)
Theorem C322_unsecured : forall L c t j m text,
  sorts L -> new_unsecured L c = Ok (t, j) -> tk_payload t = Some m -> serialize L j false = Ok text -> survives L (tk_headers t) -> survives L m ->
  tk_headers t = [("alg", JStr "none")] /\
  is_jwt_unsecured (fun b => match jl_members L b with Some _ => true | None => false end) text = true /\
  is_jws (fun b => match jl_members L b with Some _ => true | None => false end) text = false /\
  (exists t' m', jwt_parse (lib_denv L) text None false (fun _ => true) = Ok (t', jws_payload j) /\ tk_payload t' = Some m' /\ Permutation m' m /\ tk_headers t' = tk_headers t) /\
  (forall R kopts iss det, check_proof (lib_denv L) text (new_check_jwt R kopts) iss det <> Ok tt) /\
  (forall vm kopts iss det, (forall d, In d (given_jwts kopts) -> jd_alg d <> "none") -> check_proof (lib_denv L) text (new_check_embedded vm kopts) iss det <> Ok tt).
Proof.
  intros L c t j m text S H Hm Hs Vh Vm. unfold new_unsecured in H. apply jose_signed_ok in H as (m0 & b & _ & Hb & Eh & Ep & Et & Em & Ha & Hin & Hsg).
  assert (m0 = m) as -> by congruence. cbn [fst snd] in Eh, Hsg. change (merge_headers [] [("alg", JStr "none")]) with [("alg", JStr "none")] in Eh. injection Hsg as Hsg. rewrite Et in *.
  split; [exact Eh|].
  assert (Hne : jws_payload j <> "") by (rewrite Ep; intros ->; now apply (proj2 S) in Hb).
  rewrite <- Ep in Hin. destruct (parse_serialised L j false text S Vh Ha Hne Hin Hs) as (Hcp & h & P & Hpar).
  assert (h = [("alg", JStr "none")]) as -> by (rewrite Eh in P; now apply Permutation_sym, Permutation_length_1_inv in P). clear P.
  destruct Vm as [NVm Vm]. destruct (Vm _ Hb) as (_ & ms & Hms & Pm).
  assert (Nm : NoDup (map fst ms)) by (eapply perm_nodup; [apply Permutation_sym, Pm|assumption]).
  assert (T : exists hb, text = (b64_encode hb ++ String "." (b64_encode (jws_payload j) ++ String "." "")) /\ exists mh, jl_members L hb = Some mh).
  { unfold serialize in Hs. apply bind_ok in Hs as (hb & Hh & Hs). injection Hs as Hs. rewrite <- Hsg in Hs. exists hb. split; [symmetry; exact Hs|]. apply marshal_ok in Hh. destruct Vh as [_ Vh].
    destruct (Vh _ Hh) as [_ (mh & Hmh & _)]. eauto. }
  destruct T as (hb & T & mh & Hmh).
  assert (Sp : split_on "." text = [b64_encode hb; b64_encode (jws_payload j); ""]) by (rewrite T; apply split3; [apply b64_dots|apply b64_dots|apply free_empty]).
  split; [unfold is_jwt_unsecured, is_valid_json; rewrite Sp, !b64_decode_encode, Hmh, Ep, Hms; reflexivity|].
  split; [unfold is_jws, is_valid_json; rewrite Sp, !b64_decode_encode, Hmh, Ep, Hms; reflexivity|].
  split.
  { exists {| tk_headers := [("alg", JStr "none")]; tk_payload := Some ms |}, ms. split; [|cbn; auto].
    unfold jwt_parse, parse_jwt, map_jws. cbn [lib_denv de_compact de_jws]. rewrite Hcp. cbn [guard bind]. rewrite Hpar. cbn [bind jws_headers jws_payload].
    change (check_headers [("alg", JStr "none")]) with (@Ok unit tt). cbn [bind]. unfold payload_to_map. cbn [lib_denv de_members]. rewrite Ep, Hms, (nodup_str_ok _ Nm). reflexivity. }
  assert (Hd : forall det x, parse_compact L text det = Ok x -> jws_headers x = [("alg", JStr "none")]).
  { intros det x Hx. unfold parse_compact in Hpar, Hx. rewrite Sp, !b64_decode_encode in *. cbn [bind] in *. destruct (jl_headers L hb) as [h|]; [|discriminate]. cbn [bind] in *.
    destruct (mhas h "alg"); [|discriminate]. cbn [guard bind] in *. apply bind_ok in Hx as (q & _ & Hx). apply bind_ok in Hx as (s & _ & Hx). apply bind_ok in Hx as (i & _ & Hx). injection Hx as <-. cbn [jws_headers].
    apply bind_ok in Hpar as (s' & _ & Hpar). apply bind_ok in Hpar as (i' & _ & Hpar). now injection Hpar as Hpar. }
  split; intros R kopts iss det.
  - intros H. unfold check_proof in H. cbn [lib_denv de_jws] in H. apply bind_ok in H as (x & Hx & H). apply Hd in Hx. unfold jose_verify in H. rewrite Hx in H. apply bind_ok in H as (i & _ & H).
    apply C312_jwt in H as (kid & alg & _ & _ & Hk & _). discriminate Hk.
  - intros Hn H. unfold check_proof in H. cbn [lib_denv de_jws] in H. apply bind_ok in H as (x & Hx & H). apply Hd in Hx. unfold jose_verify in H. rewrite Hx in H. apply bind_ok in H as (i & _ & H).
    apply C312_embedded in H as (alg & d & Hk & (l1 & l2 & Hl & Hd' & _) & _). injection Hk as <-. apply (Hn d); [|assumption]. rewrite Hl. apply in_or_app. right. now left.
Qed.
Example C322_example : exists t j, new_unsecured jn_lib (CMap jn_claims) = Ok (t, j) /\ tk_payload t = Some jn_claims /\ serialize jn_lib j false = Ok "Tg.Qw." /\ survives jn_lib (tk_headers t) /\
  (forall d, In d (given_jwts jn_kopts) -> jd_alg d <> "none") /\ check_proof (lib_denv jn_lib) "Tg.Qw." (new_check_embedded ck_vm jn_kopts) (Some "did:i") None = Err "unsupported jwt alg".
Proof.
  eexists; eexists. split; [vm_compute; reflexivity|]. split; [reflexivity|]. split; [vm_compute; reflexivity|]. split; [apply jn_survives|].
  split; [|vm_compute; reflexivity]. intros d [<-|[<-|[<-|[<-|[<-|[<-|[<-|[]]]]]]]]; discriminate.
Qed.
Print Assumptions C322_unsecured.

(** ** C323  What is signed determines headers and payload: two tokens with the same signing input have the same headers and the same payload, byte for byte; so tokens made of two maps
    of claims that are signed over the same bytes have the same claims. *)
Theorem C323_bytes : forall L h1 p1 h2 p2 i,
  survives L h1 -> survives L h2 -> signing_input L h1 p1 = Ok i -> signing_input L h2 p2 = Ok i -> (forall k, mget h1 k = mget h2 k) /\ p1 = p2.
Proof.
  intros L h1 p1 h2 p2 i [N1 V1] [N2 V2] H1 H2. apply input_ok in H1 as (b1 & f1 & M1 & F1 & ->). apply input_ok in H2 as (b2 & f2 & M2 & F2 & E).
  assert (G : forall a b x y, free_of "." a -> free_of "." b -> a ++ String "." x = b ++ String "." y -> a = b /\ x = y).
  { clear. induction a as [|c a IH]; intros [|e b] x y Ha Hb E; cbn in E.
    - now injection E.
    - injection E as <- _. apply free_of_cons in Hb as [Hb _]. now destruct Hb.
    - injection E as -> _. apply free_of_cons in Ha as [Ha _]. now destruct Ha.
    - injection E as -> E. apply free_of_cons in Ha as [_ Ha]. apply free_of_cons in Hb as [_ Hb]. apply IH in E as [-> ->]; auto. }
  apply G in E as [E1 E2]; [|apply b64_dots|apply b64_dots]. apply b64_encode_inj in E1 as ->. destruct (V1 _ M1) as [(h & Hh & P1) _]. destruct (V2 _ M2) as [(h' & Hh' & P2) _].
  assert (h' = h) as -> by congruence.
  assert (Sm : forall k, mget h1 k = mget h2 k).
  { intros k. transitivity (mget h k); [|apply mget_perm; [eapply perm_nodup; [apply Permutation_sym, P2|assumption]|assumption]].
    symmetry. apply mget_perm; [eapply perm_nodup; [apply Permutation_sym, P1|assumption]|assumption]. }
  split; [exact Sm|]. rewrite <- Sm in F2. assert (f1 = f2) as -> by (destruct F1 as [[F1 ->]|F1], F2 as [[F2 ->]|F2]; congruence).
  destruct f2; [now apply b64_encode_inj|assumption].
Qed.
Theorem C323_tokens : forall L c1 c2 h1 h2 s1 s2 t1 j1 t2 j2 m1 m2,
  new_jose_signed L c1 h1 s1 = Ok (t1, j1) -> new_jose_signed L c2 h2 s2 = Ok (t2, j2) -> tk_payload t1 = Some m1 -> tk_payload t2 = Some m2 ->
  survives L (tk_headers t1) -> survives L (tk_headers t2) -> survives L m1 -> survives L m2 ->
  jws_input j1 = jws_input j2 -> (forall k, mget (tk_headers t1) k = mget (tk_headers t2) k) /\ (forall k, mget m1 k = mget m2 k).
Proof.
  intros L c1 c2 h1 h2 s1 s2 t1 j1 t2 j2 m1 m2 H1 H2 E1 E2 V1 V2 [N1 W1] [N2 W2] Hi. apply jose_signed_ok in H1 as (m & b & _ & Hb & _ & _ & Et & Em & _ & Hin & _).
  apply jose_signed_ok in H2 as (m' & b' & _ & Hb' & _ & _ & Et' & Em' & _ & Hin' & _). assert (m = m1) as -> by congruence. assert (m' = m2) as -> by congruence.
  rewrite Et, Et' in *. rewrite <- Hi in Hin'. destruct (C323_bytes _ _ _ _ _ _ V1 V2 Hin Hin') as [Sm ->]. split; [exact Sm|].
  destruct (W1 _ Hb) as [_ (ms & Hms & P1)]. destruct (W2 _ Hb') as [_ (ms' & Hms' & P2)]. assert (ms' = ms) as -> by congruence. intros k.
  transitivity (mget ms k); [|apply mget_perm; [eapply perm_nodup; [apply Permutation_sym, P2|assumption]|assumption]].
  symmetry. apply mget_perm; [eapply perm_nodup; [apply Permutation_sym, P1|assumption]|assumption].
Qed.
Example C323_example : survives jn_lib jn_heads /\ signing_input jn_lib jn_heads "C" = Ok "SA.Qw" /\ signing_input jn_lib (rev jn_heads) "C" = Ok "SA.Qw" /\ signing_input jn_lib jn_heads "D" <> Ok "SA.Qw".
Proof. split; [apply jn_survives|]. repeat split; vm_compute; congruence. Qed.
Print Assumptions C323_bytes. Print Assumptions C323_tokens.

(** ** C324  A detached token read with another payload shows the verifier another message, with the headers of the token. *)
Theorem C324_other_payload : forall L j text q x, sorts L -> survives L (jws_headers j) -> mhas (jws_headers j) "alg" = true -> jws_payload j <> "" ->
  signing_input L (jws_headers j) (jws_payload j) = Ok (jws_input j) -> serialize L j true = Ok text ->
  q <> "" -> q <> jws_payload j -> parse_compact L text (Some q) = Ok x ->
  jws_payload x = q /\ jws_sig x = jws_sig j /\ (forall k, mget (jws_headers x) k = mget (jws_headers j) k) /\ jws_input x <> jws_input j.
Proof.
  intros L j text q x S V Ha Hne Hi Hs Hq Hd Hx. destruct (parse_serialised L j true text S V Ha Hne Hi Hs) as (_ & h & P & Hpar).
  assert (Nh : NoDup (map fst h)) by (eapply perm_nodup; [apply Permutation_sym, P|apply V]).
  assert (Sp : exists hb, split_on "." text = [b64_encode hb; ""; b64_encode (jws_sig j)]).
  { unfold serialize in Hs. apply bind_ok in Hs as (hb & Hh & Hs). injection Hs as <-. exists hb. apply (split3 _ ""); [apply b64_dots|apply free_empty|apply b64_dots]. }
  destruct Sp as (hb & Sp). unfold parse_compact in Hpar, Hx. rewrite Sp, !b64_decode_encode in *. cbn [bind] in *. destruct (jl_headers L hb) as [h'|]; [|discriminate]. cbn [bind] in *.
  destruct (mhas h' "alg"); [|discriminate]. cbn [guard bind] in *.
  assert (h' = h) as -> by (apply bind_ok in Hpar as (q' & _ & Hpar); apply bind_ok in Hpar as (i' & _ & Hpar); now injection Hpar).
  destruct q as [|a q]; [now destruct Hq|]. cbn [bind] in Hx. apply bind_ok in Hx as (i & Hi' & Hx). injection Hx as <-. cbn [jws_payload jws_sig jws_headers jws_input].
  assert (Sm : forall k, mget h k = mget (jws_headers j) k) by (intros k; now apply mget_perm). repeat split; [exact Sm|].
  intros ->. rewrite (input_perm _ _ _ _ S Nh P) in Hi'. apply Hd. now destruct (C323_bytes _ _ _ _ _ _ V V Hi' Hi).
Qed.
Example C324_example : serialize jn_lib jn_jws true = Ok "SA..c2lnOlNBLlF3" /\ (exists x, parse_compact jn_lib "SA..c2lnOlNBLlF3" (Some "D") = Ok x /\ jws_input x = "SA.RA") /\
  signing_input jn_lib (jws_headers jn_jws) "C" = Ok (jws_input jn_jws).
Proof. split; [vm_compute; reflexivity|]. split; [eexists; split; vm_compute; reflexivity|vm_compute; reflexivity]. Qed.
Print Assumptions C324_other_payload.

(** ** C325  The headers of a token made with a creator: what the caller adds, as it is; besides it the algorithm and, if one is given, the key id; nothing else. *)
Theorem C325_headers : forall L c p copts t j, new_signed L c p (creator_jwt (LdModel.new_creator copts)) = Ok (t, j) -> NoDup (map fst (sp_extra p)) ->
  (forall k v, In (k, v) (sp_extra p) -> mget (tk_headers t) k = Some v) /\
  (~ In "alg" (map fst (sp_extra p)) -> mget (tk_headers t) "alg" = Some (JStr (sp_alg p))) /\
  (~ In "kid" (map fst (sp_extra p)) -> sp_kid p <> "" -> mget (tk_headers t) "kid" = Some (JStr (sp_kid p))) /\
  (~ In "kid" (map fst (sp_extra p)) -> sp_kid p = "" -> mget (tk_headers t) "kid" = None) /\
  (forall k, k <> "alg" -> k <> "kid" -> ~ In k (map fst (sp_extra p)) -> mget (tk_headers t) k = None).
Proof.
  intros L c p copts t j H N. unfold new_signed in H. cbn [creator_jwt jc_heads bind] in H. apply jose_signed_ok in H as (m & b & _ & _ & Eh & _ & Et & _). rewrite Et, Eh. cbn [fst].
  split; [intros k v; now apply merge_extra|]. split; [intros Hn; rewrite merge_get by assumption; apply creator_heads_get|].
  split; [intros Hn Hk; rewrite merge_get by assumption; now apply creator_heads_get|]. split; [intros Hn Hk; rewrite merge_get by assumption; rewrite Hk; reflexivity|].
  intros k Ka Kk Hn. rewrite merge_get by assumption. unfold LdModel.creator_headers. apply String.eqb_neq in Ka. apply String.eqb_neq in Kk.
  destruct (String.eqb (sp_kid p) ""); cbn; now rewrite ?Ka, ?Kk.
Qed.
Example C325_example : new_signed jn_lib (CMap jn_claims) jn_params (creator_jwt (LdModel.new_creator jn_copts)) = Ok (jn_token, jn_jws) /\ NoDup (map fst (sp_extra jn_params)).
Proof. split; [vm_compute; reflexivity|]. constructor; [intros []|constructor]. Qed.
Print Assumptions C325_headers.

(** ** C326 (does not hold): the algorithm that a token names is the one it was signed for.  An added header "alg" replaces the one of the signing parameters, after the signer was chosen. *)
Theorem C326_named_alg_refuted : ~ (forall L c p copts t j alg,
  new_signed L c p (creator_jwt (LdModel.new_creator copts)) = Ok (t, j) -> mget (tk_headers t) "alg" = Some (JStr alg) ->
  exists x, first_with (fun x => jd_alg (fst x) = alg) (given_signers copts) x /\ snd x (jws_input j) = Ok (jws_sig j)).
Proof.
  intros H. set (p := {| sp_kid := ""; sp_alg := "EdDSA"; sp_extra := [("alg", JStr "none")] |}).
  destruct (H jn_lib (CMap jn_claims) p jn_copts {| tk_headers := jn_none; tk_payload := Some jn_claims |} {| jws_headers := jn_none; jws_payload := "C"; jws_input := "Tg.Qw"; jws_sig := "sig:Tg.Qw" |} "none")
    as (x & (a & b & E & Hx & _) & _); [vm_compute; reflexivity|reflexivity|].
  assert (Hin : In x (given_signers jn_copts)) by (rewrite E; apply in_or_app; right; now left). destruct Hin as [<-|[<-|[]]]; discriminate Hx.
Qed.
(** what holds: without such a header it is *)
Theorem C326_named_alg : forall L c p copts t j alg,
  new_signed L c p (creator_jwt (LdModel.new_creator copts)) = Ok (t, j) -> ~ In "alg" (map fst (sp_extra p)) -> mget (tk_headers t) "alg" = Some (JStr alg) ->
  exists x, first_with (fun x => jd_alg (fst x) = alg) (given_signers copts) x /\ snd x (jws_input j) = Ok (jws_sig j).
Proof.
  intros L c p copts t j alg H Hn Ha. unfold new_signed in H. cbn [creator_jwt jc_heads bind] in H. apply jose_signed_ok in H as (m & b & _ & _ & Eh & _ & Et & _ & _ & _ & Hs).
  rewrite Et, Eh, merge_get in Ha by assumption. cbn [fst] in Ha. rewrite (proj1 (creator_heads_get _ _)) in Ha. injection Ha as <-. now apply C313_first_signer.
Qed.
Example C326_example : ~ In "alg" (map fst (sp_extra jn_params)) /\ mget (tk_headers jn_token) "alg" = Some (JStr "EdDSA").
Proof. split; [|reflexivity]. intros [H|[]]. discriminate H. Qed.
Print Assumptions C326_named_alg_refuted. Print Assumptions C326_named_alg.

(** ** C327  In whatever form the claims are handed over - a map, a JSON text, another value - the same claims give the same token; a text with a repeated name gives none. *)
Definition token_text (L : jlib) (r : res (token * jws)) (det : bool) : res string := let* x := r in serialize L (snd x) det.
Theorem C327_same_claims : forall L m ms b p k det, sorts L -> jl_members L b = Some ms -> NoDup (map fst ms) -> Permutation ms m ->
  token_text L (new_signed L (CText b) p k) det = token_text L (new_signed L (CMap m) p k) det /\
  token_text L (new_signed L (CValue (Some b)) p k) det = token_text L (new_signed L (CMap m) p k) det /\
  token_text L (new_unsecured L (CText b)) det = token_text L (new_unsecured L (CMap m)) det.
Proof.
  intros L m ms b p k det S Hb N P.
  assert (G : forall h s, token_text L (new_jose_signed L (CText b) h s) det = token_text L (new_jose_signed L (CMap m) h s) det).
  { intros h s. unfold new_jose_signed, token_text. cbn [claims_map]. unfold payload_to_map. cbn [lib_denv de_members]. rewrite Hb, (nodup_str_ok _ N). cbn [bind].
    assert (marshal L ms = marshal L m) as -> by (unfold marshal; now rewrite (proj1 S _ _ N P)).
    destruct (marshal L m) as [x|e|]; cbn [bind]; try reflexivity. destruct (new_jws L h x s); reflexivity. }
  unfold new_signed, new_unsecured, token_text in *. repeat split; try apply G.
  - destruct (jc_heads k p); cbn [bind]; [apply G| |]; reflexivity.
  - destruct (jc_heads k p); cbn [bind]; [apply G| |]; reflexivity.
Qed.
Theorem C327_repeated : forall L ms b p k, jl_members L b = Some ms -> ~ NoDup (map fst ms) -> forall x, new_signed L (CText b) p k <> Ok x.
Proof.
  intros L ms b p k Hb N x H. unfold new_signed, new_jose_signed in H. apply bind_ok in H as (h & _ & H). apply bind_ok in H as (m & Hm & _). cbn [claims_map] in Hm.
  unfold payload_to_map in Hm. cbn [lib_denv de_members] in Hm. rewrite Hb in Hm. destruct (nodup_str (map fst ms)) eqn:E; [|discriminate]. apply N. clear - E.
  induction (map fst ms) as [|y l IH]; [constructor|]. cbn [nodup_str] in E. apply andb_true_iff in E as [E1 E2]. constructor; [|now apply IH].
  intros Hin. apply str_in_In in Hin. now rewrite Hin in E1.
Qed.
Example C327_example : sorts jn_lib /\ jl_members jn_lib "C" = Some jn_claims /\ NoDup (map fst jn_claims) /\ Permutation jn_claims (rev jn_claims) /\
  token_text jn_lib (new_signed jn_lib (CText "C") jn_params (creator_jwt (LdModel.new_creator jn_copts))) false = Ok "SA.Qw.c2lnOlNBLlF3" /\
  ~ NoDup (map fst [("iss", JNull); ("iss", JNull)]).
Proof.
  split; [exact jn_sorts|]. split; [reflexivity|]. split; [apply jn_survives|]. split; [apply Permutation_rev|]. split; [vm_compute; reflexivity|].
  intros H. inversion H as [|? ? H1 _]; subst. apply H1. now left.
Qed.
Print Assumptions C327_same_claims. Print Assumptions C327_repeated.
