(** Lemmas for C321-C326. *)
From Coq Require Import Permutation.
From Verif Require Import GoBase Base64 StrLemmas JwtSpec DiSpec VcSpec JwtModel SdSpec SdModel SdParse DiModel VcModel VcJwt VcParse JwtProofs JwtProps CkModel CkProps JnModel.
From Verif Require LdModel.

(** ** Small specification *)
(** two maps with the same members *)
Definition same_map (m m' : gomap json) : Prop := forall k, mget m k = mget m' k.
(** the text of a map does not depend on the order of its members (encoding/json sorts them) and is not empty *)
Definition sorts (L : jlib) : Prop :=
  (forall m m', NoDup (map fst m) -> Permutation m m' -> jl_marshal L m = jl_marshal L m') /\ (forall m, jl_marshal L m <> Some "").
(** a map survives writing and reading: true of maps of JSON values whose strings are UTF-8 *)
Definition survives (L : jlib) (m : gomap json) : Prop :=
  NoDup (map fst m) /\ forall b, jl_marshal L m = Some b ->
    (exists h, jl_headers L b = Some h /\ Permutation h m) /\ (exists ms, jl_members L b = Some ms /\ Permutation ms m).

Lemma b64_dots s : free_of "." (b64_encode s).
Proof. unfold free_of, char_in. intros H. now apply b64_encode_chars in H as [_ H]. Qed.
Lemma split3 a b c : free_of "." a -> free_of "." b -> free_of "." c -> split_on "." (a ++ String "." (b ++ String "." c)) = [a; b; c].
Proof. intros. now rewrite !split_on_app, split_on_free. Qed.
Lemma free_empty c : free_of c "". Proof. intros []. Qed.
Lemma marshal_ok L m b : marshal L m = Ok b <-> jl_marshal L m = Some b.
Proof. unfold marshal. destruct (jl_marshal L m); split; congruence. Qed.
Lemma input_ok L h p i : signing_input L h p = Ok i <-> exists hb b64, jl_marshal L h = Some hb /\
  (mget h "b64" = None /\ b64 = true \/ mget h "b64" = Some (JBool b64)) /\ i = (b64_encode hb ++ String "." (if b64 then b64_encode p else p)).
Proof.
  unfold signing_input, marshal. split.
  - destruct (jl_marshal L h) as [hb|]; [|discriminate]. cbn [bind]. destruct (mget h "b64") as [[]|] eqn:E; try discriminate; cbn [bind]; intros H; injection H as <-.
    + exists hb, b. auto.
    + exists hb, true. auto.
  - intros (hb & b & -> & [[E1 E2]|E1] & ->); rewrite E1; cbn [bind]; [now rewrite E2|reflexivity].
Qed.
Lemma input_perm L h h' p : sorts L -> NoDup (map fst h) -> Permutation h h' -> signing_input L h p = signing_input L h' p.
Proof. intros S N P. unfold signing_input, marshal. now rewrite (proj1 S _ _ N P), (mget_perm _ _ "b64" N P). Qed.
Lemma perm_nodup {V} (m m' : gomap V) : Permutation m m' -> NoDup (map fst m) -> NoDup (map fst m').
Proof. intros P. apply Permutation_NoDup. now apply Permutation_map. Qed.
Lemma headers_same h h' : same_map h h' -> check_headers h = check_headers h'.
Proof. intros H. unfold check_headers, mhas. now rewrite !H. Qed.
Lemma nodup_str_ok l : NoDup l -> nodup_str l = true.
Proof.
  induction 1 as [|x l Hx _ IH]; [reflexivity|]. cbn [nodup_str]. rewrite IH, andb_true_r. apply negb_true_iff. destruct (str_in x l) eqn:E; [|reflexivity]. exfalso. apply Hx.
  now apply str_in_In in E.
Qed.

(** the parsing of a serialised token *)
Lemma parse_serialised L j det text : sorts L -> survives L (jws_headers j) -> mhas (jws_headers j) "alg" = true -> jws_payload j <> "" ->
  signing_input L (jws_headers j) (jws_payload j) = Ok (jws_input j) -> serialize L j det = Ok text ->
  is_compact text = true /\ exists h, Permutation h (jws_headers j) /\
  parse_compact L text (if det then Some (jws_payload j) else None) = Ok {| jws_headers := h; jws_payload := jws_payload j; jws_input := jws_input j; jws_sig := jws_sig j |}.
Proof.
  intros S [N Hv] Ha Hp Hi H. unfold serialize in H. apply bind_ok in H as (hb & Hb & H). injection H as <-. apply marshal_ok in Hb. destruct (Hv _ Hb) as [(h & Hh & P) _].
  assert (E : split_on "." (b64_encode hb ++ String "." ((if det then "" else b64_encode (jws_payload j)) ++ String "." (b64_encode (jws_sig j))))
    = [b64_encode hb; if det then "" else b64_encode (jws_payload j); b64_encode (jws_sig j)]).
  { apply split3; [apply b64_dots| |apply b64_dots]. destruct det; [apply free_empty|apply b64_dots]. }
  unfold is_compact. rewrite E. split; [reflexivity|]. exists h. split; [assumption|]. unfold parse_compact. rewrite E, b64_decode_encode. cbn [bind]. rewrite Hh. cbn [bind].
  assert (N' : NoDup (map fst h)) by (eapply perm_nodup; [apply Permutation_sym, P|assumption]).
  assert (Ha' : mhas h "alg" = true) by (unfold mhas in *; now rewrite (mget_perm _ _ _ N' P)). rewrite Ha'. cbn [guard bind].
  destruct det.
  - destruct (jws_payload j) as [|x y]; [now destruct Hp|]. cbn [bind]. rewrite b64_decode_encode. cbn [bind]. now rewrite (input_perm _ _ _ _ S N' P), Hi.
  - rewrite b64_decode_encode. cbn [bind]. rewrite b64_decode_encode. cbn [bind]. now rewrite (input_perm _ _ _ _ S N' P), Hi.
Qed.

(** what [new_jose_signed] gives *)
Lemma jose_signed_ok L c h signer t j : new_jose_signed L c h signer = Ok (t, j) ->
  exists m b, claims_map L c = Ok m /\ jl_marshal L m = Some b /\ jws_headers j = merge_headers h (fst signer) /\ jws_payload j = b /\
    tk_headers t = jws_headers j /\ tk_payload t = Some m /\ mhas (jws_headers j) "alg" = true /\
    signing_input L (jws_headers j) b = Ok (jws_input j) /\ snd signer (jws_input j) = Ok (jws_sig j).
Proof.
  unfold new_jose_signed, new_jws. intros H. apply bind_ok in H as (m & Hm & H). apply bind_ok in H as (b & Hb & H). apply bind_ok in H as (j' & Hj & H). injection H as <- <-.
  apply bind_ok in Hj as (u & Hu & Hj). apply bind_ok in Hj as (i & Hi & Hj). apply bind_ok in Hj as (s & Hs & Hj). injection Hj as <-. cbn.
  exists m, b. apply marshal_ok in Hb. destruct (mhas (merge_headers h (fst signer)) "alg") eqn:E; [|discriminate]. repeat split; auto.
Qed.
Lemma merge_get h1 : forall h2 k, ~ In k (map fst h1) -> mget (merge_headers h1 h2) k = mget h2 k.
Proof.
  unfold merge_headers. induction h1 as [|[x v] h1 IH]; intros h2 k H; [reflexivity|]. cbn [fold_left fst snd]. cbn in H. rewrite IH by tauto. rewrite mget_mset.
  destruct (String.eqb_spec k x) as [->|]; [exfalso; tauto|reflexivity].
Qed.
Lemma merge_extra h1 : forall h2 k v, NoDup (map fst h1) -> In (k, v) h1 -> mget (merge_headers h1 h2) k = Some v.
Proof.
  unfold merge_headers. induction h1 as [|[x w] h1 IH]; intros h2 k v N H; [destruct H|]. cbn [fold_left fst snd]. inversion N as [|? ? N1 N2]; subst. destruct H as [H|H].
  - injection H as -> ->. change (mget (merge_headers h1 (mset h2 k v)) k = Some v). rewrite merge_get by assumption. now rewrite mget_mset, String.eqb_refl.
  - now apply IH.
Qed.
Lemma creator_heads_get alg kid : mget (LdModel.creator_headers alg kid) "alg" = Some (JStr alg) /\ (kid <> "" -> mget (LdModel.creator_headers alg kid) "kid" = Some (JStr kid)).
Proof. unfold LdModel.creator_headers. destruct (String.eqb_spec kid "") as [->|]; cbn; split; congruence. Qed.
