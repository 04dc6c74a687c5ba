(** Property theorems for CWTs and their CBOR bytes (C217-C232). *)
From Coq Require Import Permutation Lia.
From Verif Require Import GoBase StrLemmas Base64 JwtSpec DiSpec VcSpec JwtModel JwtProofs SdSpec SdModel SdParse SdIssueV2 DiModel VcModel VcJwt VcParse
  VcProofs VcSign VcSignProofs JwtProps VcProps VcProps2 VcProps4 CwModel CwSpec CwProofs CwProofs2 CwProofs3 CwProofs4 CwProofs5.

Lemma bstr_31 raw c : dec_all false 31 raw = Some (IBytes c) <-> is_bstr raw c.
Proof.
  unfold is_bstr. split; intros H.
  - apply dec_all_some in H. unfold dec_all, dec_item in *. now rewrite (dec_mono_le _ _ 31 max_depth _ _ ltac:(unfold max_depth; lia) H).
  - apply is_bstr_head in H as [ai H]. unfold dec_all, dec_item, fuel_of. rewrite (dec_bytes _ _ _ _ ai c ""); [reflexivity|]. now rewrite append_nil_r.
Qed.
Lemma header_map_iff c l : protected_map (IBytes c) = Some l <-> header_map_of c l.
Proof.
  unfold header_map_of. cbn [protected_map]. destruct c as [|a c].
  - split; [intros [= <-]; auto|intros [[_ ->]|[? _]]; [reflexivity|contradiction]].
  - destruct (dec_all true max_depth (String a c)) as [[| | | | |l'| | |]|]; split; try discriminate;
      try (intros [[? _]|[_ ?]]; discriminate); [intros [= ->]; right; split; [discriminate|reflexivity]|intros [[? _]|[_ H]]; [discriminate|congruence]].
Qed.
Lemma parse_parts hok data m : parse_sign1 hok data = Some m <-> exists c,
  cose_parts data (s1_raw m) c (s1_unprot m) (s1_payload m) (s1_sig m) /\ header_map_of c (s1_prot m)
  /\ s1_sig m <> "" /\ hok (s1_prot m) (s1_unprot m) = true.
Proof.
  rewrite parse_iff. split.
  - intros (c & u & pl & sg & -> & D1 & Dp & D2 & D3 & D4 & Hs & Hh). exists c. split; [|split; [now apply header_map_iff|auto]].
    exists u, pl, sg. split; [reflexivity|]. split; [now apply bstr_31|]. split; [assumption|]. split; [assumption|]. now apply bstr_31.
  - intros (c & (u & pl & sg & -> & D1 & D2 & D3 & D4) & Dp & Hs & Hh). exists c, u, pl, sg. split; [reflexivity|]. split; [now apply bstr_31|].
    split; [now apply header_map_iff|]. split; [assumption|]. split; [assumption|]. split; [now apply bstr_31|auto].
Qed.
Lemma cwt_parse_ok hok data m : cwt_parse hok data = Ok m <-> parse_sign1 hok data = Some m.
Proof. unfold cwt_parse. destruct (parse_sign1 hok data); split; congruence. Qed.
Lemma parts_bytes data raw c u p s : cose_parts data raw c u p s -> (slen c < two64)%N /\ payload_fits p.
Proof.
  intros (ut & pt & st & _ & D1 & _ & D3 & _). split; [eapply bstr_bound, D1|]. destruct p as [t|]; [|exact I]. apply dec_all_some in D3. eapply bytes_item_bound, D3.
Qed.

(** ** C217  Parse reads exactly the four parts of a tagged COSE_Sign1 array, and GetProofValue of the message is the
    Sig_structure of RFC 9052 for them: context "Signature1", the content of the protected header, no external data, the payload. *)
Theorem C217_signed_bytes : forall hok data m,
  cwt_parse hok data = Ok m <->
  exists c, cose_parts data (s1_raw m) c (s1_unprot m) (s1_payload m) (s1_sig m)
    /\ header_map_of c (s1_prot m) /\ s1_sig m <> "" /\ hok (s1_prot m) (s1_unprot m) = true
    /\ get_proof_value m = Ok (sig_structure c (s1_payload m)).
Proof.
  intros hok data m. rewrite cwt_parse_ok, parse_parts. split.
  - intros (c & Hp & Hm & Hs & Hh). exists c. repeat (split; [assumption|]). apply (parsed_value hok). constructor; try assumption.
    + destruct Hp as (? & ? & ? & _ & Hr & _). exact Hr.
    + now apply header_map_iff.
    + apply (parts_bytes _ _ _ _ _ _ Hp).
  - intros (c & Hp & Hm & Hs & Hh & _). exists c. auto.
Qed.
(** a message whose protected header has its length in two bytes where one would do *)
Definition any_headers : list (item * item) -> list (item * item) -> bool := fun _ _ => true.
Definition ex_hdr (kid : string) (key : bool) : string :=
  enc (IMap ([(IUint 1, INeg 7); (IUint 4, IBytes kid)] ++ (if key then [(IText "COSE_Key", IText "a1")] else []))%list).
Definition long_bstr (c : string) : string := String "089" (be 2 (slen c) ++ c).
Definition ex_cwt (raw : string) (u : list (item * item)) (payload sig : string) : string :=
  String "210" (String "132" "") ++ raw ++ enc (IMap u) ++ enc (IBytes payload) ++ enc (IBytes sig).
Definition iss_payload (s : string) : string := enc (IMap [(IUint 1, IText s); (IUint 4, IUint 99)]).
Definition ex_signed (raw c : string) u payload : string := ex_cwt raw u payload ("sig:" ++ sig_structure c (Some payload)).
Example C217_example : exists m,
  cwt_parse any_headers (ex_signed (long_bstr (ex_hdr "did:i#k" true)) (ex_hdr "did:i#k" true) [] (iss_payload "did:i")) = Ok m
  /\ s1_raw m <> enc (IBytes (ex_hdr "did:i#k" true)) /\ s1_payload m = Some (iss_payload "did:i")
  /\ get_proof_value m = Ok (sig_structure (ex_hdr "did:i#k" true) (Some (iss_payload "did:i"))).
Proof. eexists. split; [vm_compute; reflexivity|]. split; [discriminate|split; vm_compute; reflexivity]. Qed.
Print Assumptions C217_signed_bytes.

(** ** C218  No two messages share a to-be-signed text unless they have the same protected header content and payload
    (present or detached). *)
Theorem C218_no_confusion : forall hok hok' d d' m m' c c',
  cwt_parse hok d = Ok m -> cwt_parse hok' d' = Ok m' -> get_proof_value m = get_proof_value m' ->
  is_bstr (s1_raw m) c -> is_bstr (s1_raw m') c' ->
  c = c' /\ s1_payload m = s1_payload m' /\ s1_prot m = s1_prot m'.
Proof.
  intros hok hok' d d' m m' c c' H H' E Hc Hc'. apply cwt_parse_ok in H, H'. apply parse_inv in H as [x H]. apply parse_inv in H' as [x' H'].
  pose proof (pa_raw _ _ _ H) as R. pose proof (pa_raw _ _ _ H') as R'. unfold is_bstr in *. assert (c = x) by congruence. assert (c' = x') by congruence. subst.
  destruct (parsed_same _ _ _ _ _ _ H H' E) as (? & ? & ?). auto.
Qed.
Example C218_example : exists m m',
  cwt_parse any_headers (ex_signed (long_bstr (ex_hdr "did:i#k" true)) (ex_hdr "did:i#k" true) [] (iss_payload "did:i")) = Ok m
  /\ cwt_parse any_headers (ex_signed (enc (IBytes (ex_hdr "did:i#k" true))) (ex_hdr "did:i#k" true) [(IUint 9, IUint 1)] (iss_payload "did:i")) = Ok m'
  /\ m <> m' /\ get_proof_value m = get_proof_value m'.
Proof. eexists. eexists. split; [vm_compute; reflexivity|]. split; [vm_compute; reflexivity|]. split; [discriminate|vm_compute; reflexivity]. Qed.
Print Assumptions C218_no_confusion.

(** ** C219  The byte string of the protected header is normalised: whichever form its length has, the to-be-signed text
    contains the shortest form; and a text is accepted there exactly when it is one byte string. *)
Theorem C219_shortest_form : forall raw,
  (forall c, is_bstr raw c -> det_bstr raw = Ok (enc (IBytes c))
     /\ (forall raw', is_bstr raw' c -> (String.length (enc (IBytes c)) <= String.length raw')%nat)
     /\ is_bstr (enc (IBytes c)) c)
  /\ ((exists d, det_bstr raw = Ok d) <-> exists c, is_bstr raw c).
Proof.
  intros raw. split.
  - intros c H. split; [now apply det_bstr_ok|]. split; [intros raw'; apply shortest|apply enc_is_bstr; eapply bstr_bound, H].
  - split; [intros [d H]; apply det_bstr_inv in H as (c & H & _); eauto|intros [c H]; exists (enc (IBytes c)); now apply det_bstr_ok].
Qed.
Example C219_example : is_bstr (long_bstr "ab") "ab" /\ long_bstr "ab" <> enc (IBytes "ab") /\ det_bstr (long_bstr "ab") = Ok (enc (IBytes "ab"))
  /\ is_err (det_bstr (enc (IText "ab"))) = true /\ is_err (det_bstr (enc (IBytes "ab") ++ "x")) = true.
Proof. split; [vm_compute; reflexivity|]. split; [discriminate|]. repeat split; vm_compute; reflexivity. Qed.
Print Assumptions C219_shortest_form.

(** ** C220  GetProofValue never panics, whatever bytes the message holds as its raw protected header (truncated heads included). *)
Theorem C220_no_panic : forall m, get_proof_value m <> Panic.
Proof.
  intros m. unfold get_proof_value. pose proof (det_bstr_total (marshal_protected m)). destruct (det_bstr (marshal_protected m)); cbn; congruence.
Qed.
Example C220_example : is_err (det_bstr (String "091" "")) = true /\ is_err (det_bstr (String "089" (String "001" ""))) = true /\ is_err (det_bstr "") = true
  /\ byte_at (String "091" "") 1 = Panic.
Proof. repeat split; vm_compute; reflexivity. Qed.
Print Assumptions C220_no_panic.

(** ** C221  ParseAndCheckProof accepts exactly when: the bytes are a COSE_Sign1 message; the protected header has an
    algorithm number and a text under "COSE_Key"; (when the issuer is to be checked) the payload has a text issuer claim; and the checker
    accepts the Sig_structure and the signature, for the header's key id and key material, and for that issuer, or for
    the DID of the key id when there is none.  It returns the message and its payload. *)
Definition expected_issuer (issuer : string -> res string) (check_issuer : bool) (payload iss : string) : Prop :=
  if check_issuer then issuer payload = Ok iss else iss = "".
Lemma accepted_iff : forall hok issuer (chk : cwt_checker) check_issuer data m p,
  parse_and_check hok issuer chk check_issuer data = Ok (m, p) <->
  exists c key alg iss,
    cose_parts data (s1_raw m) c (s1_unprot m) (s1_payload m) (s1_sig m) /\ header_map_of c (s1_prot m) /\ s1_sig m <> ""
    /\ hok (s1_prot m) (s1_unprot m) = true
    /\ p = match s1_payload m with Some s => s | None => "" end
    /\ label_s (s1_prot m) "COSE_Key" = Some (IText key)
    /\ header_alg (s1_prot m) = Ok alg
    /\ expected_issuer issuer check_issuer p iss
    /\ chk {| cw_kid := header_kid (s1_prot m); cw_key := key; cw_alg := alg |}
           (if String.eqb iss "" then hd "" (split_on "#" (header_kid (s1_prot m))) else iss)
           (sig_structure c (s1_payload m)) (s1_sig m) = Ok tt.
Proof.
  intros hok issuer chk ci data m p. unfold parse_and_check. split.
  - intros H. apply bind_ok in H as (m' & Hm & H). apply bind_ok in H as (iss & Hi & H). apply bind_ok in H as (u & Hk & H). apply bind_ok in H as (tbs & Ht & H).
    apply bind_ok in H as (u' & Hc & H). injection H as -> <-. apply C217_signed_bytes in Hm as (c & Hp & Hh & Hs & Hok & Hv).
    unfold has_text_label in Hk. destruct (label_s (s1_prot m) "COSE_Key") as [[| | |key| | | | |]|] eqn:Ek; try discriminate.
    unfold cwt_check_proof in Hc. apply bind_ok in Hc as (alg & Ha & Hc). cbn [coset_of co_alg co_kid co_key co_sig co_payload] in *.
    exists c, key, alg, iss. repeat (split; [assumption|]). split; [reflexivity|]. split; [reflexivity|]. split; [assumption|]. split.
    { unfold expected_issuer. destruct ci; [assumption|congruence]. }
    assert (Et : tbs = sig_structure c (s1_payload m)) by (rewrite Hv in Ht; congruence). rewrite Et in Hc. unfold header_key in Hc. rewrite Ek in Hc. destruct u'.
    destruct (String.eqb_spec iss "") as [->|]; cbn [andb] in Hc; [|exact Hc]. destruct (String.eqb_spec (header_kid (s1_prot m)) "") as [Eq|]; cbn [negb] in Hc; [|exact Hc].
    rewrite Eq in *. exact Hc.
  - intros (c & key & alg & iss & Hp & Hh & Hs & Hok & -> & Ek & Ha & Hi & Hc).
    assert (Hm : get_proof_value m = Ok (sig_structure c (s1_payload m))).
    { apply (parsed_value hok). constructor; try assumption; [destruct Hp as (? & ? & ? & _ & Hr & _); exact Hr|now apply header_map_iff|apply (parts_bytes _ _ _ _ _ _ Hp)]. }
    assert (Hd : cwt_parse hok data = Ok m) by (apply C217_signed_bytes; exists c; auto). rewrite Hd. cbn [bind].
    assert (Hx : (if ci then issuer (co_payload (coset_of m)) else Ok "") = Ok iss) by (cbn [coset_of co_payload]; unfold expected_issuer in Hi; destruct ci; congruence).
    rewrite Hx. cbn [bind]. unfold has_text_label. rewrite Ek. cbn [guard bind]. rewrite Hm. cbn [bind].
    unfold cwt_check_proof. cbn [coset_of co_alg co_kid co_key co_sig co_payload]. rewrite Ha. cbn [bind]. unfold header_key. rewrite Ek.
    assert (Hj : (if String.eqb iss "" && negb (String.eqb (header_kid (s1_prot m)) "") then hd "" (split_on "#" (header_kid (s1_prot m))) else iss)
       = if String.eqb iss "" then hd "" (split_on "#" (header_kid (s1_prot m))) else iss).
    { destruct (String.eqb_spec iss "") as [->|]; [|reflexivity]. cbn [andb]. destruct (String.eqb_spec (header_kid (s1_prot m)) "") as [Eq|]; cbn [negb]; [|reflexivity]. now rewrite Eq. }
    rewrite Hj, Hc. reflexivity.
Qed.
Lemma labelled_n l n v : label_n l n = Some v <-> labelled l (IUint n) v.
Proof.
  induction l as [|[k w] l IH]; cbn [label_n].
  - split; [discriminate|]. intros (l1 & l2 & H & _). now destruct l1.
  - assert (Hne : k <> IUint n -> (label_n l n = Some v <-> labelled ((k, w) :: l) (IUint n) v)).
    { intros Hne. rewrite IH. split; intros (l1 & l2 & H & Hn).
      - exists ((k, w) :: l1), l2. split; [cbn; now rewrite H|]. cbn. intros [E|E]; auto.
      - destruct l1 as [|x l1]; cbn in H; [congruence|]. injection H as <- ->. exists l1, l2. split; [reflexivity|]. cbn in Hn. tauto. }
    destruct k; try (apply Hne; discriminate). destruct (N.eqb_spec n0 n) as [->|Hx]; [|apply Hne; congruence].
    split.
    + intros H. injection H as ->. exists [], l. split; [reflexivity|intros []].
    + intros (l1 & l2 & H & Hn). destruct l1 as [|x l1]; cbn in H; [congruence|]. injection H as <- ->. cbn in Hn. tauto.
Qed.
Lemma labelled_s l s v : label_s l s = Some v <-> labelled l (IText s) v.
Proof.
  induction l as [|[k w] l IH]; cbn [label_s].
  - split; [discriminate|]. intros (l1 & l2 & H & _). now destruct l1.
  - assert (Hne : k <> IText s -> (label_s l s = Some v <-> labelled ((k, w) :: l) (IText s) v)).
    { intros Hne. rewrite IH. split; intros (l1 & l2 & H & Hn).
      - exists ((k, w) :: l1), l2. split; [cbn; now rewrite H|]. cbn. intros [E|E]; auto.
      - destruct l1 as [|x l1]; cbn in H; [congruence|]. injection H as <- ->. exists l1, l2. split; [reflexivity|]. cbn in Hn. tauto. }
    destruct k; try (apply Hne; discriminate). destruct (String.eqb_spec s0 s) as [->|Hx]; [|apply Hne; congruence].
    split.
    + intros H. injection H as ->. exists [], l. split; [reflexivity|intros []].
    + intros (l1 & l2 & H & Hn). destruct l1 as [|x l1]; cbn in H; [congruence|]. injection H as <- ->. cbn in Hn. tauto.
Qed.
Lemma header_alg_iff l alg : header_alg l = Ok alg <-> algorithm_of l alg.
Proof.
  unfold header_alg, algorithm_of. split.
  - destruct (label_n l 1) as [i|] eqn:E; [|discriminate]. apply labelled_n in E. destruct i; cbn [item_int]; intros H; try discriminate; injection H as <-; [left|right]; eauto.
  - intros [(n & H & ->)|(n & H & ->)]; apply labelled_n in H; rewrite H; reflexivity.
Qed.
Lemma header_kid_iff l kid : header_kid l = kid <-> key_id_of l kid.
Proof.
  unfold header_kid, key_id_of. split.
  - intros <-. destruct (label_n l 4) as [i|] eqn:E; [|right; split; [reflexivity|]; intros s H; apply labelled_n in H; congruence].
    destruct i; try (right; split; [reflexivity|]; intros s' H; apply labelled_n in H; congruence). left. now apply labelled_n.
  - intros [H|[-> H]]; [apply labelled_n in H; now rewrite H|]. destruct (label_n l 4) as [i|] eqn:E; [|reflexivity]. destruct i; try reflexivity.
    apply labelled_n in E. now apply H in E.
Qed.
Lemma payload_issuer_iff any payload iss : payload_issuer any payload = Ok iss <-> issuer_claim any payload iss.
Proof.
  unfold payload_issuer, issuer_claim.
  assert (Hk : forall l, forallb (fun kv : item * item => match item_int (fst kv) with Some _ => any (snd kv) | None => false end) l = true
     <-> Forall (fun kv => ((exists n, fst kv = IUint n) \/ (exists n, fst kv = INeg n)) /\ any (snd kv) = true) l).
  { intros l. rewrite forallb_forall, Forall_forall. split; intros H x Hx; specialize (H x Hx); destruct x as [k v]; cbn [fst snd] in *.
    - destruct k; cbn [item_int] in H; try discriminate; (split; [|exact H]); [left|right]; eauto.
    - destruct H as [[[n ->]|[n ->]] H]; exact H. }
  split.
  - destruct (dec_all true max_depth payload) as [[| | | | |l| |n|]|] eqn:E; try discriminate.
    2:{ destruct n as [|p]; try discriminate. do 5 (destruct p as [p|p|]; try discriminate). }
    destruct (forallb _ l) eqn:Ef; [|discriminate]. apply Hk in Ef. destruct (label_n (rev l) 1) as [i|] eqn:El; [|discriminate]. destruct i; try discriminate.
    intros H. injection H as ->. apply labelled_n in El as (l1 & l2 & Hl & Hn). exists l, (rev l2), (rev l1). split; [reflexivity|]. split; [exact Ef|].
    split.
    + rewrite <- (rev_involutive l), Hl. rewrite rev_app_distr. cbn [rev]. now rewrite <- app_assoc.
    + rewrite map_rev. rewrite <- in_rev. exact Hn.
  - intros (l & l1 & l2 & -> & Hf & Hl & Hn). apply Hk in Hf. rewrite Hf.
    assert (El : label_n (rev l) 1 = Some (IText iss)).
    { apply labelled_n. exists (rev l2), (rev l1). split; [rewrite Hl, rev_app_distr; cbn [rev]; now rewrite <- app_assoc|]. rewrite map_rev. rewrite <- in_rev. exact Hn. }
    now rewrite El.
Qed.
Theorem C221_accepted_iff : forall hok any (chk : cwt_checker) check_issuer data m p,
  parse_and_check hok (payload_issuer any) chk check_issuer data = Ok (m, p) <->
  exists c key alg kid iss,
    cose_parts data (s1_raw m) c (s1_unprot m) (s1_payload m) (s1_sig m) /\ header_map_of c (s1_prot m) /\ s1_sig m <> ""
    /\ hok (s1_prot m) (s1_unprot m) = true
    /\ p = match s1_payload m with Some s => s | None => "" end
    /\ labelled (s1_prot m) (IText "COSE_Key") (IText key)
    /\ algorithm_of (s1_prot m) alg /\ key_id_of (s1_prot m) kid
    /\ (if check_issuer then issuer_claim any p iss else iss = "")
    /\ chk {| cw_kid := kid; cw_key := key; cw_alg := alg |}
           (if String.eqb iss "" then hd "" (split_on "#" kid) else iss)
           (sig_structure c (s1_payload m)) (s1_sig m) = Ok tt.
Proof.
  intros hok any chk ci data m p. rewrite accepted_iff. split.
  - intros (c & key & alg & iss & H1 & H2 & H3 & H4 & H5 & H6 & H7 & H8 & H9). exists c, key, alg, (header_kid (s1_prot m)), iss. repeat (split; [assumption|]).
    split; [now apply labelled_s|]. split; [now apply header_alg_iff|]. split; [now apply header_kid_iff|]. split; [|assumption].
    unfold expected_issuer in H8. destruct ci; [now apply payload_issuer_iff|assumption].
  - intros (c & key & alg & kid & iss & H1 & H2 & H3 & H4 & H5 & H6 & H7 & H8 & H9 & H10). apply header_kid_iff in H8. subst kid. exists c, key, alg, iss. repeat (split; [assumption|]).
    split; [now apply labelled_s|]. split; [now apply header_alg_iff|]. split; [|assumption].
    unfold expected_issuer. destruct ci; [now apply payload_issuer_iff|assumption].
Qed.
Definition any_value : item -> bool := fun _ => true.
Definition ex_chk : cwt_checker := default_cwt ex_cenv ex_resolve (fun _ => Err "x").
Example C221_example :
  let good ci raw kid key iss := parse_and_check any_headers (payload_issuer any_value) ex_chk ci (ex_signed raw (ex_hdr kid key) [] (iss_payload iss)) in
  is_ok (good true (enc (IBytes (ex_hdr "did:i#k" true))) "did:i#k" true "did:i") = true
  /\ is_ok (good true (long_bstr (ex_hdr "did:i#k" true)) "did:i#k" true "did:i") = true
  /\ is_ok (good false (enc (IBytes (ex_hdr "did:i#k" true))) "did:i#k" true "did:j") = true
  /\ is_err (good true (enc (IBytes (ex_hdr "did:i#k" true))) "did:i#k" true "did:j") = true
  /\ is_err (good true (enc (IBytes (ex_hdr "did:i#k" false))) "did:i#k" false "did:i") = true.
Proof. vm_compute. repeat split; reflexivity. Qed.
Print Assumptions C221_accepted_iff.

(** ** C222  Nothing outside the signed bytes and the signature can change the outcome: two messages with the same
    to-be-signed text and signature get the same verdict and payload from ParseAndCheckProof. *)
Theorem C222_only_signed_content : forall hok issuer (chk : cwt_checker) check_issuer d d' m m',
  cwt_parse hok d = Ok m -> cwt_parse hok d' = Ok m' -> get_proof_value m = get_proof_value m' -> s1_sig m = s1_sig m' ->
  rmap snd (parse_and_check hok issuer chk check_issuer d) = rmap snd (parse_and_check hok issuer chk check_issuer d').
Proof.
  intros hok issuer chk ci d d' m m' H H' E Es. unfold parse_and_check. rewrite H, H'. cbn [bind].
  pose proof H as P. pose proof H' as P'. apply cwt_parse_ok in P, P'. apply parse_inv in P as [x P]. apply parse_inv in P' as [x' P'].
  destruct (parsed_same _ _ _ _ _ _ P P' E) as (Ep & Ey & _).
  assert (Ec : coset_of m = coset_of m') by (unfold coset_of; now rewrite Ep, Ey, E, Es). rewrite Ec, E, Ep.
  destruct (if ci then issuer (co_payload (coset_of m')) else Ok "") as [iss| |]; cbn [bind rmap]; try reflexivity.
  destruct (guard (has_text_label (s1_prot m') "COSE_Key") _) as [[]| |]; cbn [bind rmap]; try reflexivity.
  destruct (get_proof_value m') as [t| |]; cbn [bind rmap]; try reflexivity.
  destruct (cwt_check_proof chk iss (coset_of m') t) as [[]| |]; reflexivity.
Qed.
Example C222_example : exists m m',
  cwt_parse any_headers (ex_signed (long_bstr (ex_hdr "did:i#k" true)) (ex_hdr "did:i#k" true) [] (iss_payload "did:i")) = Ok m
  /\ cwt_parse any_headers (ex_signed (enc (IBytes (ex_hdr "did:i#k" true))) (ex_hdr "did:i#k" true) [(IUint 9, IUint 1)] (iss_payload "did:i")) = Ok m'
  /\ m <> m' /\ get_proof_value m = get_proof_value m' /\ s1_sig m = s1_sig m'
  /\ is_ok (parse_and_check any_headers (payload_issuer any_value) ex_chk true (ex_signed (long_bstr (ex_hdr "did:i#k" true)) (ex_hdr "did:i#k" true) [] (iss_payload "did:i"))) = true.
Proof. eexists. eexists. split; [vm_compute; reflexivity|]. split; [vm_compute; reflexivity|]. split; [discriminate|]. split; [vm_compute; reflexivity|]. split; vm_compute; reflexivity. Qed.
Print Assumptions C222_only_signed_content.
